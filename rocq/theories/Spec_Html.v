(** Specification of what a browser shows of the pages of hwp5html: which rules
    apply to an element (CSS 2.1, sections 5 and 6.4), and the text of a page. *)
From Coq Require Import ZArith String List Bool.
From Verif Require Import Base Model_Text Model_XmlText Model_Plaintext Model_Html.
Import ListNotations.
Open Scope string_scope.
Open Scope list_scope.
Open Scope Z_scope.

(** ** CSS *)

(** Names that can be written in a selector as they are. *)
Definition name_start (c : Z) : bool := ((97 <=? c) && (c <=? 122)) || ((65 <=? c) && (c <=? 90)) || (c =? 95) || (128 <=? c).
Definition name_char (c : Z) : bool := name_start c || ((48 <=? c) && (c <=? 57)) || (c =? 45).
Definition identifier (t : list Z) : bool :=
  match t with
  | 45 :: c :: r => name_start c && forallb name_char r
  | c :: r => name_start c && forallb name_char r
  | [] => false
  end.

(** An element of the page: its name and its classes. *)
Definition blank (c : Z) : bool := (c =? 32) || (c =? 9) || (c =? 10) || (c =? 12) || (c =? 13).
Fixpoint words (acc t : list Z) : list (list Z) :=
  match t with
  | [] => match acc with [] => [] | _ => [rev acc] end
  | c :: r => if blank c then match acc with [] => words [] r | _ => rev acc :: words [] r end else words (c :: acc) r
  end.
Definition element : Type := (list Z * list (list Z))%type.
Definition element_of (x : xnode) : element :=
  match x with
  | Element n attrs _ => (n, match lookup (zs "class") attrs with Some t => words [] t | None => [] end)
  | Characters _ => ([], [])
  end.

Definition text_eqb (a b : list Z) : bool := if list_eq_dec Z.eq_dec a b then true else false.
(** A compound selector matches an element; pseudo-elements and the
    pseudo-classes of styles.css (for .Paper) do not match elements.  A selector
    with a class that is not an identifier is an error: the rule is ignored. *)
Definition fits (a : compound) (e : element) : bool :=
  match c_tag a with Some t => text_eqb t (fst e) | None => true end &&
  forallb (fun c => identifier c && existsb (text_eqb c) (snd e)) (c_classes a) &&
  match c_pseudo a with None => true | Some _ => false end.
(** A selector matches an element in others, innermost first. *)
Definition matches (s : selector) (e : element) (outer : list element) : bool :=
  match s with
  | Plain a => fits a e
  | Child a b => fits b e && match outer with o :: _ => fits a o | [] => false end
  | Inside a b => fits b e && existsb (fits a) outer
  end.

(** How special a selector is: classes first, then names. *)
Definition weight (a : compound) : nat * nat := (List.length (c_classes a), match c_tag a with Some _ => 1%nat | None => 0%nat end).
Definition both (a b : nat * nat) : nat * nat := ((fst a + fst b)%nat, (snd a + snd b)%nat).
Definition specificity (s : selector) : nat * nat :=
  match s with Plain a => weight a | Child a b => both (weight a) (weight b) | Inside a b => both (weight a) (weight b) end.
Definition beats (a b : nat * nat) : bool := Nat.ltb (fst b) (fst a) || (Nat.eqb (fst a) (fst b) && Nat.ltb (snd b) (snd a)).

(** The last declaration of a property in a block. *)
Fixpoint declared (p : list Z) (l : list declaration) : option (list Z) :=
  match l with
  | [] => None
  | (q, v) :: r => match declared p r with Some w => Some w | None => if text_eqb p q then Some v else None end
  end.
(** The declaration that counts: of the most special rule, the last of these. *)
Fixpoint chosen (e : element) (outer : list element) (p : list Z) (best : option ((nat * nat) * list Z)) (rules : list rule) : option (list Z) :=
  match rules with
  | [] => option_map snd best
  | r :: rest =>
      chosen e outer p
        (if matches (r_selector r) e outer then
           match declared p (r_declarations r), best with
           | Some v, Some (b, w) => if beats b (specificity (r_selector r)) then best else Some (specificity (r_selector r), v)
           | Some v, None => Some (specificity (r_selector r), v)
           | None, _ => best
           end
         else best) rest
  end.
Definition cascade (rules : list rule) (e : element) (outer : list element) (p : string) : option (list Z) := chosen e outer (zs p) None rules.

Fixpoint first_of {A} (l : list (option A)) : option A :=
  match l with [] => None | Some a :: _ => Some a | None :: r => first_of r end.

(** ** Documents *)

(** The nodes with a child named [s]. *)
Definition parents (s : string) (document : list xnode) : list xnode :=
  filter (fun x => match children_named s x with [] => false | _ => true end) (map self (all_nodes document)).
(** The one IdMappings of a document, which has all the shapes. *)
Definition shapes : list string := ["Style"; "ParaShape"; "CharShape"; "FaceName"].
Record mapped (document : list xnode) (m : xnode) : Prop := mkMapped {
  md_path : flat_map (children_named "IdMappings") (flat_map (children_named "DocInfo") (filter (named_node "HwpDoc") document)) = [m];
  md_one : filter (named_node "IdMappings") (map self (all_nodes document)) = [m];
  md_alone : forall s, In s shapes -> parents s document = match children_named s m with [] => [] | _ => [m] end;
  md_root : forall s, In s shapes -> filter (named_node s) document = []
}.

(** Attribute [s] of [x] is the number of [y] in [l], counted from 0. *)
Definition refers (s : string) (x : xnode) (l : list xnode) (y : xnode) : Prop :=
  exists k, attr s x = Some (fmt_d (Z.of_nat k)) /\ nth_error l k = Some y.
(** The same counted from 1. *)
Definition refers1 (s : string) (x : xnode) (l : list xnode) (y : xnode) : Prop :=
  exists k, attr s x = Some (fmt_d (Z.of_nat (S k))) /\ nth_error l k = Some y.

Fixpoint begins (p t : list Z) : bool :=
  match p, t with [], _ => true | a :: p', b :: t' => (a =? b) && begins p' t' | _, [] => false end.
(** Names that would be taken for other things on the page. *)
Definition reserved (t : list Z) : bool :=
  existsb (fun s => text_eqb t (zs s)) ["Paper"; "Page"; "HeaderPageFooter"; "HeaderArea"; "FooterArea"; "TableControl"] ||
  existsb (fun s => begins (zs s) t) ["parashape-"; "charshape-"; "borderfill-"; "lang-"; "Section-"; "Bullet-"].
Definition style_name (st : xnode) : list Z := map (fun c => if c =? 32 then 45 else c) (value_of "name" st).
(** Styles whose names are identifiers, not reserved, and different. *)
Definition names_fine (styles : list xnode) : Prop :=
  NoDup (map style_name styles) /\ Forall (fun st => identifier (style_name st) = true /\ reserved (style_name st) = false) styles.

(** The fonts of a document are listed language by language. *)
Definition languages_in_order : list string := ["ko"; "en"; "cn"; "jp"; "other"; "symbol"; "user"].
Definition fonts_by_language (m : xnode) (groups : list (list xnode)) : Prop :=
  List.length groups = 7%nat /\ children_named "FaceName" m = concat groups /\
  Forall2 (fun l g => attr (l ++ "-fonts") m = Some (fmt_d (Z.of_nat (List.length g)))) languages_in_order groups.

(** What a paragraph shape says about alignment. *)
Definition alignment (x : xnode) : list Z :=
  match attr "align" x with
  | Some t => if text_eqb t (zs "center") || text_eqb t (zs "left") || text_eqb t (zs "right") then t else zs "justify"
  | None => zs "justify"
  end.
(** Lines under, over and through texts, in CSS, and their styles. *)
Definition text_lines : list (string * string) := [("underline", "underline"); ("overline", "overline"); ("line_through", "line-through")].
Definition text_line_styles : list (string * string) :=
  [("solid", "solid"); ("dashed", "dashed"); ("dotted", "dotted"); ("dash_dot", "dashed"); ("dash_dot_dot", "dashed"); ("long_dashed", "dashed");
   ("large_dotted", "dotted"); ("double", "double"); ("lower_weighted", "double"); ("upper_weighted", "double"); ("middle_weighted", "double")].
(** Lines of borders in CSS, of all kinds but long-dash; thin ones in pixels. *)
Definition border_lines : list (string * string) :=
  [("none", "none"); ("solid", "solid"); ("dashed", "dashed"); ("dotted", "dotted"); ("dash-dot", "dashed"); ("dash-dot-dot", "dashed"); ("large-dot", "dotted");
   ("double", "double"); ("double-2", "double"); ("double-3", "double"); ("triple", "double"); ("wave", "solid"); ("double-wave", "double"); ("inset", "inset");
   ("outset", "outset"); ("groove", "groove"); ("ridge", "ridge")].
Definition border_widths : list (string * string) :=
  [("0.1mm", "1px"); ("0.12mm", "1px"); ("0.15mm", "1px"); ("0.2mm", "1px"); ("0.25mm", "1px"); ("0.3mm", "0.3mm"); ("0.4mm", "2px"); ("0.5mm", "2px");
   ("0.6mm", "0.6mm"); ("0.7mm", "0.7mm"); ("1.0mm", "1.0mm"); ("1.5mm", "1.5mm"); ("2.0mm", "2.0mm"); ("3.0mm", "3.0mm"); ("4.0mm", "4.0mm"); ("5.0mm", "5.0mm")].
(** The borders of a cell. *)
Definition sides : list string := ["top"; "right"; "bottom"; "left"].
Definition border (side : string) (x : xnode) : list xnode :=
  filter (fun b => match attr "attribute-name" b with Some t => text_eqb t (zs side) | None => false end) (children_named "Border" x).

(** ** Pages *)

(** All elements of a page. *)
Fixpoint parts (x : xnode) : list xnode := x :: match x with Element _ _ kids => flat_map parts kids | Characters _ => [] end.
Definition page_elements (s : string) (l : list xnode) : list xnode := filter (named_node s) (flat_map parts l).

(** The characters of a page, with a line feed after each paragraph. *)
Fixpoint page_text (x : xnode) : list Z :=
  match x with
  | Characters t => t
  | Element n _ kids => flat_map page_text kids ++ (if name_is "p" n then [10] else [])
  end.

(** Controls without words: column definitions and the like. *)
Definition with_words : list string :=
  ["Paragraph"; "Text"; "ControlChar"; "AutoNumbering"; "TableControl"; "GShapeObjectControl"; "ShapeComponent"; "ShapePicture"; "FootNote"; "EndNote"; "Header"; "Footer"].
Definition wordless (x : xnode) : bool :=
  forallb (fun y => match y with Element n _ _ => negb (existsb (fun s => name_is s n) with_words) | Characters _ => false end) (parts x).
Definition control_char (x : xnode) : bool := named_node "ControlChar" x && match kids_of_node x with [] => true | _ => false end.
(** Paragraphs with only text and control characters in their lines, and no
    headers and footers. *)
Fixpoint only_text (x : xnode) : bool :=
  match x with
  | Characters _ => true
  | Element n _ kids =>
      negb (existsb (fun s => name_is s n) ["Text"; "ControlChar"; "AutoNumbering"; "TableControl"; "GShapeObjectControl"; "ShapePicture"; "Header"; "Footer"]) &&
      (if name_is "Paragraph" n then
         forallb (fun l => match l with
                           | Element ln _ lk => name_is "LineSeg" ln && forallb (fun k => named_node "Text" k || control_char k || wordless k) lk
                           | Characters _ => false
                           end) kids
       else forallb only_text kids)
  end.
(** The characters of texts and of control characters, with a line feed after
    each paragraph. *)
Fixpoint spoken (x : xnode) : list Z :=
  match x with
  | Characters t => t
  | Element n _ kids =>
      if name_is "Text" n then first_text kids
      else if name_is "ControlChar" n then value_of "char" x
      else flat_map spoken kids ++ (if name_is "Paragraph" n then [10] else [])
  end.
