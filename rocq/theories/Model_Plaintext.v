(** Model of xsl/plaintext.xsl, the style sheet of hwp5txt, and of what an XSLT
    processor does with it (external: lxml or xsltproc).  Output is characters;
    the processor writes them in UTF-8, the default of [xsl:output]. *)
From Coq Require Import ZArith String List Bool.
From Verif Require Import Base Model_XmlText.
Import ListNotations.
Open Scope string_scope.
Open Scope list_scope.
Open Scope Z_scope.

(** ** The document an XSLT processor sees: elements and text nodes. *)
Inductive xnode : Type :=
| Element (name : list Z) (attributes : list (list Z * list Z)) (children : list xnode)
| Characters (t : list Z).

(** The nodes of what a parser reported: for each open element (innermost first)
    its name, its attributes and the nodes before it, last first; then the nodes
    in the innermost open element, last first. *)
Fixpoint build (opened : list (list Z * list (list Z * list Z) * list xnode)) (done : list xnode) (es : list xevent) : option (list xnode) :=
  match es with
  | [] => match opened with [] => Some (rev done) | _ => None end
  | XStart n attrs :: r => build ((n, attrs, done) :: opened) [] r
  | XText t :: r => build opened (Characters t :: done) r
  | XEnd _ :: r => match opened with
                   | (n, attrs, before) :: opened' => build opened' (Element n attrs (rev done) :: before) r
                   | [] => None
                   end
  end.

Definition name_is (s : string) (n : list Z) : bool := if list_eq_dec Z.eq_dec n (zs s) then true else false.

(** plaintext.xsl 49-51 [value-of select="text()"]: the first text node. *)
Fixpoint first_text (l : list xnode) : list Z :=
  match l with
  | [] => []
  | Characters t :: _ => t
  | Element _ _ _ :: r => first_text r
  end.

(** plaintext.xsl 55: [&#10;&lt;표&gt;&#10;] *)
Definition table_text : list Z := [10; 60; 54364; 62; 10].
(** plaintext.xsl 57: [&#10;&lt;그림&gt;&#10;] *)
Definition picture_text : list Z := [10; 60; 44536; 47548; 62; 10].

(** plaintext.xsl 44-57 and the built-in templates of XSLT 1.0 (section 5.8):
    elements without a template are replaced by what their children give, text
    nodes give their text. *)
Fixpoint apply_templates (x : xnode) : list Z :=
  match x with
  | Characters t => t
  | Element n _ kids =>
      if name_is "Paragraph" n then flat_map apply_templates kids ++ [10]            (* 44-47 *)
      else if name_is "Text" n then first_text kids                                   (* 49-51 *)
      else if name_is "ControlChar" n then []                                         (* 53 *)
      else if name_is "TableControl" n then table_text                                (* 55 *)
      else if name_is "GShapeObjectControl" n then picture_text                       (* 57 *)
      else flat_map apply_templates kids
  end.

Definition children_named (s : string) (x : xnode) : list xnode :=
  match x with
  | Element _ _ kids => filter (fun k => match k with Element n _ _ => name_is s n | Characters _ => false end) kids
  | Characters _ => []
  end.
Definition named_node (s : string) (x : xnode) : bool := match x with Element n _ _ => name_is s n | Characters _ => false end.
Definition kids_of_node (x : xnode) : list xnode := match x with Element _ _ kids => kids | Characters _ => [] end.

(** plaintext.xsl 38-42, the template of the root: [HwpDoc/BodyText], and for
    each the children. *)
Definition root_template (document : list xnode) : list Z :=
  flat_map (fun b => flat_map apply_templates (kids_of_node b)) (flat_map (children_named "BodyText") (filter (named_node "HwpDoc") document)).

(** The characters hwp5txt writes for the XML of the file, as it was parsed. *)
Definition plaintext (es : list xevent) : option (list Z) :=
  match build [] [] es with Some document => Some (root_template document) | None => None end.
