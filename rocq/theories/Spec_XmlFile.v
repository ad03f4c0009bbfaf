(** Specification of the XML of sections, of the summary information and of whole
    files. *)
From Coq Require Import ZArith String List Bool Permutation.
From Verif Require Import Base Model_ParaText Model_Tree Model_XmlText Spec_Oleprops Spec_Layouts Spec_XmlElement.
From Verif Require Model_Bintype Model_Models.
From Verif Require Import Model_XmlModel.
Import ListNotations.
Open Scope string_scope.
Open Scope list_scope.
Open Scope Z_scope.

(** ** Sections

    The attributes of a node of the document tree (C34) as members. *)
Definition kind_text (k : ctl_kind) : list Z :=
  match k with KChar => zs "CHAR" | KInline => zs "INLINE" | KExtended => zs "EXTENDED" end.
Definition attribute_view (a : aval) : view :=
  match a with
  | VInt n => Int n
  | VFlags g n => view_of (Model_Bintype.VFlags g n)
  | VText t => Text t
  | VLang s => Text (zs s)
  | VKind k => Text (kind_text k)
  | VInts l => Items (map Int l)
  | VChunks l => Chunks l
  | VCharShapes l => Items (map (fun p => Items [Int (fst p); Int (snd p)]) l)
  | VLineSegs l => Items (map (fun d => Members (map (fun kn => (fst kn, Int (snd kn))) d)) l)
  | VOther v => view_of v
  end.
Definition attribute_views (x : item) : list (string * view) := map (fun kv => (fst kv, attribute_view (snd kv))) (i_attrs x).

(** How the model [m] of a record appears as a node [x]: the same members, and
    the members that the document tree is made from are there and have the right
    types.  In a line there are only numbers, also for flags. *)
Inductive line_numbers : list (string * Model_Bintype.value) -> list (string * Z) -> Prop :=
| ln_end : line_numbers [] []
| ln_number : forall k n d l, line_numbers d l -> line_numbers ((k, Model_Bintype.VInt n) :: d) ((k, n) :: l)
| ln_flags : forall k g n d l, line_numbers d l -> line_numbers ((k, Model_Bintype.VFlags g n) :: d) ((k, n) :: l).
Record seen_as (m : Model_Models.model) (x : item) : Prop := {
  sa_type : i_model x = Model_Models.m_type m;
  sa_members : Model_Models.m_type m <> "ParaLineSeg" -> attribute_views x = views (Model_Models.m_content m);
  sa_paragraph : Model_Models.m_type m = "Paragraph" -> exists gs n, attr_get "split" (i_attrs x) = Some (VFlags gs n);
  sa_text : Model_Models.m_type m = "ParaText" -> exists l, i_attrs x = [("chunks", VChunks l)];
  sa_shapes : Model_Models.m_type m = "ParaCharShape" -> exists l, i_attrs x = [("charshapes", VCharShapes l)];
  sa_lines : Model_Models.m_type m = "ParaLineSeg" -> exists ls l, Model_Models.m_content m = [("linesegs", Model_Bintype.VList (map Model_Bintype.VDict ls))] /\
    i_attrs x = [("linesegs", VLineSegs l)] /\ Forall2 line_numbers ls l;
  sa_rows : Model_Models.m_type m = "TableBody" -> exists l, attr_get "rowcols" (i_attrs x) = Some (VInts l) }.

(** The members of a line are numbers, those of its flags single bits. *)
Definition bit_of (n i : Z) : Z * option string := (n / 2 ^ i mod 2, None).
Definition line_view (kv : string * aval) : string * view :=
  (fst kv, match snd kv with
           | VInt n => if String.eqb (fst kv) "lineseg_flags"
                       then Flags n [("line_head", bit_of n 17); ("line_tail", bit_of n 18); ("indented", bit_of n 20); ("bullet", bit_of n 21)]
                       else Int n
           | a => attribute_view a
           end).
(** A paragraph without lines has one line of zeros. *)
Definition line_of_zeros : list (string * aval) :=
  map (fun k => (k, VInt 0)) ["chpos"; "y"; "height"; "height2"; "height85"; "space_below"; "x"; "width"; "a8"; "flags"].
Definition zero_attributes : list (list Z * list Z) :=
  map (fun k => (zs k, zs "0"))
    ["chpos"; "y"; "height"; "height-text"; "height-baseline"; "space-below"; "x"; "width";
     "line-head"; "line-tail"; "indented"; "bullet"; "height2"; "height85"; "a8"; "flags"]
  ++ [(zs "lineseg-flags", zs "00000000")].

(** What is made of texts, control characters, rows and columns: everything is an
    attribute, except the characters of a text. *)
Definition made_nodes : list string := ["Text"; "ControlChar"; "TableRow"; "ColumnSet"].
Definition is_characters (x : item) (kv : string * aval) : bool := String.eqb (i_model x) "Text" && String.eqb (fst kv) "text".
Inductive made_text : aval -> list Z -> Prop :=
| mt_number : forall n t, decimal t n -> made_text (VInt n) t
| mt_text : forall t, made_text (VText t) t
| mt_lang : forall s, made_text (VLang s) (zs s)
| mt_kind : forall k, made_text (VKind k) (kind_text k).
Definition characters (x : item) : list Z :=
  match filter (is_characters x) (i_attrs x) with [(_, VText t)] => t | _ => [] end.

Section Nodes.
  Variable repr : view -> list Z.
  Variable object : list Z.

  Inductive shown_node (x : item) : xtree -> Prop :=
  | sn_record : forall t, ~ In (i_model x) made_nodes -> i_model x <> "LineSeg" ->
      element repr object (i_model x) (attribute_views x) t -> shown_node x t
  | sn_line : forall t, i_model x = "LineSeg" -> element repr object "LineSeg" (map line_view (i_attrs x)) t -> shown_node x t
  | sn_zero_line : forall attrs, i_model x = "LineSeg" -> i_attrs x = line_of_zeros -> Permutation attrs zero_attributes ->
      shown_node x (Elem (zs "LineSeg") attrs [] [])
  | sn_made : forall listed attrs, In (i_model x) made_nodes ->
      Forall2 (fun kv a => fst a = attribute_name (fst kv) /\ made_text (snd kv) (snd a))
              (filter (fun kv => negb (is_characters x kv)) (i_attrs x)) listed ->
      Permutation attrs listed -> NoDup (map fst attrs) ->
      shown_node x (Elem (zs (i_model x)) attrs (characters x) []).

  (** What is written for one event: everything but the end of the element, or the
      end. *)
  Inductive shown_event : event item -> list xevent -> Prop :=
  | sv_start : forall x t, shown_node x t -> well_named t -> shown_event (EStart x) (opening t)
  | sv_end : forall x, shown_event (EEnd x) [XEnd (zs (i_model x))].
End Nodes.
