(** Specification of the XML of whole files. *)
From Coq Require Import ZArith String List Bool Permutation.
From Verif Require Import Base Model_Tree Model_ParaText Model_XmlModel Model_Text Model_Record Model_Models Model_Embed Model_XmlFile
  Spec_Tree Spec_Oleprops Spec_Bintype Spec_Models Spec_Layouts Spec_Embed Spec_XmlElement Spec_Section Spec_XmlFile.
Import ListNotations.
Open Scope string_scope.
Open Scope list_scope.
Open Scope Z_scope.

(** ** Numbers

    Elements of these names have one more attribute. *)
Definition numbered_names : list (list Z * list Z) :=
  [(zs "Paragraph", zs "paragraph-id"); (zs "TableControl", zs "table-id");
   (zs "GShapeObjectControl", zs "gshape-id"); (zs "ShapeComponent", zs "shape-id")].
Definition same (a b : list Z) : bool := if list_eq_dec Z.eq_dec a b then true else false.
Definition id_attribute (name : list Z) : option (list Z) :=
  match find (fun e => same (fst e) name) numbered_names with Some e => Some (snd e) | None => None end.
(** How many elements of the same name come before. *)
Definition count (name : list Z) (before : list (list Z)) : Z := zlen (filter (same name) before).
Inductive number_attribute (before : list (list Z)) (name : list Z) : list (list Z * list Z) -> Prop :=
| na_none : id_attribute name = None -> number_attribute before name []
| na_number : forall key t, id_attribute name = Some key -> decimal t (count name before) -> number_attribute before name [(key, t)].

(** [numbered before t t' after]: [t'] is [t] with the numbers; [before] are the
    names of the elements before [t] in document order, [after] these and those of
    [t]. *)
Inductive numbered : list (list Z) -> xtree -> xtree -> list (list Z) -> Prop :=
| nd : forall before name attrs text kids number attrs' kids' after,
    number_attribute before name number -> Permutation attrs' (attrs ++ number) ->
    all_numbered (before ++ [name]) kids kids' after ->
    numbered before (Elem name attrs text kids) (Elem name attrs' text kids') after
with all_numbered : list (list Z) -> list xtree -> list xtree -> list (list Z) -> Prop :=
| an_none : forall before, all_numbered before [] [] before
| an_more : forall before t t' middle ts ts' after, numbered before t t' middle -> all_numbered middle ts ts' after ->
    all_numbered before (t :: ts) (t' :: ts') after.

(** All the elements of a tree in document order, with their attributes. *)
Fixpoint elements_of (t : xtree) : list (list Z * list (list Z * list Z)) :=
  match t with Elem name attrs _ kids => (name, attrs) :: flat_map elements_of kids end.
Definition named (name : list Z) (t : xtree) : list (list (list Z * list Z)) :=
  map snd (filter (fun e => same name (fst e)) (elements_of t)).

(** ** Versions are four numbers with dots. *)
Inductive version_text : list Z -> list Z -> Prop :=
| vx : forall a b c d ta tb tc td, decimal ta a -> decimal tb b -> decimal tc c -> decimal td d ->
    version_text [a; b; c; d] (ta ++ zs "." ++ tb ++ zs "." ++ tc ++ zs "." ++ td).

(** ** Files

    What is assumed of the document information (as in C69) and of a section (as
    in C70), and what is written for them. *)
Section Parts.
  Variable repr : view -> list Z.
  Variable object : list Z.
  Variable version : list Z.

  Record docinfo_fits (embedbin : option (list Z -> res (list Z))) (records : list record) : Prop := {
    df_bytes : Forall (fun r => all_bytes (r_payload r) /\ 0 <= r_level r) records;
    df_first : forall r rest, records = r :: rest -> r_level r = 0;
    df_read : exists out, models_of version Finished [] records out Finished /\
      (forall r m, In (r, m) out -> ~ In (m_type m) unwritten) /\
      (forall r m read x, In (r, m) out -> embedbin = Some read -> ~ embedding read (mkBev true (m_type m) (m_content m)) (Raise x)) }.
  Definition docinfo_shown (embedbin : option (list Z -> res (list Z))) (records : list record) (ds : list xtree) : Prop :=
    exists out f, models_of version Finished [] records out Finished /\
      preorder 0 f = map (fun rm => (r_level (fst rm), rm)) out /\ written (shown_record repr object embedbin) f ds.

  Record section_fits (records : list record) : Prop := {
    sf_bytes : Forall (fun r => all_bytes (r_payload r) /\ 0 <= r_level r) records;
    sf_first : forall r rest, records = r :: rest -> r_level r = 0;
    sf_read : exists out f, models_of version Finished [] records out Finished /\ preorder 0 f = pass_items 1 out /\ section_ok f }.
  Definition section_shown (s : Z * list record) (t : xtree) : Prop :=
    exists out f g, models_of version Finished [] (snd s) out Finished /\ preorder 0 f = pass_items 1 out /\
      section_tree (Some (fst s)) f g /\ written (shown_node repr object) g [t].
End Parts.

(** The forest of what the records of a section were read as. *)
Definition section_records (version : list Z) (records : list record) (f : forest Model_XmlModel.item) : Prop :=
  exists out, models_of version Finished [] records out Finished /\ preorder 0 f = pass_items 1 out.
