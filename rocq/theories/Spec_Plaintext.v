(** Specification of the text of a section, in terms of its records. *)
From Coq Require Import ZArith String List Bool.
From Verif Require Import Base Model_Tree Spec_Tree Model_ParaText Spec_Shape Model_XmlModel Spec_XmlModel Spec_Section.
Import ListNotations.
Open Scope string_scope.
Open Scope list_scope.
Open Scope Z_scope.

(** What is said by records: how many section definitions there are, the text in
    these (master pages), and the other text.  The text in the section definition
    comes first in the output. *)
Record meaning : Type := mkMeaning { definitions : nat; front : list Z; body : list Z }.
Definition nothing : meaning := mkMeaning 0 [] [].
Definition says (t : list Z) : meaning := mkMeaning 0 [] t.
Definition and_then (a b : meaning) : meaning := mkMeaning (definitions a + definitions b) (front a ++ front b) (body a ++ body b).
Definition all_of (l : list meaning) : meaning := fold_right and_then nothing l.

(** Tables and pictures are only mentioned (in Korean, in angle brackets, on a
    line of their own). *)
Definition a_table : list Z := [10] ++ zs "<" ++ [0xD45C] ++ zs ">" ++ [10].
Definition a_picture : list Z := [10] ++ zs "<" ++ [0xADF8; 0xB9BC] ++ zs ">" ++ [10].
Definition element_says (x : item) (inside : meaning) : meaning :=
  if model_is "TableControl" x then mkMeaning (definitions inside) (front inside) a_table
  else if model_is "GShapeObjectControl" x then mkMeaning (definitions inside) (front inside) a_picture
  else if is_sectiondef x then mkMeaning (S (definitions inside)) (front inside ++ body inside) []
  else inside.

(** The text of a paragraph: its characters, and at the place of each extended
    control character what the next of its controls says.  All other control
    characters give nothing. *)
Fixpoint laid_out (chunks : list chunk) (controls : list meaning) : meaning :=
  match chunks with
  | [] => nothing
  | ChText t :: r => and_then (says t) (laid_out r controls)
  | ChCtl ct :: r =>
      if extended_code (chunk_control_code ct) then
        match controls with
        | m :: controls' => and_then m (laid_out r controls')
        | [] => laid_out r []
        end
      else laid_out r controls
  end.
Definition chunks_of (l : list item) : list chunk :=
  match last_of "ParaText" l with
  | Some x => match attr_get "chunks" (i_attrs x) with Some (VChunks chunks) => map snd chunks | _ => [] end
  | None => []
  end.
Definition paragraph_says (kids : list (item * meaning)) : meaning :=
  and_then (all_of (map snd (filter (fun t => negb (is_ctl (fst t))) kids)))
    (and_then (laid_out (chunks_of (map fst kids)) (map snd (filter (fun t => is_ctl (fst t)) kids))) (says [10])).

(** What each tree of a forest says. *)
Fixpoint told (f : forest item) : list (item * meaning) :=
  match f with
  | FNil => []
  | FCons x k n => (x, if is_para x then paragraph_says (told k) else element_says x (all_of (map snd (told k)))) :: told n
  end.
Definition section_says (f : forest item) : meaning := all_of (map snd (told f)).
Definition section_text (f : forest item) : list Z := front (section_says f) ++ body (section_says f).

(** How many section definitions are among the records. *)
Definition definition_records (f : forest item) : nat := List.length (filter is_sectiondef (starts (walk f))).

(** Records that may differ in everything but their types and the text of
    paragraphs. *)
Fixpoint same_text (f g : forest item) : Prop :=
  match f, g with
  | FNil, FNil => True
  | FCons x k n, FCons y k' n' =>
      i_model y = i_model x /\ (i_model x = "ParaText" -> i_attrs y = i_attrs x) /\ same_text k k' /\ same_text n n'
  | _, _ => False
  end.
(** The characters of the text chunks. *)
Definition characters_of (chunks : list chunk) : list Z := flat_map (fun c => match c with ChText t => t | ChCtl _ => [] end) chunks.
Definition not_extended (c : chunk) : Prop := match c with ChText _ => True | ChCtl ct => extended_code (chunk_control_code ct) = false end.
