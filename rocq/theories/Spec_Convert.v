(** Specification of the converters. *)
From Coq Require Import ZArith String List Bool.
From Verif Require Import Base Model_Storage Spec_Storage.
Import ListNotations.
Open Scope Z_scope.

(** Everything in the file system is in a directory. *)
Definition rooted (f : fs) : Prop := forall p n, fs_lookup f (p ++ [n]) <> None -> fs_lookup f p = Some Dir.

(** A path name made of plain names, and the path it denotes. *)
Inductive names_path (cwd : list name) : name -> list name -> Prop :=
| np_relative : forall p, p <> [] -> Forall plain p -> names_path cwd (joined p) (cwd ++ p)
| np_absolute : forall p, p <> [] -> Forall plain p -> names_path cwd (47 :: joined p) p.

(** The parents are directories. *)
Definition parents (f : fs) (q : list name) : Prop := forall a b, q = a ++ b -> b <> [] -> fs_lookup f a = Some Dir.

(** The path is q or below it. *)
Definition within (q p : list name) : Prop := exists r, p = q ++ r.

(** Names at all levels, whatever else happens, are plain file names. *)
Fixpoint plain_names (x : item) : Prop :=
  match x with
  | mkItem _ i g _ _ _ => Forall plain (fst i) /\ forall n, match g n with Ok y => plain_names y | Raise _ => True end
  end.

(** What hwp5html makes of a document. *)
Definition html_contents (xhtml css : list Z) (bindata : option dir) : dir :=
  DFile (zs "index.xhtml") xhtml (DFile (zs "styles.css") css
    (match bindata with Some d => DDir (zs "bindata") (spell d) DNil | None => DNil end)).
(** The storage BinData of a file has these contents. *)
Inductive bindata_of (x : item) : option dir -> Prop :=
| bd_none : snd (iter x) = Finished -> ~ In (zs "BinData") (fst (iter x)) -> bindata_of x None
| bd_some : forall y d, In (zs "BinData") (fst (iter x)) -> get x (zs "BinData") = Ok y -> represents y d ->
    all_names plain d -> dirs_without_05 d -> distinct (spell d) -> bindata_of x (Some d).

(** The name without its extension. *)
Inductive stem_of : name -> name -> Prop :=
| so_none : forall t, ~ In 46 t -> stem_of t t
| so_extension : forall a b, ~ In 46 b -> (exists c, In c a /\ c <> 46) -> stem_of (a ++ 46 :: b) a
| so_hidden : forall a b, ~ In 46 b -> (forall c, In c a -> c = 46) -> stem_of (a ++ 46 :: b) (a ++ 46 :: b).
