(** Specification of storages: directory trees. *)
From Coq Require Import ZArith String List Bool.
From Verif Require Import Base Model_Storage.
Import ListNotations.
Open Scope Z_scope.

(** A directory: entries in order, each a file or a directory. *)
Inductive dir : Type :=
| DNil
| DFile (n : name) (b : list Z) (rest : dir)
| DDir (n : name) (sub : dir) (rest : dir).

Fixpoint dnames (d : dir) : list name :=
  match d with DNil => [] | DFile n _ r => n :: dnames r | DDir n _ r => n :: dnames r end.

(** All files with their paths (lists of names). *)
Fixpoint files (d : dir) : list (list name * list Z) :=
  match d with
  | DNil => []
  | DFile n b r => ([n], b) :: files r
  | DDir n sub r => map (fun e => (n :: fst e, snd e)) (files sub) ++ files r
  end.

(** Paths as texts. *)
Fixpoint joined (p : list name) : name :=
  match p with [] => [] | [n] => n | n :: r => n ++ [47] ++ joined r end.

(** Every name, at every level, satisfies P; names are distinct. *)
Fixpoint all_names (P : name -> Prop) (d : dir) : Prop :=
  match d with DNil => True | DFile n _ r => P n /\ all_names P r | DDir n s r => P n /\ all_names P s /\ all_names P r end.
Fixpoint distinct (d : dir) : Prop :=
  match d with
  | DNil => True
  | DFile n _ r => ~ In n (dnames r) /\ distinct r
  | DDir n s r => ~ In n (dnames r) /\ distinct s /\ distinct r
  end.
Definition no_slash (n : name) : Prop := ~ In 47 n.

(** The item is a storage with exactly the contents of the directory: iteration
    lists the names, indexing finds the entries and nothing else. *)
Fixpoint entries (x : item) (d : dir) : Prop :=
  match d with
  | DNil => True
  | DFile n b r => (exists y, get x n = Ok y /\ is_storage y = false /\ open y = Ok b) /\ entries x r
  | DDir n s r => (exists y, get x n = Ok y /\ is_storage y = true /\ iter y = (dnames s, Finished) /\
                             (forall m, ~ In m (dnames s) -> get y m = Raise KeyError) /\ entries y s) /\ entries x r
  end.
Definition represents (x : item) (d : dir) : Prop :=
  is_storage x = true /\ iter x = (dnames d, Finished) /\ (forall m, ~ In m (dnames d) -> get x m = Raise KeyError) /\ entries x d.

(** A storage with these contents. *)
Fixpoint dir_item (d : dir) : item :=
  storage_item (dnames d, Finished)
    ((fix look (d : dir) (n : name) : res item :=
        match d with
        | DNil => Raise KeyError
        | DFile m b r => if name_eqb m n then Ok (stream_item (Ok b) []) else look r n
        | DDir m s r => if name_eqb m n then Ok (dir_item s) else look r n
        end) d).

(** ** Unpacking *)
(** An entry name that is a plain file name. *)
Definition plain (n : name) : Prop :=
  n <> [] /\ n <> [46] /\ n <> [46; 46] /\ ~ In 47 n /\ ~ In 0 n.
(** Files are written under their names with 0x05 spelled out. *)
Definition spelled (n : name) : name := flat_map (fun c => if c =? 5 then [95; 48; 53] else [c]) n.
Fixpoint spell (d : dir) : dir :=
  match d with DNil => DNil | DFile n b r => DFile (spelled n) b (spell r) | DDir n s r => DDir n (spell s) (spell r) end.
(** Directory names do not contain 0x05. *)
Fixpoint dirs_without_05 (d : dir) : Prop :=
  match d with DNil => True | DFile _ _ r => dirs_without_05 r | DDir n s r => ~ In 5 n /\ dirs_without_05 s /\ dirs_without_05 r end.

(** What is at a path of a directory. *)
Fixpoint at_path (d : dir) (n : name) (p : list name) : option node :=
  match d with
  | DNil => None
  | DFile m b r => if name_eqb m n then match p with [] => Some (File b) | _ => None end else at_path r n p
  | DDir m s r => if name_eqb m n then match p with [] => Some Dir | n' :: p' => at_path s n' p' end else at_path r n p
  end.

(** ** OLE files *)
(** A list without the later occurrences of its members. *)
Inductive keep_first : list name -> list name -> Prop :=
| kf_nil : keep_first [] []
| kf_cons : forall x xs ys, keep_first (filter (fun y => negb (name_eqb x y)) xs) ys -> keep_first (x :: xs) (x :: ys).

(** An OLE file with these streams: streams exist with type 2, the storages
    above them with type 1; names are not empty and have no slashes. *)
Record ole_ok (o : olefile) : Prop := {
  ole_streams : forall p, In p (ole_listdir o) -> ole_exists o (joined p) = true /\ ole_type o (joined p) = 2;
  ole_storages : forall p q, q <> [] -> p <> [] -> In (p ++ q) (ole_listdir o) -> ole_exists o (joined p) = true /\ ole_type o (joined p) = 1;
  ole_names : forall p, In p (ole_listdir o) -> p <> [] /\ Forall (fun n => n <> [] /\ no_slash n) p;
  ole_nodup : NoDup (ole_listdir o) }.

(** ** Virtual streams *)
(** A storage whose listed names, and no others, can be looked up. *)
Record listable (x : item) : Prop := {
  l_end : snd (iter x) = Finished;
  l_found : Forall (fun n => exists y, get x n = Ok y) (fst (iter x));
  l_missing : forall n, ~ In n (fst (iter x)) -> get x n = Raise KeyError }.
(** The suffixes of the other formats of the item of this name. *)
Definition suffixes (x : item) (n : name) : list name := match get x n with Ok y => map fst (formats y) | Raise _ => [] end.
(** The virtual stream of this name: root with suffix, in the order of listing. *)
Definition virtual (x : item) (n : name) (c : res (list Z)) : Prop :=
  exists before root after y fs1 ext fs2, fst (iter x) = before ++ root :: after /\ get x root = Ok y /\ formats y = fs1 ++ (ext, c) :: fs2 /\ root ++ ext = n /\
    (forall r, In r before -> ~ In n (map (app r) (suffixes x r))) /\ Forall (fun f => root ++ fst f <> n) fs1.

(** The names of the members of a list of paths directly below a path. *)
Inductive directly_below (p : list name) : list (list name) -> list name -> Prop :=
| db_nil : directly_below p [] []
| db_hit : forall n r ns, directly_below p r ns -> directly_below p ((p ++ [n]) :: r) (n :: ns)
| db_miss : forall s r ns, (forall n, s <> p ++ [n]) -> directly_below p r ns -> directly_below p (s :: r) ns.

(** An OLE file with given streams. *)
Fixpoint prefixes {A} (p : list A) : list (list A) := match p with [] => [] | n :: r => [n] :: map (cons n) (prefixes r) end.
Definition ole_of (streams : list (list name * list Z)) : olefile :=
  mkOle (map fst streams)
    (fun t => existsb (fun s => existsb (fun p => name_eqb (joined p) t) (prefixes (fst s))) streams)
    (fun t => if existsb (fun s => name_eqb (joined (fst s)) t) streams then 2 else 1)
    (fun t => match find (fun s => name_eqb (joined (fst s)) t) streams with Some s => Ok (snd s) | None => Raise IOError end).
(** No stream is below another. *)
Definition streams_ok (streams : list (list name * list Z)) : Prop :=
  NoDup (map fst streams) /\
  (forall p, In p (map fst streams) -> p <> [] /\ Forall (fun n => n <> [] /\ no_slash n) p) /\
  (forall p q, In p (map fst streams) -> In (p ++ q) (map fst streams) -> q = []).
