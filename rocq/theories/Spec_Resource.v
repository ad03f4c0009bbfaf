(** Specification of cached properties, temporary files and output filters. *)
From Coq Require Import ZArith String List Bool.
From Verif Require Import Base Model_Resource.
Import ListNotations.
Open Scope Z_scope.

(** An access that assigns the value remembered for function f. *)
Definition assigns (c : cls) (f : string) (op : aop) : Prop :=
  match op with
  | ASet name _ => match assoc name c with Some (Cached g) => g = f | _ => name = f end
  | _ => False
  end.

(** [enters fs a args leaves out rest]: starting with output a, filters are
    entered one after the other, each getting the output of the one before
    (the outputs passed are args), until the remaining filters are rest and the
    current output is out. *)
Inductive enters : list cfilter -> Z -> list Z -> list (option exn -> option exn) -> Z -> list cfilter -> Prop :=
| enters_none : forall fs a, enters fs a [] [] a fs
| enters_one : forall flt fs a out leave args leaves b rest,
    flt a = FYield out leave -> enters fs out args leaves b rest ->
    enters (flt :: fs) a (a :: args) (leave :: leaves) b rest.

(** Numbering from i. *)
Fixpoint number {A} (i : Z) (l : list A) : list (Z * A) :=
  match l with [] => [] | x :: t => (i, x) :: number (i + 1) t end.

(** Unwinding: each filter, innermost first, sees the exception that left the
    one inside it. *)
Fixpoint unwind (l : list (Z * (option exn -> option exn))) (x : option exn) : list tevent * option exn :=
  match l with
  | [] => ([], x)
  | (i, leave) :: rest => let (t, y) := unwind rest (leave x) in (Left i x :: t, y)
  end.

Definition entered_ids (t : list tevent) : list Z := flat_map (fun e => match e with Entered i _ => [i] | _ => [] end) t.
Definition left_ids (t : list tevent) : list Z := flat_map (fun e => match e with Left i _ => [i] | _ => [] end) t.
