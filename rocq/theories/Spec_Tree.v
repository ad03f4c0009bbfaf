(** Specification of trees, walks and level sequences. *)
From Coq Require Import ZArith List Bool.
From Verif Require Import Base Model_Tree.
Import ListNotations.
Open Scope Z_scope.

(** The pre-order walk with start and end events. *)
Fixpoint walk {A} (f : forest A) : list (event A) :=
  match f with
  | FNil => []
  | FCons x kids next => EStart x :: walk kids ++ EEnd x :: walk next
  end.

(** Well nested: the walk of some forest. *)
Definition well_nested {A} (evs : list (event A)) : Prop := exists f, evs = walk f.

(** Pre-order list of (level, item), roots at level [d]. *)
Fixpoint preorder {A} (d : Z) (f : forest A) : list (Z * A) :=
  match f with
  | FNil => []
  | FCons x kids next => (d, x) :: preorder (d + 1) kids ++ preorder d next
  end.

(** Pre-order list of (path from the root, item). *)
Fixpoint paths {A} (path : list A) (f : forest A) : list (list A * A) :=
  match f with
  | FNil => []
  | FCons x kids next => (path, x) :: paths (path ++ [x]) kids ++ paths path next
  end.

(** A legal level sequence after an item of level [prev], not going below
    [base]. *)
Fixpoint legal_from (base prev : Z) (levels : list Z) : Prop :=
  match levels with
  | [] => True
  | l :: rest => base <= l <= prev + 1 /\ legal_from base l rest
  end.

Definition legal (levels : list Z) : Prop :=
  match levels with
  | [] => True
  | b :: rest => legal_from b b rest
  end.

(** The last item of level [k] in a sequence. *)
Fixpoint last_at {A} (k : Z) (items : list (Z * A)) : option A :=
  match items with
  | [] => None
  | (l, x) :: rest =>
      match last_at k rest with
      | Some y => Some y
      | None => if l =? k then Some x else None
      end
  end.

Definition is_end {A} (e : event A) : Prop := match e with EEnd _ => True | EStart _ => False end.

(** The items in the order of their start events. *)
Fixpoint starts {A} (evs : list (event A)) : list A :=
  match evs with
  | [] => []
  | EStart x :: rest => x :: starts rest
  | EEnd _ :: rest => starts rest
  end.

(** One sequence of trees after another. *)
Fixpoint fapp {A} (f g : forest A) : forest A :=
  match f with FNil => g | FCons x k n => FCons x k (fapp n g) end.
