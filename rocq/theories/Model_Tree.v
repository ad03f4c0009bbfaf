(** Model of src/hwp5/treeop.py. *)
From Coq Require Import ZArith List Bool.
From Verif Require Import Base.
Import ListNotations.
Open Scope Z_scope.

(** (STARTEVENT, item) and (ENDEVENT, item), treeop.py 23-29. *)
Inductive event (A : Type) : Type :=
| EStart (a : A)
| EEnd (a : A).
Arguments EStart {A} a.
Arguments EEnd {A} a.

(** A sequence of trees: [FCons x kids next] is a tree with root item [x] and
    children [kids], followed by the trees [next].  The Python tuples
    (item, [child, ...]) of treeop.py 96-154. *)
Inductive forest (A : Type) : Type :=
| FNil
| FCons (x : A) (kids next : forest A).
Arguments FNil {A}.
Arguments FCons {A} x kids next.

(** treeop.py 45-46: [while level + 1 < len(stack): yield ENDEVENT, stack.pop()].
    The stack is a list with its top first.  The first component is what was
    yielded; popping an empty list raises IndexError. *)
Fixpoint pop_to {A} (level : Z) (stack : list A) : list A * res (list A) :=
  if level + 1 <? zlen stack then
    match stack with
    | [] => ([], Raise IndexError)
    | x :: s => let (out, r) := pop_to level s in (x :: out, r)
    end
  else ([], Ok stack).

(** treeop.py 47-50: [while len(stack) < level + 1: raise], then the assert. *)
Definition check_level {A} (level : Z) (stack : list A) : option exn :=
  if zlen stack <? level + 1 then Some InvalidLevel
  else if zlen stack =? level + 1 then None
  else Some AssertionError.

(** treeop.py 55-56 (the final loop): [while 1 < len(stack): yield END, pop]. *)
Fixpoint close_all {A} (stack : list A) : list (event A) :=
  if 1 <? zlen stack then
    match stack with
    | [] => []
    | x :: s => EEnd x :: close_all s
    end
  else [].

(** treeop.py 32-55 [prefix_event]; [base] is baselevel. *)
Fixpoint prefix_event_loop {A} (base : option Z) (stack : list A) (items : list (Z * A))
  : gen (event A) :=
  match items with
  | [] => (close_all stack, Finished)
  | (level, item) :: rest =>
      let b := match base with None => level | Some b => b end in
      let level' := match base with None => 0 | Some b => level - b end in
      match pop_to level' stack with
      | (out, Raise e) => (map EEnd out, Failed e)
      | (out, Ok stack') =>
          match check_level level' stack' with
          | Some e => (map EEnd out, Failed e)
          | None => gapp (map EEnd out ++ [EStart item])
                         (prefix_event_loop (Some b) (item :: stack') rest)
          end
      end
  end.

Definition prefix_event {A} (root : A) (items : list (Z * A)) : gen (event A) :=
  prefix_event_loop None [root] items.

(** treeop.py 58-67 [prefix_ancestors]: the ancestors are listed from the root
    down; the Python list is shared and later mutated, the model records its
    contents when it is yielded. *)
Fixpoint prefix_ancestors_loop {A} (stack : list A) (evs : list (event A))
  : gen (list A * A) :=
  match evs with
  | [] => ([], Finished)
  | EStart x :: rest => gcons (rev stack, x) (prefix_ancestors_loop (x :: stack) rest)
  | EEnd _ :: rest =>
      match stack with
      | [] => ([], Failed IndexError)
      | _ :: s => prefix_ancestors_loop s rest
      end
  end.

Definition prefix_ancestors {A} (root : A) (evs : list (event A)) : gen (list A * A) :=
  prefix_ancestors_loop [root] evs.

(** treeop.py 70-93 [prefix_ancestors_from_level] *)
Fixpoint ancestors_from_level_loop {A} (base : option Z) (stack : list A) (items : list (Z * A))
  : gen (list A * A) :=
  match items with
  | [] => ([], Finished)
  | (level, item) :: rest =>
      let b := match base with None => level | Some b => b end in
      let level' := match base with None => 0 | Some b => level - b end in
      match pop_to level' stack with
      | (_, Raise e) => ([], Failed e)
      | (_, Ok stack') =>
          match check_level level' stack' with
          | Some e => ([], Failed e)
          | None => gcons (rev stack', item)
                          (ancestors_from_level_loop (Some b) (item :: stack') rest)
          end
      end
  end.

Definition prefix_ancestors_from_level {A} (root : A) (items : list (Z * A)) : gen (list A * A) :=
  ancestors_from_level_loop None [root] items.

(** treeop.py 96-124 [build_subtree] on a shared iterator: the result and the
    events left.  When the events run out the function returns None, which the
    callers append to their children and then run out of events as well.
    The item is the one of the closing event.  [acc] is [childs], last first. *)
Fixpoint append_tree {A} (f : forest A) (x : A) (kids : forest A) : forest A :=
  match f with
  | FNil => FCons x kids FNil
  | FCons y k n => FCons y k (append_tree n x kids)
  end.

Fixpoint build_subtree_loop {A} (fuel : nat) (childs : forest A) (evs : list (event A))
  : option (option (A * forest A) * list (event A)) :=
  match fuel with
  | O => None
  | S k =>
      match evs with
      | [] => Some (None, [])
      | EStart _ :: rest =>
          match build_subtree_loop k FNil rest with
          | None => None
          | Some (Some (x, kids), rest') =>
              build_subtree_loop k (append_tree childs x kids) rest'
          | Some (None, rest') =>
              (* None is appended and the iteration goes on *)
              build_subtree_loop k childs rest'
          end
      | EEnd x :: rest => Some (Some (x, childs), rest)
      end
  end.

(** [None] would mean that the fuel was too small. *)
Definition build_subtree {A} (evs : list (event A)) :=
  build_subtree_loop (S (List.length evs)) (@FNil A) evs.

(** treeop.py 127-137 [iter_subevents]: what it yields and what is left. *)
Fixpoint iter_subevents_loop {A} (level : Z) (evs : list (event A))
  : list (event A) * list (event A) :=
  match evs with
  | [] => ([], [])
  | EStart x :: rest =>
      let (out, left) := iter_subevents_loop (level + 1) rest in (EStart x :: out, left)
  | EEnd x :: rest =>
      if 0 <? level then
        let (out, left) := iter_subevents_loop (level - 1) rest in (EEnd x :: out, left)
      else ([EEnd x], rest)
  end.

Definition iter_subevents {A} (evs : list (event A)) := iter_subevents_loop 0 evs.

(** treeop.py 140-154 [tree_events], [tree_events_multi]. *)
Fixpoint tree_events_multi {A} (trees : forest A) : list (event A) :=
  match trees with
  | FNil => []
  | FCons x kids next =>
      ([EStart x] ++ tree_events_multi kids ++ [EEnd x]) ++ tree_events_multi next
  end.

Definition tree_events {A} (rootitem : A) (childs : forest A) : list (event A) :=
  [EStart rootitem] ++ tree_events_multi childs ++ [EEnd rootitem].
