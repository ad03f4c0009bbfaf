(** Specification of splitting chunks by shape runs. *)
From Coq Require Import ZArith List Bool.
From Verif Require Import Base Model_ParaText Model_Shape Spec_Text.
Import ListNotations.
Open Scope Z_scope.

(** Runs start in ascending order. *)
Fixpoint ascending (starts : list Z) : Prop :=
  match starts with
  | a :: (b :: _) as rest => a <= b /\ ascending rest
  | _ => True
  end.

(** The shape in force at a position: the last run that starts at or before. *)
Fixpoint shape_at {S} (d : S) (shapes : list (Z * S)) (i : Z) : S :=
  match shapes with
  | [] => d
  | (p, s) :: rest => if p <=? i then shape_at s rest i else d
  end.

(** Cutting a chunk at the run starts strictly inside it. *)
Fixpoint cut_at (starts : list Z) (s e : Z) (c : chunk) : option (list ((Z * Z) * chunk)) :=
  match starts with
  | [] => Some [((s, e), c)]
  | b :: rest =>
      if (s <? b) && (b <? e) then
        match c with
        | ChCtl _ => None                      (* a control cannot be cut *)
        | ChText t =>
            match cut_at rest b e (ChText (zdrop (b - s) t)) with
            | Some ps => Some (((s, b), ChText (ztake (b - s) t)) :: ps)
            | None => None
            end
        end
      else cut_at rest s e c
  end.

(** Chunk by chunk: cut, and give each piece the shape at its start. *)
Fixpoint split_spec {S A} (d : S) (shapes : list (Z * S)) (chunks : list ((Z * Z) * A * chunk)) (co : outcome)
  : gen (piece S A) :=
  match chunks with
  | [] => ([], co)
  | ((s, e), a, c) :: rest =>
      match cut_at (map fst shapes) s e c with
      | None => ([], Failed TypeError)
      | Some ps => gapp (map (fun p => (fst p, (shape_at d shapes (fst (fst p)), a), snd p)) ps)
                        (split_spec d shapes rest co)
      end
  end.

(** Chunks in order, not overlapping, from position [p] on, below 2^31-1. *)
Fixpoint in_order {A} (p : Z) (chunks : list ((Z * Z) * A * chunk)) : Prop :=
  match chunks with
  | [] => True
  | ((s, e), _, _) :: rest => p <= s <= e /\ s < 0x7fffffff /\ e <= 0x7fffffff /\ in_order e rest
  end.

(** The text of a sequence of chunks. *)
Definition text_of (c : chunk) : list Z := match c with ChText t => t | ChCtl _ => [] end.

(** The characters of a text with their true positions in UTF-16 units. *)
Fixpoint unit_positions (p : Z) (t : list Z) : list (Z * Z) :=
  match t with
  | [] => []
  | c :: rest => (p, c) :: unit_positions (p + zlen (utf16_units_of c)) rest
  end.

(** What a reader of the format expects: every character, at its position in
    UTF-16 units, has the shape in force there; so does every control. *)
Definition intended {S A} (d : S) (shapes : list (Z * S)) (x : (Z * Z) * A * chunk) : list ((Z + control) * (S * A)) :=
  let '((s, _), a, c) := x in
  match c with
  | ChText t => map (fun p => (inl (snd p), (shape_at d shapes (fst p), a))) (unit_positions s t)
  | ChCtl ct => [(inr ct, (shape_at d shapes s, a))]
  end.

(** What the pieces say. *)
Definition said {S A} (x : piece S A) : list ((Z + control) * (S * A)) :=
  let '(_, sa, c) := x in
  match c with
  | ChText t => map (fun ch => (inl ch, sa)) t
  | ChCtl ct => [(inr ct, sa)]
  end.

(** The controls of a chunk. *)
Definition ctl_of (c : chunk) : list control := match c with ChCtl x => [x] | ChText _ => [] end.

(** Chunks that follow each other without gaps from [p] to [q]. *)
Fixpoint adjacent {A} (p : Z) (chunks : list ((Z * Z) * A * chunk)) (q : Z) : Prop :=
  match chunks with
  | [] => p = q
  | ((s, e), _, _) :: rest => s = p /\ s < e /\ e <= 0x7fffffff /\ adjacent e rest q
  end.

(** The range of a text chunk counts the UTF-16 units of its text. *)
Definition range_fits {A} (x : (Z * Z) * A * chunk) : Prop :=
  match snd x with
  | ChText t => snd (fst (fst x)) - fst (fst (fst x)) = zlen (utf16_units t)
  | ChCtl _ => True
  end.

(** Texts without characters outside the basic plane. *)
Definition basic_only {A} (x : (Z * Z) * A * chunk) : Prop := Forall (fun c => c < 0x10000) (text_of (snd x)).

(** Two sets of runs at once: character shapes [cs] and line segments [ls]. *)
Definition intended2 {C L A} (dc : C) (cs : list (Z * C)) (dl : L) (ls : list (Z * L)) (x : (Z * Z) * A * chunk)
  : list ((Z + control) * (L * (C * A))) :=
  let '((s, _), a, c) := x in
  match c with
  | ChText t => map (fun p => (inl (snd p), (shape_at dl ls (fst p), (shape_at dc cs (fst p), a)))) (unit_positions s t)
  | ChCtl ct => [(inr ct, (shape_at dl ls s, (shape_at dc cs s, a)))]
  end.

(** A control lies inside one run. *)
Definition control_fits {A} (starts : list Z) (x : (Z * Z) * A * chunk) : Prop :=
  (exists t, snd x = ChText t) \/ Forall (fun b => b <= fst (fst (fst x)) \/ snd (fst (fst x)) <= b) starts.

(** A grouping of the pieces by the first part of their attribute. *)
Definition flatten {S A} (gs : list (S * list ((Z * Z) * A * chunk))) : list (piece S A) :=
  concat (map (fun g => map (fun x => (fst (fst x), (fst g, snd (fst x)), snd x)) (snd g)) gs).

Fixpoint neighbours_differ {X} (l : list X) : Prop :=
  match l with
  | a :: (b :: _) as rest => a <> b /\ neighbours_differ rest
  | _ => True
  end.

Definition grouping {S A} (gs : list (S * list ((Z * Z) * A * chunk))) (pieces : list (piece S A)) : Prop :=
  flatten gs = pieces /\ Forall (fun g => snd g <> []) gs /\ neighbours_differ (map fst gs).
