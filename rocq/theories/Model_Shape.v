(** Model of src/hwp5/xmlmodel.py 94-162: shape ranges, splitting of chunks by
    shape, grouping by line segment. *)
From Coq Require Import ZArith List Bool.
From Verif Require Import Base Model_ParaText.
Import ListNotations.
Open Scope Z_scope.

(** xmlmodel.py 94-100 [make_ranged_shapes]: (position, shape) pairs to ranges;
    the last one is open-ended (0x7fffffff).  With no shapes at all the name
    [item] of line 100 is unbound. *)
Fixpoint ranged_from {S} (last : Z * S) (shapes : list (Z * S)) : list ((Z * Z) * S) :=
  match shapes with
  | [] => [((fst last, 0x7fffffff), snd last)]
  | item :: rest => ((fst last, fst item), snd last) :: ranged_from item rest
  end.

Definition make_ranged_shapes {S} (shapes : list (Z * S)) : gen ((Z * Z) * S) :=
  match shapes with
  | [] => ([], Failed UnboundLocalError)
  | item :: rest => (ranged_from item rest, Finished)
  end.

(** [chunk[:n]] and [chunk[n:]] (xmlmodel.py 130-133), n > 0: text is cut by
    code points, a dict cannot be sliced. *)
Definition chunk_cut (n : Z) (c : chunk) : res (chunk * chunk) :=
  match c with
  | ChText t => Ok (ChText (ztake n t), ChText (zdrop n t))
  | ChCtl _ => Raise TypeError
  end.

(** xmlmodel.py 103-146 [split_and_shape].  [cur] is the chunk in hand
    ((chunk_start, chunk_end), chunk_attr, chunk); the chunk iterator may itself
    fail, with outcome [co], and so may the shape iterator, with outcome [so].
    One unit of fuel is one turn of the inner loop or one step of the outer. *)
Section Split.
  Variables S A : Type.

  Definition piece : Type := ((Z * Z) * (S * A) * chunk)%type.

  Fixpoint split_loop (fuel : nat) (cs ce : Z) (attr : A) (c : chunk)
      (chunks : list ((Z * Z) * A * chunk)) (co : outcome)
      (shapes : list ((Z * Z) * S)) (so : outcome) : gen piece :=
    match fuel with
    | O => ([], OutOfFuel)
    | Datatypes.S k =>
        match shapes with
        | [] => ([], so)
        | ((ss, se), shape) :: shapes' =>
            if cs <? ss then ([], Failed AssertionError)
            else if se <=? cs then split_loop k cs ce attr c chunks co shapes' so
            else if se <? ce then
              match chunk_cut (se - cs) c with
              | Raise e => ([], Failed e)
              | Ok (prev, next) =>
                  gcons ((cs, se), (shape, attr), prev)
                        (split_loop k se ce attr next chunks co shapes so)
              end
            else
              gcons ((cs, ce), (shape, attr), c)
                (match chunks with
                 | [] => ([], co)
                 | ((cs', ce'), attr', c') :: chunks' =>
                     split_loop k cs' ce' attr' c' chunks' co shapes so
                 end)
        end
    end.

  Definition split_and_shape (chunks : gen ((Z * Z) * A * chunk)) (shapes : gen ((Z * Z) * S)) : gen piece :=
    match fst chunks with
    | [] => ([], snd chunks)
    | ((cs, ce), attr, c) :: rest =>
        split_loop (Datatypes.S (List.length rest + 2 * List.length (fst shapes))) cs ce attr c rest (snd chunks)
                   (fst shapes) (snd shapes)
    end.
End Split.
Arguments split_loop {S A}.
Arguments split_and_shape {S A}.

(** xmlmodel.py 149-162 [line_segmented], after the call of split_and_shape.
    Line segments are compared by identity ([is not]); [same] is that
    comparison. *)
Section Lines.
  Variables S A : Type.
  Variable same : S -> S -> bool.

  (** [prev] is (prev_lineseg, line), None while [line is None]; the line is
      kept last chunk first. *)
  Fixpoint line_loop (prev : option (S * list ((Z * Z) * A * chunk))) (pieces : list (piece S A)) (o : outcome)
    : gen (S * list ((Z * Z) * A * chunk)) :=
    match pieces with
    | [] =>
        match o with
        | Finished => match prev with
                      | None => ([], Finished)
                      | Some (ls, line) => ([(ls, rev line)], Finished)
                      end
        | _ => ([], o)
        end
    | ((r, (ls, attr)), c) :: rest =>
        match prev with
        | None => line_loop (Some (ls, [(r, attr, c)])) rest o
        | Some (pls, line) =>
            if same ls pls then line_loop (Some (ls, (r, attr, c) :: line)) rest o
            else gcons (pls, rev line) (line_loop (Some (ls, [(r, attr, c)])) rest o)
        end
    end.

  Definition line_segmented (chunks : gen ((Z * Z) * A * chunk)) (linesegs : gen ((Z * Z) * S))
    : gen (S * list ((Z * Z) * A * chunk)) :=
    let g := split_and_shape chunks linesegs in line_loop None (fst g) (snd g).
End Lines.
Arguments line_loop {S A}.
Arguments line_segmented {S A}.
