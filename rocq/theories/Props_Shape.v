(** Property theorems about shape runs and line segments: C23, C24, C25. *)
From Coq Require Import ZArith List Bool Lia.
From Verif Require Import Base Model_ParaText Model_Shape Spec_Text Spec_ParaText Spec_Shape Proof_Shape.
Import ListNotations.
Open Scope Z_scope.

(** C23.  For chunks that follow each other from position 0 and runs that begin
    at 0 in ascending order, with no run boundary inside a control: splitting
    finishes, the pieces follow each other over the same range, they contain the
    same text and the same controls, and every position of a piece has the
    piece's shape. *)
Theorem C23_split_lossless : forall (S A : Type) (sh : S) shapes (chunks : list ((Z * Z) * A * chunk)) q,
  ascending (0 :: map fst shapes) -> adjacent 0 chunks q ->
  Forall (control_fits (map fst ((0, sh) :: shapes))) chunks ->
  exists out, split_and_shape (chunks, Finished) (make_ranged_shapes ((0, sh) :: shapes)) = (out, Finished) /\
    tiled 0 (map (fun x => fst (fst x)) out) q /\
    concat (map (fun x => text_of (snd x)) out) = concat (map (fun x => text_of (snd x)) chunks) /\
    concat (map (fun x => ctl_of (snd x)) out) = concat (map (fun x => ctl_of (snd x)) chunks) /\
    Forall (fun x => forall i, fst (fst (fst x)) <= i < snd (fst (fst x)) ->
                     fst (snd (fst x)) = shape_at sh ((0, sh) :: shapes) i) out.
Proof.
  intros S A sh shapes chunks q HA HAd HF.
  pose proof (split_and_shape_spec 0 sh shapes (chunks, Finished) sh HA (adjacent_in_order _ _ _ HAd)) as E.
  pose proof (spec_outcome_fits sh ((0, sh) :: shapes) chunks HF) as EO. cbn [fst snd] in E.
  destruct (split_spec sh ((0, sh) :: shapes) chunks Finished) as [out o] eqn:ES. cbn in EO. subst o.
  exists out. split; [exact E|]. exact (spec_lossless sh ((0, sh) :: shapes) chunks 0 q out HA HAd ES).
Qed.
Print Assumptions C23_split_lossless.

(** The exact result, also for chunk iterators that fail and for chunks with gaps:
    each chunk is cut at the run starts strictly inside it, and each piece has the
    shape in force at its start. *)
Theorem C23_split_is_cutting : forall (S A : Type) p0 (sh : S) shapes (chunks : gen ((Z * Z) * A * chunk)) d,
  ascending (p0 :: map fst shapes) -> in_order p0 (fst chunks) ->
  split_and_shape chunks (make_ranged_shapes ((p0, sh) :: shapes)) =
  split_spec d ((p0, sh) :: shapes) (fst chunks) (snd chunks).
Proof. intros S A. exact split_and_shape_spec. Qed.
Print Assumptions C23_split_is_cutting.

(** The ways it fails: a control with a boundary inside, a chunk in front of the
    first run, no runs at all. *)
Theorem C23_straddled_control : forall (S A : Type) p0 (sh : S) shapes (chunks : list ((Z * Z) * A * chunk)),
  ascending (p0 :: map fst shapes) -> in_order p0 chunks ->
  Exists (fun x => (exists ct, snd x = ChCtl ct) /\
                   Exists (fun b => fst (fst (fst x)) < b < snd (fst (fst x))) (p0 :: map fst shapes)) chunks ->
  snd (split_and_shape (chunks, Finished) (make_ranged_shapes ((p0, sh) :: shapes))) = Failed TypeError.
Proof.
  intros S A p0 sh shapes chunks HA HO HE.
  rewrite (split_and_shape_spec p0 sh shapes (chunks, Finished) sh HA HO). cbn [fst snd].
  destruct (spec_outcome sh ((p0, sh) :: shapes) chunks) as [[_ HF]|[E _]]; [|exact E]. exfalso.
  apply Exists_exists in HE. destruct HE as (x & Hx & (ct & Hct) & HE). rewrite Forall_forall in HF.
  destruct (HF x Hx) as [[t Ht]|HF']; [congruence|]. apply Exists_exists in HE. destruct HE as (b & Hb & Hb2).
  rewrite Forall_forall in HF'. specialize (HF' b Hb). lia.
Qed.
Print Assumptions C23_straddled_control.

Theorem C23_before_first_run : forall (S A : Type) p0 (sh : S) shapes s e (a : A) c rest co, s < p0 ->
  split_and_shape (((s, e), a, c) :: rest, co) (make_ranged_shapes ((p0, sh) :: shapes)) = ([], Failed AssertionError).
Proof. intros S A. exact split_before_first. Qed.
Print Assumptions C23_before_first_run.

Theorem C23_no_runs : forall (S A : Type) (x : (Z * Z) * A * chunk) rest co,
  split_and_shape (x :: rest, co) (@make_ranged_shapes S []) = ([], Failed UnboundLocalError).
Proof. intros S A [[[s e] a] c] rest co. reflexivity. Qed.
Print Assumptions C23_no_runs.

Example C23_case :
  let chunks := [((0, 5), tt, ChText [72; 101; 108; 108; 111]); ((5, 13), tt, ChCtl (CtlObj 11 [] [])); ((13, 16), tt, ChText [97; 98; 99])] in
  ascending [0; 2; 4; 13; 15; 20] /\ adjacent 0 chunks 16 /\
  Forall (control_fits [0; 2; 4; 13; 15; 20]) chunks /\
  split_and_shape (chunks, Finished) (make_ranged_shapes [(0, 7); (2, 8); (4, 9); (13, 7); (15, 3); (20, 1)]) =
  ([((0, 2), (7, tt), ChText [72; 101]); ((2, 4), (8, tt), ChText [108; 108]); ((4, 5), (9, tt), ChText [111]);
    ((5, 13), (9, tt), ChCtl (CtlObj 11 [] [])); ((13, 15), (7, tt), ChText [97; 98]); ((15, 16), (3, tt), ChText [99])], Finished).
Proof.
  cbv zeta. split; [cbn; lia|]. split; [cbn; repeat split; lia|]. split; [|vm_compute; reflexivity].
  constructor; [left; eexists; reflexivity|]. constructor; [right; cbn; repeat constructor; lia|]. constructor; [left; eexists; reflexivity|constructor].
Qed.

(** C24.  For texts of the basic plane every character gets the shape in force at
    its position in UTF-16 units. *)
Theorem C24_basic_plane_exact : forall (S A : Type) (sh : S) shapes (chunks : list ((Z * Z) * A * chunk)) q out,
  ascending (0 :: map fst shapes) -> adjacent 0 chunks q ->
  Forall range_fits chunks -> Forall basic_only chunks ->
  split_and_shape (chunks, Finished) (make_ranged_shapes ((0, sh) :: shapes)) = (out, Finished) ->
  concat (map said out) = concat (map (intended sh ((0, sh) :: shapes)) chunks).
Proof.
  intros S A sh shapes chunks q out HA HAd HR HB E.
  rewrite (split_and_shape_spec 0 sh shapes (chunks, Finished) sh HA (adjacent_in_order _ _ _ HAd)) in E.
  exact (spec_said sh ((0, sh) :: shapes) chunks out HA HR HB E).
Qed.
Print Assumptions C24_basic_plane_exact.

(** With a character outside it this is false: an emoji in front of a boundary
    pulls the next character into the wrong run (C23 still holds, nothing is
    lost).  Here 'A' is at unit 2, where run 8 begins, but is given shape 7. *)
Theorem C24_supplementary_refuted : exists (shapes : list (Z * Z)) (chunks : list ((Z * Z) * unit * chunk)) out,
  ascending (map fst shapes) /\ adjacent 0 chunks 4 /\ Forall range_fits chunks /\
  split_and_shape (chunks, Finished) (make_ranged_shapes shapes) = (out, Finished) /\
  concat (map said out) <> concat (map (intended 7 shapes) chunks) /\
  In (inl 0x41, (8, tt)) (concat (map (intended 7 shapes) chunks)) /\ In (inl 0x41, (7, tt)) (concat (map said out)).
Proof.
  exists [(0, 7); (2, 8)], [((0, 4), tt, ChText [0x1F600; 0x41; 0x42])].
  eexists. split; [cbn; lia|]. split; [cbn; lia|]. split; [repeat constructor|].
  split; [vm_compute; reflexivity|]. split; [vm_compute; discriminate|]. split; vm_compute; auto.
Qed.
Print Assumptions C24_supplementary_refuted.

(** The chunks of a parsed paragraph text have the ranges that these theorems ask for. *)
Theorem C24_parsed_text_fits : forall data out, all_bytes data -> zlen data < 0xfffffff0 -> parse_chunks data = (out, Finished) ->
  let chunks := map (fun x => (fst x, tt, snd x)) out in
  exists q, q <= 0x7fffffff /\ adjacent 0 chunks q /\ Forall range_fits chunks.
Proof. exact parsed_chunks_fit. Qed.
Print Assumptions C24_parsed_text_fits.

(** Splitting by character shapes and then by line segments, as is done for a
    paragraph: every character has both the character shape and the line segment
    of its position. *)
Theorem C24_shapes_and_lines_exact : forall (C L A : Type) (sh0 : C) cs (ls0 : L) ls (chunks : list ((Z * Z) * A * chunk)) q,
  ascending (map fst ((0, sh0) :: cs)) -> ascending (map fst ((0, ls0) :: ls)) ->
  adjacent 0 chunks q -> q <= 0x7fffffff ->
  Forall range_fits chunks -> Forall basic_only chunks ->
  Forall (control_fits (map fst ((0, sh0) :: cs))) chunks ->
  Forall (control_fits (map fst ((0, ls0) :: ls))) chunks ->
  exists out,
    split_and_shape (split_and_shape (chunks, Finished) (make_ranged_shapes ((0, sh0) :: cs)))
                    (make_ranged_shapes ((0, ls0) :: ls)) = (out, Finished) /\
    concat (map said out) = concat (map (intended2 sh0 ((0, sh0) :: cs) ls0 ((0, ls0) :: ls)) chunks).
Proof. intros C L A. exact split_twice. Qed.
Print Assumptions C24_shapes_and_lines_exact.

Example C24_case :
  let chunks := [((0, 3), tt, ChText [0xAC00; 0x41; 0x20]); ((3, 4), tt, ChCtl (CtlChar 13))] in
  Forall range_fits chunks /\ Forall basic_only chunks /\ adjacent 0 chunks 4 /\
  concat (map (intended2 1 [(0, 1); (1, 2)] 10 [(0, 10); (2, 11)]) chunks) =
  [(inl 0xAC00, (10, (1, tt))); (inl 0x41, (10, (2, tt))); (inl 0x20, (11, (2, tt))); (inr (CtlChar 13), (11, (2, tt)))].
Proof. cbv zeta. repeat split; try lia; repeat constructor. Qed.

(** C25.  Grouping by line segment is the grouping: flattened it is the list of
    pieces, no group is empty, neighbouring groups have different segments (when the
    pieces run out early through a failure, the unfinished last group is missing). *)
Theorem C25_groups : forall (S A : Type) (same : S -> S -> bool), (forall a b, same a b = true <-> a = b) ->
  forall (chunks : gen ((Z * Z) * A * chunk)) linesegs,
  exists gs, grouping gs (fst (split_and_shape chunks linesegs)) /\
    line_segmented same chunks linesegs =
    (match snd (split_and_shape chunks linesegs) with Finished => gs | _ => removelast gs end,
     snd (split_and_shape chunks linesegs)).
Proof. intros S A same HS chunks linesegs. exact (line_segmented_groups same HS _ _). Qed.
Print Assumptions C25_groups.

(** There is only one such grouping. *)
Theorem C25_grouping_unique : forall (S A : Type) (gs hs : list (S * list ((Z * Z) * A * chunk))) pieces,
  grouping gs pieces -> grouping hs pieces -> gs = hs.
Proof. intros S A. exact grouping_unique. Qed.
Print Assumptions C25_grouping_unique.

Example C25_case :
  line_segmented Z.eqb ([((0, 2), 7, ChText [97; 98]); ((2, 5), 8, ChText [99; 100; 101]); ((5, 6), 8, ChCtl (CtlChar 13))], Finished)
    (make_ranged_shapes [(0, 100); (3, 103)]) =
  ([(100, [((0, 2), 7, ChText [97; 98]); ((2, 3), 8, ChText [99])]);
    (103, [((3, 5), 8, ChText [100; 101]); ((5, 6), 8, ChCtl (CtlChar 13))])], Finished).
Proof. vm_compute. reflexivity. Qed.
