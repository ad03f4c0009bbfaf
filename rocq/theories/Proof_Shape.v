(** Proofs about shape splitting. *)
From Coq Require Import ZArith List Bool Lia.
From Verif Require Import Base BaseFacts Model_ParaText Model_Shape Spec_Text Spec_ParaText Spec_Shape Proof_Tree Proof_ParaText.
Import ListNotations.
Open Scope Z_scope.

Section S.
Context {S A : Type}.

Lemma ascending_tail : forall a l, ascending (a :: l) -> ascending l.
Proof. intros a [|b l] H; [exact I|apply H]. Qed.

Lemma ascending_ge : forall l a, ascending (a :: l) -> Forall (fun x => a <= x) l.
Proof.
  induction l as [|b l IH]; intros a H; [constructor|]. destruct H as [H1 H2].
  constructor; [exact H1|]. eapply Forall_impl; [|apply IH; exact H2]. cbn; intros; lia.
Qed.

(** Boundaries at or before the start do not cut. *)
Lemma cut_skip : forall b rest s e c, b <= s -> cut_at (b :: rest) s e c = cut_at rest s e c.
Proof. intros. cbn [cut_at]. replace (s <? b) with false by lia. reflexivity. Qed.

Lemma cut_none : forall bs s e c, Forall (fun b => e <= b) bs -> cut_at bs s e c = Some [((s, e), c)].
Proof.
  induction bs as [|b bs IH]; intros s e c H; [reflexivity|]. inversion H; subst. cbn [cut_at].
  replace (b <? e) with false by lia. rewrite andb_false_r. now apply IH.
Qed.

Lemma shape_at_before : forall (d : S) shapes i, Forall (fun x => i < fst x) shapes -> shape_at d shapes i = d.
Proof. intros d [|[p s] shapes] i H; [reflexivity|]. inversion H; subst. cbn in *. replace (p <=? i) with false by lia. reflexivity. Qed.

(** Dropping runs that are over changes neither cutting nor shapes. *)
Lemma cut_at_pieces_start : forall bs s e c ps, s <= e -> cut_at bs s e c = Some ps -> Forall (fun p => s <= fst (fst p) <= e) ps.
Proof.
  induction bs as [|b bs IH]; intros s e c ps Hse H; cbn [cut_at] in H.
  - injection H as <-. repeat constructor; cbn; lia.
  - destruct ((s <? b) && (b <? e)) eqn:E.
    + destruct c as [t|]; [|discriminate]. destruct (cut_at bs b e _) as [ps'|] eqn:E2; [|discriminate].
      injection H as <-. constructor; [cbn; lia|].
      eapply Forall_impl; [|eapply IH; [|exact E2]]; [cbn; intros; lia|lia].
    + now apply (IH s e c).
Qed.

Lemma split_spec_drop : forall (d sh : S) p shapes (chunks : list ((Z * Z) * A * chunk)) co q,
  p <= q -> in_order q chunks ->
  split_spec d ((p, sh) :: shapes) chunks co = split_spec sh shapes chunks co.
Proof.
  intros d sh p shapes chunks co. induction chunks as [|[[[s e] a] c] chunks IH]; intros q Hq HO; [reflexivity|].
  destruct HO as (H1 & H2 & H3 & H4). cbn [split_spec map fst]. rewrite cut_skip by lia.
  destruct (cut_at (map fst shapes) s e c) as [ps|] eqn:E; [|reflexivity].
  f_equal; [|apply (IH e); [lia|exact H4]].
  apply map_ext_in. intros pc Hpc.
  pose proof (cut_at_pieces_start _ _ _ _ _ (proj2 H1) E) as HF. rewrite Forall_forall in HF. specialize (HF pc Hpc).
  cbn [shape_at]. replace (p <=? fst (fst pc)) with true by lia. reflexivity.
Qed.

Lemma ranged_len : forall shapes (l : Z * S), List.length (ranged_from l shapes) = Datatypes.S (List.length shapes).
Proof. induction shapes as [|x shapes IH]; intros l; cbn; [reflexivity|]. now rewrite IH. Qed.

Lemma split_spec_cons : forall (d : S) shapes s e (a : A) c rest co,
  split_spec d shapes (((s, e), a, c) :: rest) co =
  match cut_at (map fst shapes) s e c with
  | None => ([], Failed TypeError)
  | Some ps => gapp (map (fun p => (fst p, (shape_at d shapes (fst (fst p)), a), snd p)) ps)
                    (split_spec d shapes rest co)
  end.
Proof. reflexivity. Qed.

Lemma cut_text_some : forall bs q e u, cut_at bs q e (ChText u) <> None.
Proof.
  induction bs as [|b bs IH]; intros q e u H; cbn [cut_at] in H; [discriminate|].
  destruct ((q <? b) && (b <? e)); [|exact (IH _ _ _ H)].
  destruct (cut_at bs b e (ChText (zdrop (b - q) u))) eqn:E; [discriminate|]. exact (IH _ _ _ E).
Qed.

Lemma split_loop_next : forall k cs ce (attr : A) c chunks co ss se (sh : S) shapes so, ss <= cs -> se <= cs ->
  split_loop (Datatypes.S k) cs ce attr c chunks co (((ss, se), sh) :: shapes) so =
  split_loop k cs ce attr c chunks co shapes so.
Proof. intros. cbn [split_loop]. replace (cs <? ss) with false by lia. replace (se <=? cs) with true by lia. reflexivity. Qed.

(** The loop, with the runs that are left. *)
Lemma split_loop_spec : forall fuel shapes p0 (sh : S) cs ce (attr : A) c chunks co d,
  ascending (p0 :: map fst shapes) -> p0 <= cs -> cs <= ce -> cs < 0x7fffffff -> ce <= 0x7fffffff ->
  in_order ce chunks ->
  (List.length chunks + 2 * Datatypes.S (List.length shapes) <= fuel)%nat ->
  split_loop (Datatypes.S fuel) cs ce attr c chunks co (ranged_from (p0, sh) shapes) Finished =
  split_spec d ((p0, sh) :: shapes) (((cs, ce), attr, c) :: chunks) co.
Proof.
  induction fuel as [fuel IH] using lt_wf_ind.
  intros shapes p0 sh cs ce attr c chunks co d HA Hp Hce Hcs Hmax HO HF.
  (* what happens after the chunk in hand is used up *)
  assert (HK : match chunks with
               | [] => ([], co)
               | ((cs', ce'), attr', c') :: chunks' =>
                   split_loop fuel cs' ce' attr' c' chunks' co (ranged_from (p0, sh) shapes) Finished
               end = split_spec d ((p0, sh) :: shapes) chunks co).
  { destruct chunks as [|[[[cs' ce'] attr'] c'] chunks]; [reflexivity|].
    destruct HO as (H1 & H2 & H3 & H4). cbn [List.length] in HF. destruct fuel as [|k]; [lia|].
    apply IH; auto; lia. }
  destruct shapes as [|[p1 sh1] shapes].
  - cbn [ranged_from split_loop fst snd].
    replace (cs <? p0) with false by lia. replace (2147483647 <=? cs) with false by lia.
    replace (2147483647 <? ce) with false by lia.
    match goal with |- gcons _ ?m = _ => replace m with (split_spec d ((p0, sh) :: []) chunks co) by (symmetry; exact HK) end.
    rewrite split_spec_cons. cbn [map fst]. rewrite cut_skip by lia. cbn [cut_at map fst snd shape_at].
    replace (p0 <=? cs) with true by lia. reflexivity.
  - assert (HA' : ascending (p1 :: map fst shapes)) by exact (ascending_tail _ _ HA).
    assert (H01 : p0 <= p1) by (destruct HA; assumption).
    assert (HGE : Forall (fun x => p1 <= x) (map fst shapes)) by now apply ascending_ge.
    cbn [List.length] in HF.
    cbn [ranged_from split_loop fst snd]. replace (cs <? p0) with false by lia.
    destruct (p1 <=? cs) eqn:E1.
    { destruct fuel as [|k]; [lia|].
      rewrite (IH k ltac:(lia) shapes p1 sh1 cs ce attr c chunks co sh) by (auto; lia).
      symmetry. apply (split_spec_drop d sh p0 ((p1, sh1) :: shapes) (((cs, ce), attr, c) :: chunks) co cs); [exact Hp|].
      cbn [in_order]. repeat split; auto; lia. }
    destruct (p1 <? ce) eqn:E2.
    { rewrite split_spec_cons. cbn [map fst]. rewrite cut_skip by lia. cbn [cut_at].
      replace ((cs <? p1) && (p1 <? ce)) with true by lia.
      destruct c as [t|ct]; cbn [chunk_cut]; [|reflexivity].
      destruct fuel as [|[|k]]; [lia|lia|]. rewrite split_loop_next by lia.
      rewrite (IH k ltac:(lia) shapes p1 sh1 p1 ce attr _ chunks co sh1) by (auto; lia).
      rewrite split_spec_cons. cbn [map fst]. rewrite cut_skip by lia.
      destruct (cut_at (map fst shapes) p1 ce (ChText (zdrop (p1 - cs) t))) as [ps|] eqn:EC;
        [|exfalso; exact (cut_text_some _ _ _ _ EC)].
      rewrite gcons_gapp, gapp_gapp. cbn [map fst snd].
      rewrite (split_spec_drop d sh p0 ((p1, sh1) :: shapes) _ co ce) by (try exact HO; lia).
      rewrite !(split_spec_drop _ sh1 p1 shapes _ co ce) by (try exact HO; lia).
      f_equal. cbn [app]. f_equal.
      - cbn [shape_at]. replace (p0 <=? cs) with true by lia. replace (p1 <=? cs) with false by lia. reflexivity.
      - apply map_ext_in. intros pc Hpc.
        pose proof (cut_at_pieces_start _ p1 ce _ _ ltac:(lia) EC) as HP. rewrite Forall_forall in HP. specialize (HP pc Hpc).
        cbn [shape_at]. replace (p0 <=? fst (fst pc)) with true by lia.
        replace (p1 <=? fst (fst pc)) with true by lia. reflexivity. }
    { match goal with |- gcons _ ?m = _ => replace m with (split_spec d ((p0, sh) :: (p1, sh1) :: shapes) chunks co) by (symmetry; exact HK) end.
      rewrite split_spec_cons. cbn [map fst]. rewrite cut_skip by lia. rewrite cut_none.
      2:{ constructor; [lia|]. eapply Forall_impl; [|exact HGE]. cbn; intros; lia. }
      cbn [map fst snd shape_at]. replace (p0 <=? cs) with true by lia. replace (p1 <=? cs) with false by lia. reflexivity. }
Qed.

Theorem split_and_shape_spec : forall p0 (sh : S) shapes (chunks : gen ((Z * Z) * A * chunk)) d,
  ascending (p0 :: map fst shapes) -> in_order p0 (fst chunks) ->
  split_and_shape chunks (make_ranged_shapes ((p0, sh) :: shapes)) =
  split_spec d ((p0, sh) :: shapes) (fst chunks) (snd chunks).
Proof.
  intros p0 sh shapes [chunks co] d HA HO. unfold split_and_shape, make_ranged_shapes. cbn [fst snd] in *.
  destruct chunks as [|[[[cs ce] attr] c] chunks]; [reflexivity|].
  destruct HO as (H1 & H2 & H3 & H4).
  apply split_loop_spec; auto; try lia. rewrite ranged_len. lia.
Qed.

(** ** Consequences *)

Lemma cut_tiles : forall bs s e c ps, cut_at bs s e c = Some ps -> s < e -> tiled s (map fst ps) e.
Proof.
  induction bs as [|b bs IH]; intros s e c ps H Hse; cbn [cut_at] in H.
  - injection H as <-. cbn. repeat constructor. lia.
  - destruct ((s <? b) && (b <? e)) eqn:E; [|now apply (IH s e c)].
    destruct c as [t|]; [|discriminate]. destruct (cut_at bs b e _) as [ps'|] eqn:E2; [|discriminate].
    injection H as <-. cbn. constructor; [lia|]. eapply IH; [exact E2|lia].
Qed.

Lemma cut_text : forall bs s e c ps, cut_at bs s e c = Some ps -> concat (map (fun p => text_of (snd p)) ps) = text_of c.
Proof.
  induction bs as [|b bs IH]; intros s e c ps H; cbn [cut_at] in H.
  - injection H as <-. cbn. apply app_nil_r.
  - destruct ((s <? b) && (b <? e)) eqn:E; [|now apply (IH s e c)].
    destruct c as [t|]; [|discriminate]. destruct (cut_at bs b e _) as [ps'|] eqn:E2; [|discriminate].
    injection H as <-. cbn [map concat snd text_of]. rewrite (IH _ _ _ _ E2). cbn [text_of]. apply ztake_zdrop.
Qed.

Lemma cut_control : forall bs s e ct ps, cut_at bs s e (ChCtl ct) = Some ps -> ps = [((s, e), ChCtl ct)].
Proof.
  induction bs as [|b bs IH]; intros s e ct ps H; cbn [cut_at] in H; [congruence|].
  destruct ((s <? b) && (b <? e)); [discriminate|]. eauto.
Qed.

(** Inside one run. *)
Lemma cut_inside : forall bs s e c ps, ascending bs -> cut_at bs s e c = Some ps ->
  Forall (fun p => Forall (fun b => b <= fst (fst p) \/ snd (fst p) <= b) bs) ps.
Proof.
  induction bs as [|b bs IH]; intros s e c ps HA H; cbn [cut_at] in H.
  - injection H as <-. repeat constructor.
  - assert (HA' := ascending_tail _ _ HA). pose proof (ascending_ge _ _ HA) as HG.
    destruct ((s <? b) && (b <? e)) eqn:E.
    + destruct c as [t|]; [|discriminate]. destruct (cut_at bs b e _) as [ps'|] eqn:E2; [|discriminate].
      injection H as <-. constructor.
      * constructor; [cbn; lia|]. eapply Forall_impl; [|exact HG]. cbn; intros; lia.
      * pose proof (IH _ _ _ _ HA' E2) as HI.
        pose proof (cut_at_pieces_start _ b e _ _ ltac:(lia) E2) as HP.
        rewrite Forall_forall in *. intros pc Hpc. constructor; [|exact (HI pc Hpc)].
        left. specialize (HP pc Hpc). lia.
    + pose proof (IH _ _ _ _ HA' H) as HI.
      assert (HP : s <= e -> Forall (fun p => s <= fst (fst p) <= e) ps) by (intros Hse; exact (cut_at_pieces_start _ s e _ _ Hse H)).
      destruct (Z_le_gt_dec s e) as [Hse|Hse].
      * specialize (HP Hse). 
        assert (HE : Forall (fun p => snd (fst p) <= e) ps).
        { clear - H Hse. revert s c ps H Hse. induction bs as [|b' bs IH]; intros s c ps H Hse; cbn [cut_at] in H.
          - injection H as <-. repeat constructor. cbn. lia.
          - destruct ((s <? b') && (b' <? e)) eqn:E; [|eauto].
            destruct c as [t|]; [|discriminate]. destruct (cut_at bs b' e _) as [ps'|] eqn:E2; [|discriminate].
            injection H as <-. constructor; [cbn; lia|]. eapply IH; [exact E2|lia]. }
        rewrite Forall_forall in *. intros pc Hpc. constructor; [|exact (HI pc Hpc)].
        specialize (HP pc Hpc). specialize (HE pc Hpc). lia.
      * assert (EP : ps = [((s, e), c)]).
        { clear - H Hse. revert H. induction bs as [|b' bs IH]; cbn [cut_at]; [congruence|].
          replace ((s <? b') && (b' <? e)) with false by lia. exact IH. }
        subst ps. constructor; [|constructor]. inversion HI as [|? ? HI1 _]; subst.
        constructor; [cbn; lia|exact HI1].
Qed.

Lemma shape_const : forall (shapes : list (Z * S)) d s e i, ascending (map fst shapes) ->
  Forall (fun b => b <= s \/ e <= b) (map fst shapes) -> s <= i < e -> shape_at d shapes i = shape_at d shapes s.
Proof.
  induction shapes as [|[p sh] shapes IH]; intros d s e i HA HF Hi; [reflexivity|].
  cbn [map fst] in *. inversion HF as [|? ? H1 H2]; subst. cbn [shape_at].
  destruct H1 as [H1|H1].
  - replace (p <=? i) with true by lia. replace (p <=? s) with true by lia.
    eapply IH; eauto. now apply ascending_tail in HA.
  - replace (p <=? i) with false by lia. replace (p <=? s) with false by lia. reflexivity.
Qed.

Lemma adjacent_in_order : forall (chunks : list ((Z * Z) * A * chunk)) p q, adjacent p chunks q -> in_order p chunks.
Proof.
  induction chunks as [|[[[s e] a] c] chunks IH]; intros p q H; [exact I|].
  destruct H as (-> & H1 & H2 & H3). cbn [in_order]. repeat split; try lia. eauto.
Qed.

Lemma adjacent_le : forall (chunks : list ((Z * Z) * A * chunk)) p q, adjacent p chunks q -> p <= q.
Proof.
  induction chunks as [|[[[s e] a] c] chunks IH]; intros p q H; cbn in H; [lia|].
  destruct H as (-> & H1 & H2 & H3). specialize (IH _ _ H3). lia.
Qed.

Lemma tiled_app : forall a p m b q, tiled p a m -> tiled m b q -> tiled p (a ++ b) q.
Proof. induction a as [|[s e] a IH]; intros p m b q H1 H2; inversion H1; subst; [exact H2|]. cbn. constructor; [assumption|]. eapply IH; eauto. Qed.

Lemma cut_ctl : forall bs s e c ps, cut_at bs s e c = Some ps -> concat (map (fun p => ctl_of (snd p)) ps) = ctl_of c.
Proof.
  induction bs as [|b bs IH]; intros s e c ps H; cbn [cut_at] in H.
  - injection H as <-. cbn. apply app_nil_r.
  - destruct ((s <? b) && (b <? e)) eqn:E; [|now apply (IH s e c)].
    destruct c as [t|]; [|discriminate]. destruct (cut_at bs b e _) as [ps'|] eqn:E2; [|discriminate].
    injection H as <-. cbn [map concat snd ctl_of app]. now rewrite (IH _ _ _ _ E2).
Qed.

Lemma spec_lossless : forall (d : S) shapes chunks p q out,
  ascending (map fst shapes) -> adjacent p chunks q ->
  split_spec d shapes chunks Finished = (out, Finished) ->
  tiled p (map (fun x => fst (fst x)) out) q /\
  concat (map (fun x => text_of (snd x)) out) = concat (map (fun x => text_of (snd x)) chunks) /\
  concat (map (fun x => ctl_of (snd x)) out) = concat (map (fun x => ctl_of (snd x)) chunks) /\
  Forall (fun x : piece S A => forall i, fst (fst (fst x)) <= i < snd (fst (fst x)) -> fst (snd (fst x)) = shape_at d shapes i) out.
Proof.
  intros d shapes. induction chunks as [|[[[s e] a] c] chunks IH]; intros p q out HA HAd H.
  - cbn in H. injection H as <-. cbn in HAd. subst. repeat split; constructor.
  - destruct HAd as (-> & H1 & H2 & H3). rewrite split_spec_cons in H.
    destruct (cut_at (map fst shapes) p e c) as [ps|] eqn:EC; [|discriminate].
    destruct (split_spec d shapes chunks Finished) as [out' o'] eqn:ES.
    unfold gapp in H. cbn [fst snd] in H. injection H as <- ->.
    destruct (IH e q out' HA H3 eq_refl) as (I1 & I2 & I3 & I4).
    set (m := map _ ps).
    assert (EM1 : map (fun x : piece S A => fst (fst x)) m = map fst ps) by (unfold m; now rewrite map_map).
    assert (EM2 : map (fun x : piece S A => text_of (snd x)) m = map (fun p => text_of (snd p)) ps) by (unfold m; now rewrite map_map).
    assert (EM3 : map (fun x : piece S A => ctl_of (snd x)) m = map (fun p => ctl_of (snd p)) ps) by (unfold m; now rewrite map_map).
    unfold piece in *. repeat split.
    + rewrite map_app, EM1. eapply tiled_app; [|exact I1]. eapply cut_tiles; eauto.
    + rewrite map_app, concat_app, EM2, I2. cbn [map concat snd]. now rewrite (cut_text _ _ _ _ _ EC).
    + rewrite map_app, concat_app, EM3, I3. cbn [map concat snd]. now rewrite (cut_ctl _ _ _ _ _ EC).
    + apply Forall_app. split; [|exact I4]. unfold m. apply Forall_map. cbn [fst snd].
      pose proof (cut_inside _ _ _ _ _ HA EC) as HI. eapply Forall_impl; [|exact HI].
      cbn. intros pc Hpc i Hi. symmetry. eapply shape_const; eauto.
Qed.

(** Each character gets the shape of its position. *)
Lemma unit_positions_app : forall a p b, unit_positions p (a ++ b) = unit_positions p a ++ unit_positions (p + zlen (utf16_units a)) b.
Proof.
  induction a as [|c a IH]; intros p b; cbn [unit_positions app].
  - f_equal. change (zlen (utf16_units [])) with 0. lia.
  - rewrite IH. replace (zlen (utf16_units (c :: a))) with (zlen (utf16_units_of c) + zlen (utf16_units a)).
    2:{ unfold utf16_units. cbn [map concat]. symmetry. apply zlen_app. }
    rewrite Z.add_assoc. reflexivity.
Qed.

Lemma units_basic : forall t, Forall (fun c => c < 0x10000) t -> zlen (utf16_units t) = zlen t.
Proof.
  intros t H. induction H as [|c t Hc Ht IH]; [reflexivity|]. unfold utf16_units in *. cbn [map concat].
  rewrite zlen_app, IH, zlen_cons. unfold utf16_units_of. replace (c <? 65536) with true by lia. rewrite zlen_cons. change (zlen (@nil Z)) with 0. lia.
Qed.

(** Pieces and chunks with positions. *)
Definition posed {X} (x : (Z * Z) * X * chunk) : list (Z * (Z + control) * X) :=
  let '((s, _), sa, c) := x in
  match c with
  | ChText t => map (fun p => (fst p, inl (snd p), sa)) (unit_positions s t)
  | ChCtl ct => [(s, inr ct, sa)]
  end.

Definition with_shape (d : S) shapes (y : Z * (Z + control) * A) : Z * (Z + control) * (S * A) :=
  let '(i, v, a) := y in (i, v, (shape_at d shapes i, a)).

Lemma said_const : forall (d : S) shapes (a : A) t s e, ascending (map fst shapes) ->
  Forall (fun b => b <= s \/ e <= b) (map fst shapes) -> zlen (utf16_units t) <= e - s ->
  forall q, s <= q -> q + zlen (utf16_units t) <= e ->
  map (fun p => (fst p, @inl Z control (snd p), (shape_at d shapes (fst p), a))) (unit_positions q t) =
  map (fun p => (fst p, @inl Z control (snd p), (shape_at d shapes s, a))) (unit_positions q t).
Proof.
  intros d shapes a t s e HA HF. induction t as [|c t IH]; intros HL q Hq He; [reflexivity|].
  assert (EU : zlen (utf16_units (c :: t)) = zlen (utf16_units_of c) + zlen (utf16_units t)).
  { unfold utf16_units. cbn [map concat]. apply zlen_app. }
  assert (H1 : 1 <= zlen (utf16_units_of c)).
  { unfold utf16_units_of. destruct (c <? 65536); rewrite !zlen_cons; change (zlen (@nil Z)) with 0; lia. }
  pose proof (zlen_nonneg _ (utf16_units t)).
  cbn [unit_positions map fst snd]. rewrite (shape_const shapes d s e q) by (auto; lia).
  f_equal. apply IH; lia.
Qed.

Lemma cut_said : forall (d : S) shapes (a : A) bs s e t ps, ascending (map fst shapes) -> 
  cut_at bs s e (ChText t) = Some ps ->
  Forall (fun p => Forall (fun b => b <= fst (fst p) \/ snd (fst p) <= b) (map fst shapes)) ps ->
  Forall (fun c => c < 0x10000) t -> zlen t = e - s ->
  concat (map (fun p => posed (fst p, (shape_at d shapes (fst (fst p)), a), snd p)) ps) =
  map (fun p => (fst p, inl (snd p), (shape_at d shapes (fst p), a))) (unit_positions s t) /\
  Forall (fun p => range_fits (fst p, a, snd p) /\ basic_only (fst p, a, snd p)) ps.
Proof.
  intros d shapes a. induction bs as [|b bs IH]; intros s e t ps HA H HF HB HL; cbn [cut_at] in H.
  - injection H as <-. cbn [map concat fst snd posed]. rewrite app_nil_r.
    inversion HF as [|? ? H1 _]; subst. cbn [fst snd] in H1.
    pose proof (units_basic t HB). split.
    + symmetry. apply (said_const d shapes a t s e); auto; lia.
    + constructor; [|constructor]. unfold range_fits, basic_only. cbn. split; [lia|assumption].
  - destruct ((s <? b) && (b <? e)) eqn:E; [|now apply (IH s e)].
    destruct (cut_at bs b e _) as [ps'|] eqn:E2; [|discriminate].
    injection H as <-. inversion HF as [|? ? H1 H2]; subst. cbn [fst snd] in H1.
    assert (HB1 : Forall (fun c => c < 0x10000) (ztake (b - s) t)).
    { rewrite <- (ztake_zdrop _ (b - s) t) in HB. apply Forall_app in HB. apply HB. }
    assert (HB2 : Forall (fun c => c < 0x10000) (zdrop (b - s) t)).
    { rewrite <- (ztake_zdrop _ (b - s) t) in HB. apply Forall_app in HB. apply HB. }
    assert (HL1 : zlen (ztake (b - s) t) = b - s) by (rewrite zlen_ztake; lia).
    pose proof (units_basic _ HB1) as HU1.
    cbn [map concat fst snd].
    destruct (IH _ _ _ _ HA E2 H2 HB2) as [I1 I2]; [rewrite zlen_zdrop; lia|]. rewrite I1. split.
    + rewrite <- (ztake_zdrop _ (b - s) t) at 3. rewrite unit_positions_app, map_app.
      rewrite HU1, HL1. replace (s + (b - s)) with b by lia. f_equal.
      cbn [posed]. symmetry. apply (said_const d shapes a _ s b); auto; lia.
    + constructor; [|exact I2]. unfold range_fits, basic_only. cbn. split; [lia|assumption].
Qed.

Lemma spec_posed : forall (d : S) shapes (chunks : list ((Z * Z) * A * chunk)) out,
  ascending (map fst shapes) ->
  Forall range_fits chunks -> Forall basic_only chunks ->
  split_spec d shapes chunks Finished = (out, Finished) ->
  concat (map posed out) = map (with_shape d shapes) (concat (map posed chunks)) /\
  Forall range_fits out /\ Forall basic_only out.
Proof.
  intros d shapes. induction chunks as [|[[[s e] a] c] chunks IH]; intros out HA HR HB H.
  - cbn in H. injection H as <-. repeat split; constructor.
  - rewrite split_spec_cons in H. inversion HR as [|? ? HR1 HR2]; subst. inversion HB as [|? ? HB1 HB2]; subst.
    destruct (cut_at (map fst shapes) s e c) as [ps|] eqn:EC; [|discriminate].
    destruct (split_spec d shapes chunks Finished) as [out' o'] eqn:ES.
    unfold gapp in H. cbn [fst snd] in H. injection H as <- ->.
    destruct (IH out' HA HR2 HB2 eq_refl) as (I1 & I2 & I3).
    unfold piece in *. rewrite map_app, concat_app. cbn [map concat]. rewrite map_app, I1.
    rewrite map_map, !Forall_app, !Forall_map. destruct c as [t|ct].
    + unfold basic_only, range_fits in HB1, HR1. cbn [text_of fst snd] in HB1, HR1.
      rewrite (units_basic _ HB1) in HR1. 
      destruct (cut_said d shapes a (map fst shapes) s e t ps) as [J1 J2]; auto.
      { exact (cut_inside _ _ _ _ _ HA EC). }
      rewrite J1. split; [|split; (split; [|assumption])].
      * f_equal. cbn [posed]. rewrite map_map. reflexivity.
      * eapply Forall_impl; [|exact J2]. intros p [Q _]. exact Q.
      * eapply Forall_impl; [|exact J2]. intros p [_ Q]. exact Q.
    + apply cut_control in EC. subst ps. split; [reflexivity|].
      split; (split; [|assumption]); constructor; try constructor; unfold range_fits, basic_only; cbn; auto.
Qed.

Lemma said_posed : forall out : list (piece S A), concat (map said out) = map (fun y => (snd (fst y), snd y)) (concat (map posed out)).
Proof.
  intros out. rewrite concat_map, map_map. f_equal. apply map_ext. intros [[[s e] sa] [t|ct]]; [|reflexivity].
  cbn [said posed]. rewrite map_map. cbn [fst snd].
  revert s. induction t as [|c t IH]; intros s; [reflexivity|]. cbn [map unit_positions snd]. f_equal. apply IH.
Qed.

Lemma intended_posed : forall d shapes (chunks : list ((Z * Z) * A * chunk)),
  concat (map (intended d shapes) chunks) = map (fun y => (snd (fst y), snd y)) (map (with_shape d shapes) (concat (map posed chunks))).
Proof.
  intros. rewrite !concat_map, !map_map. f_equal. apply map_ext. intros [[[s e] sa] [t|ct]]; [|reflexivity].
  cbn [intended posed]. rewrite !map_map. reflexivity.
Qed.

Lemma spec_said : forall (d : S) shapes (chunks : list ((Z * Z) * A * chunk)) out,
  ascending (map fst shapes) ->
  Forall range_fits chunks -> Forall basic_only chunks ->
  split_spec d shapes chunks Finished = (out, Finished) ->
  concat (map said out) = concat (map (intended d shapes) chunks).
Proof.
  intros d shapes chunks out HA HR HB H. destruct (spec_posed d shapes chunks out HA HR HB H) as (E & _).
  now rewrite said_posed, intended_posed, E.
Qed.

(** A control that a run boundary falls into. *)
Lemma cut_fails : forall bs s e c, cut_at bs s e c = None <-> (exists ct, c = ChCtl ct) /\ Exists (fun b => s < b < e) bs.
Proof.
  induction bs as [|b bs IH]; intros s e c; cbn [cut_at].
  - split; [discriminate|]. intros [_ H]. inversion H.
  - destruct ((s <? b) && (b <? e)) eqn:E.
    + destruct c as [t|ct].
      * split.
        -- destruct (cut_at bs b e _) eqn:E2; [discriminate|]. exfalso. exact (cut_text_some _ _ _ _ E2).
        -- intros [[ct H] _]. discriminate.
      * split; [|reflexivity]. intros _. split; [eauto|]. constructor. lia.
    + rewrite IH. split; intros [H1 H2]; (split; [exact H1|]).
      * now constructor 2.
      * inversion H2; subst; [lia|assumption].
Qed.

Lemma spec_outcome : forall (d : S) shapes (chunks : list ((Z * Z) * A * chunk)),
  (snd (split_spec d shapes chunks Finished) = Finished /\
   Forall (control_fits (map fst shapes)) chunks)
  \/
  (snd (split_spec d shapes chunks Finished) = Failed TypeError /\
   Exists (fun x => (exists ct, snd x = ChCtl ct) /\ Exists (fun b => fst (fst (fst x)) < b < snd (fst (fst x))) (map fst shapes)) chunks).
Proof.
  intros d shapes. induction chunks as [|[[[s e] a] c] chunks IH].
  - left. split; [reflexivity|constructor].
  - rewrite split_spec_cons. destruct (cut_at (map fst shapes) s e c) as [ps|] eqn:EC.
    + unfold gapp. cbn [snd]. destruct IH as [[I1 I2]|[I1 I2]].
      * left. split; [exact I1|]. constructor; [|exact I2]. unfold control_fits. cbn [fst snd].
        destruct c as [t|ct]; [left; eauto|right].
        apply Forall_forall. intros b Hb.
        destruct (Z_le_gt_dec b s); [lia|]. destruct (Z_le_gt_dec e b); [lia|]. exfalso.
        assert (cut_at (map fst shapes) s e (ChCtl ct) = None); [|congruence].
        apply cut_fails. split; [eauto|]. apply Exists_exists. exists b. split; [exact Hb|lia].
      * right. split; [exact I1|]. now constructor 2.
    + right. split; [reflexivity|]. constructor 1. cbn [fst snd]. now apply cut_fails.
Qed.

(** A chunk that begins before the first run. *)
Lemma split_before_first : forall p0 (sh : S) shapes s e (a : A) c rest co, s < p0 ->
  split_and_shape (((s, e), a, c) :: rest, co) (make_ranged_shapes ((p0, sh) :: shapes)) = ([], Failed AssertionError).
Proof.
  intros. unfold split_and_shape, make_ranged_shapes. cbn [fst snd].
  destruct shapes; cbn [split_loop ranged_from fst snd]; replace (s <? p0) with true by lia; reflexivity.
Qed.

(** ** Lines *)
Variable same : S -> S -> bool.
Hypothesis same_spec : forall a b, same a b = true <-> a = b.

Lemma flatten_cons : forall (g : S * list ((Z * Z) * A * chunk)) gs,
  flatten (g :: gs) = map (fun x => (fst (fst x), (fst g, snd (fst x)), snd x)) (snd g) ++ flatten gs.
Proof. reflexivity. Qed.

Lemma line_loop_spec : forall pieces (ls : S) line o, line <> [] ->
  exists gs, flatten gs = map (fun x : (Z * Z) * A * chunk => (fst (fst x), (ls, snd (fst x)), snd x)) (rev line) ++ pieces /\
    Forall (fun g => snd g <> []) gs /\ neighbours_differ (map fst gs) /\ (exists l gs', gs = (ls, l) :: gs') /\
    line_loop same (Some (ls, line)) pieces o = (match o with Finished => gs | _ => removelast gs end, o).
Proof.
  induction pieces as [|[[r [ls' a]] c] pieces IH]; intros ls line o HL; cbn [line_loop].
  - exists [(ls, rev line)]. repeat split.
    + constructor; [|constructor]. cbn. intros H. apply HL. rewrite <- (rev_involutive line), H. reflexivity.
    + eauto.
    + destruct o; reflexivity.
  - destruct (same ls' ls) eqn:E.
    + apply same_spec in E. subst ls'.
      destruct (IH ls ((r, a, c) :: line) o ltac:(discriminate)) as (gs & H1 & H2 & H3 & H4 & H5).
      exists gs. repeat split; auto. rewrite H1. cbn [rev]. rewrite map_app, <- app_assoc. reflexivity.
    + assert (ND : ls <> ls') by (intros ->; assert (same ls' ls' = true) by (now apply same_spec); congruence).
      destruct (IH ls' [(r, a, c)] o ltac:(discriminate)) as (gs & H1 & H2 & H3 & (l' & gs' & H4) & H5).
      exists ((ls, rev line) :: gs). repeat split.
      * rewrite flatten_cons, H1. reflexivity.
      * constructor; [|exact H2]. cbn. intros H. apply HL. rewrite <- (rev_involutive line), H. reflexivity.
      * subst gs. cbn [map fst] in *. split; [exact ND|exact H3].
      * eauto.
      * rewrite H5. unfold gcons. cbn [fst snd]. subst gs. destruct o; reflexivity.
Qed.

Theorem line_segmented_groups : forall pieces o, exists gs : list (S * list ((Z * Z) * A * chunk)),
  grouping gs pieces /\
  line_loop same None pieces o = (match o with Finished => gs | _ => removelast gs end, o).
Proof.
  intros [|[[r [ls a]] c] pieces] o; cbn [line_loop].
  - exists []. split; [repeat split; constructor|]. destruct o; reflexivity.
  - destruct (line_loop_spec pieces ls [(r, a, c)] o ltac:(discriminate)) as (gs & H1 & H2 & H3 & H4 & H5).
    exists gs. split; [|exact H5]. repeat split; assumption.
Qed.
End S.

(** The grouping is determined by the pieces. *)
Lemma grouping_unique : forall {S A} (gs hs : list (S * list ((Z * Z) * A * chunk))) pieces,
  grouping gs pieces -> grouping hs pieces -> gs = hs.
Proof.
  intros S A.
  assert (HD : forall (ls : S) (l1 : list ((Z * Z) * A * chunk)) gs l2 hs,
     neighbours_differ (ls :: map fst gs) -> neighbours_differ (ls :: map fst hs) ->
     Forall (fun g => snd g <> []) gs -> Forall (fun g => snd g <> []) hs ->
     map (fun x => (fst (fst x), (ls, snd (fst x)), snd x)) l1 ++ flatten gs =
     map (fun x => (fst (fst x), (ls, snd (fst x)), snd x)) l2 ++ flatten hs -> l1 = l2 /\ flatten gs = flatten hs).
  { intros ls. induction l1 as [|[[r1 a1] c1] l1 IH]; intros gs [|[[r2 a2] c2] l2] hs N1 N2 F1 F2 H; cbn [map app fst snd] in H.
    - auto.
    - exfalso. destruct gs as [|[g [|x xs]] gs]; [discriminate| |].
      + inversion F1 as [|? ? Q _]; subst. now apply Q.
      + rewrite flatten_cons in H. cbn in H. injection H as _ H _ _. cbn in N1. destruct N1. congruence.
    - exfalso. destruct hs as [|[g [|x xs]] hs]; [discriminate| |].
      + inversion F2 as [|? ? Q _]; subst. now apply Q.
      + rewrite flatten_cons in H. cbn in H. injection H as _ H _ _. cbn in N2. destruct N2. congruence.
    - injection H as -> -> -> H. destruct (IH gs l2 hs N1 N2 F1 F2 H) as [-> ?]. auto. }
  induction gs as [|[g l] gs IH]; intros [|[h m] hs] pieces (E1 & F1 & N1) (E2 & F2 & N2).
  - reflexivity.
  - exfalso. subst pieces. destruct m as [|x m]; [inversion F2 as [|? ? Q _]; now apply Q|]. discriminate.
  - exfalso. subst pieces. destruct l as [|x l]; [inversion F1 as [|? ? Q _]; now apply Q|]. discriminate.
  - inversion F1 as [|? ? Q1 F1']; subst. inversion F2 as [|? ? Q2 F2']; subst.
    assert (g = h).
    { rewrite !flatten_cons in E2. cbn [fst snd] in *. destruct l as [|x l]; [now destruct Q1|]. destruct m as [|y m]; [now destruct Q2|].
      cbn in E2. injection E2; intros. congruence. }
    subst h. rewrite !flatten_cons in E2. cbn [fst snd map] in *.
    destruct (HD g l gs m hs N1 N2 F1' F2' (eq_sym E2)) as [-> E3]. f_equal.
    apply (IH hs (flatten gs)); repeat split; auto.
    + clear - N1. destruct gs; [exact I|apply N1].
    + clear - N2. destruct hs; [exact I|apply N2].
Qed.

(** ** Splitting by character shapes, then by line segments *)
Lemma spec_outcome_fits : forall {S A} (d : S) shapes (chunks : list ((Z * Z) * A * chunk)),
  Forall (control_fits (map fst shapes)) chunks -> snd (split_spec d shapes chunks Finished) = Finished.
Proof.
  intros S A d shapes chunks H. destruct (spec_outcome d shapes chunks) as [[E _]|[_ E]]; [exact E|]. exfalso.
  apply Exists_exists in E. destruct E as (x & Hx & (ct & Hct) & HE). rewrite Forall_forall in H.
  destruct (H x Hx) as [[t Ht]|HF]; [congruence|]. apply Exists_exists in HE. destruct HE as (b & Hb & Hb2).
  rewrite Forall_forall in HF. specialize (HF b Hb). lia.
Qed.

Lemma pieces_control_fits : forall {S A} (d : S) shapes (chunks : list ((Z * Z) * A * chunk)) out starts,
  split_spec d shapes chunks Finished = (out, Finished) ->
  Forall (control_fits starts) chunks -> Forall (control_fits starts) out.
Proof.
  intros S A d shapes chunks. induction chunks as [|[[[s e] a] c] chunks IH]; intros out starts H HF.
  - cbn in H. injection H as <-. constructor.
  - rewrite split_spec_cons in H. inversion HF as [|? ? H1 H2]; subst.
    destruct (cut_at (map fst shapes) s e c) as [ps|] eqn:EC; [|discriminate].
    destruct (split_spec d shapes chunks Finished) as [out' o'] eqn:ES.
    unfold gapp in H. cbn [fst snd] in H. injection H as <- ->.
    unfold piece. apply Forall_app. split; [|now apply IH]. apply Forall_map.
    destruct c as [t|ct].
    + assert (HT : forall bs s t ps, cut_at bs s e (ChText t) = Some ps -> Forall (fun p => exists t, snd p = ChText t) ps).
      { clear. induction bs as [|b bs IH]; intros s t ps H; cbn [cut_at] in H.
        - injection H as <-. constructor; [cbn; eauto|constructor].
        - destruct ((s <? b) && (b <? e)); [|eauto]. destruct (cut_at bs b e _) as [ps'|] eqn:E; [|discriminate].
          injection H as <-. constructor; [cbn; eauto|]. eauto. }
      eapply Forall_impl; [|eapply HT; exact EC]. intros p Hp. left. exact Hp.
    + apply cut_control in EC. subst ps. constructor; [|constructor]. exact H1.
Qed.

Lemma tiled_adjacent : forall {A} (l : list ((Z * Z) * A * chunk)) p q, q <= 0x7fffffff -> tiled p (map (fun x => fst (fst x)) l) q -> adjacent p l q.
Proof.
  intros A. induction l as [|[[[s e] a] c] l IH]; intros p q Hq H; cbn in *; inversion H; subst; [reflexivity|].
  assert (HI : adjacent e l q) by now apply IH. pose proof (adjacent_le _ _ _ HI). repeat split; auto; lia.
Qed.

Theorem split_twice : forall {C L A} (sh0 : C) cs (ls0 : L) ls (chunks : list ((Z * Z) * A * chunk)) q,
  ascending (map fst ((0, sh0) :: cs)) -> ascending (map fst ((0, ls0) :: ls)) ->
  adjacent 0 chunks q -> q <= 0x7fffffff ->
  Forall range_fits chunks -> Forall basic_only chunks ->
  Forall (control_fits (map fst ((0, sh0) :: cs))) chunks ->
  Forall (control_fits (map fst ((0, ls0) :: ls))) chunks ->
  exists out,
    split_and_shape (split_and_shape (chunks, Finished) (make_ranged_shapes ((0, sh0) :: cs)))
                    (make_ranged_shapes ((0, ls0) :: ls)) = (out, Finished) /\
    concat (map said out) = concat (map (intended2 sh0 ((0, sh0) :: cs) ls0 ((0, ls0) :: ls)) chunks).
Proof.
  intros C L A sh0 cs ls0 ls chunks q HC HL HAd Hq HR HB HF1 HF2.
  rewrite (split_and_shape_spec 0 sh0 cs (chunks, Finished) sh0 HC (adjacent_in_order _ _ _ HAd)). cbn [fst snd].
  pose proof (spec_outcome_fits sh0 ((0, sh0) :: cs) chunks HF1) as EO.
  destruct (split_spec sh0 ((0, sh0) :: cs) chunks Finished) as [out1 o1] eqn:E1. cbn [snd] in EO. subst o1.
  destruct (spec_lossless _ _ _ _ _ _ HC HAd E1) as (HT & _).
  destruct (spec_posed _ _ _ _ HC HR HB E1) as (EP1 & HR1 & HB1).
  pose proof (tiled_adjacent _ _ _ Hq HT) as HAd1.
  rewrite (split_and_shape_spec 0 ls0 ls (out1, Finished) ls0 HL (adjacent_in_order _ _ _ HAd1)). cbn [fst snd].
  pose proof (spec_outcome_fits ls0 ((0, ls0) :: ls) out1 (pieces_control_fits _ _ _ _ _ E1 HF2)) as EO2.
  destruct (split_spec ls0 ((0, ls0) :: ls) out1 Finished) as [out2 o2] eqn:E2. cbn [snd] in EO2. subst o2.
  exists out2. split; [reflexivity|].
  destruct (spec_posed _ _ _ _ HL HR1 HB1 E2) as (EP2 & _).
  rewrite said_posed, EP2, EP1. rewrite !concat_map, !map_map. f_equal. apply map_ext.
  intros [[[s e] sa] [t|ct]]; [|reflexivity]. cbn [posed intended2]. rewrite !map_map. reflexivity.
Qed.

(** Parsed paragraph text meets the conditions on ranges. *)
Lemma parsed_chunks_fit : forall data out, all_bytes data -> zlen data < 0xfffffff0 -> parse_chunks data = (out, Finished) ->
  let chunks := map (fun x => (fst x, tt, snd x)) out in
  exists q, q <= 0x7fffffff /\ adjacent 0 chunks q /\ Forall range_fits chunks.
Proof.
  intros data out Hb HL H chunks. destruct (chunks_tile_and_describe data out Finished Hb H) as (q & HT & HD & HQ).
  specialize (HQ eq_refl). exists q. split; [lia|]. split.
  - apply tiled_adjacent; [lia|]. unfold chunks. now rewrite map_map.
  - unfold chunks. apply Forall_map. eapply Forall_impl; [|exact HD]. intros [[s e] [t|ct]]; unfold range_fits; cbn; [|auto].
    intros (_ & _ & HZ & _). lia.
Qed.
