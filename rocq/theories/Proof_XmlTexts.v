(** Paragraph texts become lines of shaped chunks. *)
From Coq Require Import ZArith String List Bool Lia.
From Verif Require Import Base BaseFacts Model_Tree Spec_Tree Proof_Tree Model_ParaText Model_Shape Spec_Shape Spec_Text Spec_ParaText Proof_ParaText Proof_Shape Model_Lang Model_Classes Model_XmlModel Spec_XmlModel Proof_XmlModel.
Import ListNotations.
Open Scope string_scope.
Open Scope list_scope.
Open Scope Z_scope.

(** ** Pieces stay in order *)
Lemma cut_in_order : forall A bs s e c ps (a : A), cut_at bs s e c = Some ps -> s <= e -> s < 0x7fffffff -> e <= 0x7fffffff ->
  forall p rest, p <= s -> in_order e rest -> in_order p (map (fun q => (fst q, a, snd q)) ps ++ rest).
Proof.
  intros A. induction bs as [|b bs IH]; intros s e c ps a H Hse Hs He p rest Hp HR; cbn [cut_at] in H.
  - injection H as <-. cbn. repeat split; try lia. exact HR.
  - destruct ((s <? b) && (b <? e)) eqn:E; [|eapply IH; eauto].
    destruct c as [t|]; [|discriminate]. destruct (cut_at bs b e _) as [ps'|] eqn:E2; [|discriminate]. injection H as <-.
    cbn [map app in_order fst snd]. repeat split; try lia. eapply IH; [exact E2|lia|lia|lia|lia|exact HR].
Qed.

Lemma split_in_order : forall S A (d : S) shapes (chunks : list ((Z * Z) * A * chunk)) p out, in_order p chunks ->
  split_spec d shapes chunks Finished = (out, Finished) -> in_order p out.
Proof.
  intros S A d shapes chunks. induction chunks as [|[[[s e] a] c] chunks IH]; intros p out HO H.
  - cbn in H. injection H as <-. exact I.
  - destruct HO as ([H1 H1'] & H2 & H3 & H4). cbn [split_spec] in H. destruct (cut_at (map fst shapes) s e c) as [ps|] eqn:E; [|discriminate].
    destruct (split_spec d shapes chunks Finished) as [out' o'] eqn:E'. unfold gapp in H. cbn [fst snd] in H. injection H as <- ->.
    specialize (IH e out' H4 eq_refl).
    assert (G : forall ps s c, cut_at (map fst shapes) s e c = Some ps -> s <= e -> s < 0x7fffffff -> forall p, p <= s ->
      in_order p (map (fun q => (fst q, (shape_at d shapes (fst (fst q)), a), snd q)) ps ++ out')).
    { clear E H1 H1' H2 ps c s. generalize (map fst shapes) as bs. induction bs as [|b bs IHb]; intros ps s c H Hse Hs q Hq; cbn [cut_at] in H.
      - injection H as <-. cbn. repeat split; try lia. exact IH.
      - destruct ((s <? b) && (b <? e)) eqn:E; [|eapply IHb; eauto].
        destruct c as [t|]; [|discriminate]. destruct (cut_at bs b e _) as [ps'|] eqn:E2; [|discriminate]. injection H as <-.
        cbn [map app in_order fst snd]. repeat split; try lia. eapply IHb; [exact E2|lia|lia|lia]. }
    eapply G; [exact E|lia|lia|lia].
Qed.

(** ** One paragraph *)
Lemma positioned_gen : forall segs i lines, positioned i segs lines -> chpos_linesegs i segs = (lines, Finished).
Proof.
  induction segs as [|d segs IH]; intros i [|[p [j d']] lines] H; cbn [positioned] in H; try contradiction; [reflexivity|].
  destruct H as (H1 & -> & -> & H2). cbn [chpos_linesegs]. rewrite H1, (IH _ _ H2). reflexivity.
Qed.

Lemma same_lineseg_positioned : forall segs i lines, positioned i segs lines -> forall a b, In a (map snd lines) -> In b (map snd lines) -> (same_lineseg a b = true <-> a = b).
Proof.
  assert (LOW : forall segs i lines, positioned i segs lines -> forall a, In a (map snd lines) -> i <= fst a).
  { induction segs as [|d segs IH]; intros i [|[p [j d']] lines] H a HI; cbn [positioned] in H; try contradiction. destruct H as (H1 & -> & -> & H2). cbn in HI.
    destruct HI as [<-|HI]; [cbn; lia|]. specialize (IH _ _ H2 a HI). lia. }
  induction segs as [|d segs IH]; intros i [|[p [j d']] lines] H a b HA HB; cbn [positioned] in H; try contradiction. destruct H as (H1 & -> & -> & H2).
  split; [|intros ->; unfold same_lineseg; apply Z.eqb_refl]. unfold same_lineseg. intros E. apply Z.eqb_eq in E. cbn in HA, HB.
  destruct HA as [<-|HA], HB as [<-|HB]; try reflexivity.
  - specialize (LOW _ _ _ H2 b HB). cbn in E. lia.
  - specialize (LOW _ _ _ H2 a HA). cbn in E. lia.
  - apply (IH _ _ H2 a b HA HB). unfold same_lineseg. now apply Z.eqb_eq.
Qed.

(** The grouping only compares the segments that occur. *)
Lemma line_loop_ext : forall S A (same same' : S -> S -> bool) (pieces : list (piece S A)) prev o,
  (forall a b, In a (match prev with Some (x, _) => [x] | None => [] end ++ map (fun x => fst (snd (fst x))) pieces) -> In b (match prev with Some (x, _) => [x] | None => [] end ++ map (fun x => fst (snd (fst x))) pieces) -> same a b = same' a b) ->
  line_loop same prev pieces o = line_loop same' prev pieces o.
Proof.
  intros S A same same'. induction pieces as [|[[r [ls a]] c] pieces IH]; intros prev o H; [reflexivity|]. cbn [line_loop]. destruct prev as [[pls line]|].
  - rewrite (H ls pls); [|cbn; auto|cbn; auto]. destruct (same' ls pls); [|f_equal]; apply IH; intros x y HX HY; apply H; cbn in *; tauto.
  - apply IH. intros x y HX HY. apply H; cbn in *; tauto.
Qed.

Lemma split_shapes_in : forall S A (d : S) shapes (chunks : list ((Z * Z) * A * chunk)) co x, In x (fst (split_spec d shapes chunks co)) ->
  In (fst (snd (fst x))) (d :: map snd shapes).
Proof.
  intros S A d shapes chunks co. assert (SA : forall sh d i, In (shape_at (S:=S) d sh i) (d :: map snd sh)).
  { induction sh as [|[p s] sh IH]; intros d0 i; cbn; [auto|]. destruct (p <=? i); [|auto]. destruct (IH s i) as [H|H]; [rewrite <- H; auto|right; right; exact H]. }
  induction chunks as [|[[[s e] a] c] chunks IH]; intros x HX; cbn [split_spec] in HX; [contradiction|].
  destruct (cut_at _ _ _ _) as [ps|]; [|contradiction]. unfold gapp in HX. cbn [fst] in HX. apply in_app_or in HX. destruct HX as [HX|HX]; [|now apply IH].
  apply in_map_iff in HX. destruct HX as (p & <- & _). cbn [fst snd]. apply SA.
Qed.

Lemma grouped : forall segs i line0 lines (pieces : list (piece lineseg (Z * unit))), positioned i segs (line0 :: lines) ->
  (forall x, In x pieces -> In (fst (snd (fst x))) (map snd (line0 :: lines))) ->
  exists gs, grouping gs pieces /\ line_loop same_lineseg None pieces Finished = (gs, Finished).
Proof.
  intros segs i line0 lines pieces HP HIN.
  assert (DEC : forall a b : lineseg, {a = b} + {a <> b}) by (repeat decide equality).
  set (eqs := fun a b : lineseg => if DEC a b then true else false).
  assert (HE : forall a b, eqs a b = true <-> a = b) by (intros a b; unfold eqs; destruct (DEC a b); split; congruence).
  destruct (line_segmented_groups eqs HE pieces Finished) as (gs & H1 & H2). exists gs. split; [exact H1|]. rewrite <- H2.
  apply line_loop_ext. cbn [app]. intros a b HA HB. apply in_map_iff in HA, HB. destruct HA as (xa & <- & HA), HB as (xb & <- & HB).
  pose proof (same_lineseg_positioned _ _ _ HP _ _ (HIN _ HA) (HIN _ HB)) as HS. specialize (HE (fst (snd (fst xa))) (fst (snd (fst xb)))).
  destruct (same_lineseg _ _), (eqs _ _); intuition congruence.
Qed.

Lemma leaves_walk : forall chunks, Forall (fun c : (Z * Z) * (Z * unit) * chunk => known_control (snd c)) chunks ->
  textchunk_events chunks = (walk (chunk_leaves chunks), Finished).
Proof.
  intros chunks H. induction H as [|[[r [shape u]] c] chunks HK _ IH]; [reflexivity|]. cbn [textchunk_events chunk_leaves fold_right fst snd]. fold (chunk_leaves chunks).
  destruct c as [t|ct]; cbn [chunk_elem].
  - rewrite IH. reflexivity.
  - cbn [snd known_control] in HK. destruct HK as [k HK]. rewrite control_kinds, HK, IH. cbn [walk app]. unfold controlchar_item, a_char.
    rewrite control_names by (apply (control_group_range _ _ HK)). cbn [existsb]. rewrite orb_false_r, !orb_assoc.
    reflexivity.
Qed.

Lemma lines_walk : forall gs, Forall (fun g => Forall (fun c : (Z * Z) * (Z * unit) * chunk => known_control (snd c)) (snd g)) gs ->
  line_events gs Finished = (walk (line_trees gs), Finished).
Proof.
  intros gs H. induction H as [|[ls chunks] gs HK _ IH]; [reflexivity|]. cbn [line_events line_trees fold_right fst snd]. fold (line_trees gs). cbn [snd] in HK.
  rewrite (leaves_walk chunks HK), IH. unfold gthen. cbn [snd fst gcons gapp walk]. reflexivity.
Qed.

Lemma known_pieces : forall S A (d : S) shapes (chunks : list ((Z * Z) * A * chunk)) co, Forall (fun c => known_control (snd c)) chunks ->
  Forall (fun c => known_control (snd c)) (fst (split_spec d shapes chunks co)).
Proof.
  intros S A d shapes chunks co H. induction H as [|[[[s e] a] c] chunks HK _ IH]; cbn [split_spec]; [constructor|].
  destruct (cut_at (map fst shapes) s e c) as [ps|] eqn:E; [|constructor]. unfold gapp. cbn [fst]. apply Forall_app. split; [|exact IH].
  apply Forall_map. cbn [snd] in *. revert s e c ps E HK. generalize (map fst shapes) as bs. induction bs as [|b bs IHb]; intros s e c ps E HK; cbn [cut_at] in E.
  - injection E as <-. constructor; [exact HK|constructor].
  - destruct ((s <? b) && (b <? e)); [|eapply IHb; eauto]. destruct c as [t|]; [|discriminate]. destruct (cut_at bs b e _) as [ps'|] eqn:E2; [|discriminate]. injection E as <-.
    constructor; [exact I|]. eapply IHb; [exact E2|exact I].
Qed.

Lemma known_groups : forall S A (gs : list (S * list ((Z * Z) * A * chunk))), Forall (fun c => known_control (snd c)) (flatten gs) ->
  Forall (fun g => Forall (fun c => known_control (snd c)) (snd g)) gs.
Proof.
  intros S A gs. induction gs as [|[s l] gs IH]; intros H; [constructor|]. rewrite flatten_cons in H. cbn [fst snd] in H. apply Forall_app in H. destruct H as [H1 H2]. constructor; [|now apply IH].
  rewrite Forall_map in H1. cbn [snd] in *. exact H1.
Qed.

Lemma dict_find : forall c d, dict_item c d = find (model_is c) d.
Proof. induction d as [|x d IH]; cbn; [reflexivity|]. destruct (model_is c x); [reflexivity|exact IH]. Qed.

Definition merge_of (d : list item) : gen (event item) :=
  merge_paragraph (match dict_item "ParaText" d with Some p => p | None => empty_paratext end) (dict_item "ParaCharShape" d) (dict_item "ParaLineSeg" d).

Lemma merge_lines : forall l, para_ok l -> exists lf, para_lines l lf /\ merge_of (rev l) = (walk lf, Finished).
Proof.
  intros l (chunks & shape0 & shapes & line0 & lines & HL). assert (HL' := HL). destruct HL as [HC HS HG [HA1 HA2] [HO1 HO2] [HF1 HF2] HK].
  destruct shape0 as [p0 sh0], line0 as [q0 ls0]. cbn [fst snd] in *.
  (* the first split *)
  pose proof (split_and_shape_spec p0 sh0 shapes (plain_chunks chunks, Finished) sh0 HA1 HO1) as S1. cbn [fst snd] in S1.
  pose proof (spec_outcome_fits sh0 ((p0, sh0) :: shapes) (plain_chunks chunks) HF1) as EO1.
  destruct (split_spec sh0 ((p0, sh0) :: shapes) (plain_chunks chunks) Finished) as [out1 o1] eqn:E1. cbn [snd] in EO1. subst o1.
  (* the second *)
  pose proof (pieces_control_fits _ _ _ _ _ E1 HF2) as HF2'. pose proof (split_in_order _ _ _ _ _ _ _ HO2 E1) as HO2'.
  pose proof (split_and_shape_spec q0 ls0 lines (out1, Finished) ls0 HA2 HO2') as S2. cbn [fst snd] in S2.
  pose proof (spec_outcome_fits ls0 ((q0, ls0) :: lines) out1 HF2') as EO2.
  destruct (split_spec ls0 ((q0, ls0) :: lines) out1 Finished) as [out2 o2] eqn:E2. cbn [snd] in EO2. subst o2.
  (* the segments *)
  assert (SEG : exists segs, positioned 0 segs ((q0, ls0) :: lines) /\
    match dict_item "ParaLineSeg" (rev l) with
    | None => Ok [dummy_lineseg]
    | Some pl => match attr_get "linesegs" (i_attrs pl) with None => Raise KeyError | Some (VLineSegs l) => Ok l | Some _ => Raise TypeError end
    end = Ok segs).
  { rewrite dict_find. unfold para_segs, last_of in HG. destruct (find (model_is "ParaLineSeg") (rev l)) as [x|].
    - destruct HG as (segs & HG1 & HG2). exists segs. rewrite HG1. now split.
    - injection HG as -> -> ->. exists [a_line]. split; [repeat split|reflexivity]. }
  destruct SEG as (segs & HP & ESEG).
  destruct (grouped segs 0 (q0, ls0) lines out2 HP) as (gs & HGR & ELL).
  { intros x HX. pose proof (split_shapes_in _ _ ls0 ((q0, ls0) :: lines) out1 Finished x) as H. rewrite E2 in H. specialize (H HX). cbn in *. tauto. }
  exists (line_trees gs). split.
  - exists chunks, (p0, sh0), shapes, (q0, ls0), lines, gs. split; [exact HL'|]. cbn [fst snd]. rewrite E1. cbn [fst]. rewrite E2. cbn [fst]. now split.
  - assert (EC : attr_get "chunks" (i_attrs (match dict_item "ParaText" (rev l) with Some p => p | None => empty_paratext end)) = Some (VChunks chunks)).
    { rewrite dict_find. unfold para_chunks, last_of in HC. destruct (find (model_is "ParaText") (rev l)); [exact HC|]. subst chunks. reflexivity. }
    destruct HS as (xs & HS1 & HS2). unfold last_of in HS1.
    unfold merge_of, merge_paragraph. rewrite EC, (dict_find "ParaCharShape"), HS1, HS2. fold (plain_chunks chunks). rewrite S1. cbn zeta.
    rewrite ESEG. rewrite (positioned_gen _ _ _ HP). unfold make_ranged_shapes_gen. cbn [fst snd]. cbv beta iota.
    assert (S3 : @line_segmented lineseg (Z * unit) same_lineseg (out1, Finished) (@make_ranged_shapes lineseg ((q0, ls0) :: lines)) = (gs, Finished)).
    { unfold line_segmented. transitivity (@line_loop lineseg (Z * unit) same_lineseg None (fst (out2, Finished)) (snd (out2, Finished))); [|exact ELL].
      apply (f_equal (fun g => @line_loop lineseg (Z * unit) same_lineseg None (fst g) (snd g))). exact S2. }
    transitivity (line_events (fst (gs, Finished)) (snd (gs, Finished))); [exact (f_equal (fun g => line_events (fst g) (snd g)) S3)|]. cbn [fst snd].
    apply lines_walk. apply known_groups. destruct HGR as [-> _].
    assert (K1 : Forall (fun c => known_control (snd c)) out1).
    { pose proof (known_pieces _ _ sh0 ((p0, sh0) :: shapes) (plain_chunks chunks) Finished) as H. rewrite E1 in H. apply H. unfold plain_chunks. rewrite Forall_map. cbn [snd]. exact HK. }
    pose proof (known_pieces _ _ ls0 ((q0, ls0) :: lines) out1 Finished K1) as H. rewrite E2 in H. exact H.
Qed.

(** ** The pass *)
Definition push_items (l : list item) (st : list (list item)) : list (list item) := match st with [] => [] | d :: r => (rev l ++ d) :: r end.
Lemma push_nil : forall st, push_items [] st = st.
Proof. intros [|d st]; reflexivity. Qed.
Lemma push_push : forall a b st, push_items b (push_items a st) = push_items (a ++ b) st.
Proof. intros a b [|d st]; [reflexivity|]. cbn. now rewrite rev_app_distr, app_assoc. Qed.

Lemma para_not_data : forall x, is_para x = true -> para_data x = false.
Proof. intros x H. unfold is_para, para_data, model_is in *. apply String.eqb_eq in H. now rewrite H. Qed.

Lemma texts_walk : forall f, everywhere texts_node f ->
  exists f', with_lines f f' /\ forall st rest o, (st = [] -> para_items f = []) ->
    make_texts st (walk f ++ rest) o = gapp (walk f') (make_texts (push_items (para_items f) st) rest o).
Proof.
  induction f as [|x k IHk n IHn]; intros HE.
  - exists FNil. split; [reflexivity|]. intros st rest o _. cbn [walk app para_items]. now rewrite push_nil, gapp_nil.
  - destruct HE as (E1 & E2 & E3). destruct (IHk E2) as (k' & WK & HK). destruct (IHn E3) as (n' & WN & HN). clear IHk IHn.
    destruct (is_para x) eqn:EP.
    + destruct (merge_lines _ (E1 EP)) as (lf & L1 & L2). exists (FCons x (fapp k' lf) n'). split.
      * cbn [with_lines]. exists k', n'. rewrite EP. repeat split; try assumption. exists lf. now split.
      * intros st rest o HST. rewrite walk_app_cons. cbn [make_texts para_items]. assert (EP' := EP). unfold is_para in EP'. rewrite EP', EP. cbn [app].
        cbn [para_items] in HST. rewrite EP in HST. cbn [app] in HST.
        rewrite HK by discriminate. cbn [push_items make_texts]. rewrite app_nil_r, EP'. fold (merge_of (rev (para_items k))). rewrite L2. unfold gthen. cbn [fst snd].
        rewrite HN by exact HST. cbn [walk]. rewrite walk_fapp. gnorm.
    + destruct (para_data x) eqn:ED.
      * exists (fapp k' n'). split.
        { cbn [with_lines]. exists k', n'. rewrite EP. unfold is_para_data. unfold para_data in ED. rewrite ED. now repeat split. }
        intros st rest o HST. rewrite walk_app_cons. cbn [make_texts]. assert (EP' := EP). unfold is_para in EP'. rewrite EP', ED.
        assert (EPI : para_items (FCons x k n) = [x] ++ para_items k ++ para_items n).
        { cbn [para_items]. rewrite EP. unfold is_para_data. unfold para_data in ED. rewrite ED. now rewrite <- app_assoc. }
        rewrite EPI in *. destruct st as [|d st]; [specialize (HST eq_refl); discriminate|].
        rewrite HK by discriminate. cbn [push_items make_texts]. rewrite EP', ED. rewrite HN by discriminate. cbn [push_items].
        rewrite walk_fapp, gapp_gapp. f_equal. rewrite !rev_app_distr. cbn [rev app]. rewrite <- !app_assoc. reflexivity.
      * exists (FCons x k' n'). split.
        { cbn [with_lines]. exists k', n'. rewrite EP. unfold is_para_data. unfold para_data in ED. rewrite ED. now repeat split. }
        intros st rest o HST. rewrite walk_app_cons. cbn [make_texts]. assert (EP' := EP). unfold is_para in EP'. rewrite EP', ED.
        assert (EPI : para_items (FCons x k n) = para_items k ++ para_items n).
        { cbn [para_items]. rewrite EP. unfold is_para_data. unfold para_data in ED. rewrite ED. reflexivity. }
        rewrite EPI in *. rewrite HK by (intros HX; specialize (HST HX); now apply app_eq_nil in HST).
        cbn [make_texts]. rewrite EP', ED. rewrite HN by (destruct st; [intros _; specialize (HST eq_refl); now apply app_eq_nil in HST|discriminate]).
        rewrite push_push. cbn [walk]. gnorm.
Qed.

Theorem texts_pass : forall f, para_items f = [] -> everywhere texts_node f ->
  exists f', with_lines f f' /\ make_texts_linesegmented_and_charshaped (walk f, Finished) = (walk f', Finished).
Proof.
  intros f HI HE. destruct (texts_walk f HE) as (f' & H1 & H2). exists f'. split; [exact H1|]. unfold make_texts_linesegmented_and_charshaped. cbn [fst snd].
  rewrite <- (app_nil_r (walk f)). rewrite H2 by (intros _; exact HI). cbn [push_items make_texts]. apply gapp_end.
Qed.

(** ** What the lines say *)
Lemma leaves_said : forall line chunks, Forall (fun c : (Z * Z) * (Z * unit) * chunk => known_control (snd c)) chunks ->
  concat (map (leaf_said (i_attrs (line_elem line))) (roots (chunk_leaves chunks))) =
  map as_said (concat (map (fun c => said (fst (fst c), (line, snd (fst c)), snd c)) chunks)).
Proof.
  intros line chunks H. induction H as [|[[r [shape []]] c] chunks HK _ IH]; [reflexivity|]. cbn [chunk_leaves fold_right fst snd roots map concat]. fold (chunk_leaves chunks).
  rewrite map_app, <- IH. f_equal. destruct c as [t|ct]; cbn [chunk_elem said snd].
  - unfold leaf_said. cbn. rewrite map_map. reflexivity.
  - destruct HK as [k HK]. rewrite HK. unfold leaf_said. cbn. reflexivity.
Qed.

Lemma lines_said_groups : forall gs, Forall (fun g => Forall (fun c : (Z * Z) * (Z * unit) * chunk => known_control (snd c)) (snd g)) gs ->
  lines_said (line_trees gs) = map as_said (concat (map said (flatten gs))).
Proof.
  intros gs H. induction H as [|[ls chunks] gs HK _ IH]; [reflexivity|]. cbn [line_trees fold_right fst snd lines_said]. fold (line_trees gs).
  rewrite flatten_cons. cbn [fst snd]. rewrite !map_app, concat_app, map_app. apply f_equal2; [|exact IH]. rewrite map_map. cbn [snd] in HK. rewrite (leaves_said ls chunks HK). reflexivity.
Qed.

Lemma para_chunks_det : forall l c1 c2, para_chunks l c1 -> para_chunks l c2 -> c1 = c2.
Proof. intros l c1 c2. unfold para_chunks. destruct (last_of _ _); congruence. Qed.
Lemma para_shapes_det : forall l c1 c2, para_shapes l c1 -> para_shapes l c2 -> c1 = c2.
Proof. intros l c1 c2 (x & H1 & H2) (y & H3 & H4). congruence. Qed.
Lemma positioned_det : forall segs i l1 l2, positioned i segs l1 -> positioned i segs l2 -> l1 = l2.
Proof. intros segs i l1 l2 H1 H2. apply positioned_gen in H1, H2. congruence. Qed.
Lemma para_segs_det : forall l c1 c2, para_segs l c1 -> para_segs l c2 -> c1 = c2.
Proof.
  intros l c1 c2. unfold para_segs. destruct (last_of _ _); [|congruence]. intros (s1 & H1 & H2) (s2 & H3 & H4). assert (s1 = s2) by congruence. subst. eapply positioned_det; eauto.
Qed.

Theorem lines_exact : forall l lf chunks sh0 shapes ls0 lines q, para_lines l lf ->
  para_chunks l chunks -> para_shapes l ((0, sh0) :: shapes) -> para_segs l ((0, ls0) :: lines) ->
  adjacent 0 (plain_chunks chunks) q -> q <= 0x7fffffff ->
  Forall range_fits (plain_chunks chunks) -> Forall basic_only (plain_chunks chunks) ->
  lines_said lf = map as_said (concat (map (intended2 sh0 ((0, sh0) :: shapes) ls0 ((0, ls0) :: lines)) (plain_chunks chunks))).
Proof.
  intros l lf chunks sh0 shapes ls0 lines q (c' & s0 & s' & l0 & l' & gs & HL & HG & ->) HC HS HGS HAd Hq HR HB.
  destruct HL as [HC' HS' HGS' [HA1 HA2] [HO1 HO2] [HF1 HF2] HK].
  pose proof (para_chunks_det _ _ _ HC HC') as <-. pose proof (para_shapes_det _ _ _ HS HS') as HX. injection HX as <- <-. pose proof (para_segs_det _ _ _ HGS HGS') as HX. injection HX as <- <-.
  destruct (split_twice sh0 shapes ls0 lines (plain_chunks chunks) q HA1 HA2 HAd Hq HR HB HF1 HF2) as (out & E1 & E2).
  rewrite (split_and_shape_spec 0 sh0 shapes (plain_chunks chunks, Finished) sh0 HA1 HO1) in E1. cbn [fst snd] in *.
  pose proof (spec_outcome_fits sh0 ((0, sh0) :: shapes) (plain_chunks chunks) HF1) as EO1.
  pose proof (known_pieces _ _ sh0 ((0, sh0) :: shapes) (plain_chunks chunks) Finished) as K1.
  assert (K0 : Forall (fun c => known_control (snd c)) (plain_chunks chunks)) by (unfold plain_chunks; rewrite Forall_map; exact HK).
  specialize (K1 K0).
  destruct (split_spec sh0 ((0, sh0) :: shapes) (plain_chunks chunks) Finished) as [out1 o1] eqn:ES1. cbn [fst snd] in *. subst o1.
  pose proof (split_in_order _ _ _ _ _ _ _ HO2 ES1) as HO2'.
  rewrite (split_and_shape_spec 0 ls0 lines (out1, Finished) ls0 HA2 HO2') in E1. cbn [fst snd] in E1.
  pose proof (known_pieces _ _ ls0 ((0, ls0) :: lines) out1 Finished K1) as K2.
  rewrite E1 in HG, K2. cbn [fst] in HG, K2. rewrite <- E2. destruct HG as (HG & _). rewrite <- HG in *. apply lines_said_groups. apply known_groups. exact K2.
Qed.
