(** The page definition of a section through the passes. *)
From Coq Require Import ZArith String List Bool Lia.
From Verif Require Import Base BaseFacts Model_Tree Spec_Tree Model_ParaText Spec_ParaText Model_Shape Spec_Shape Model_Lang Model_Classes Model_XmlModel.
From Verif Require Import Model_Text Model_Dataio Model_Record Model_Bintype Model_Layouts Model_Models Model_Oleprops Model_Embed Spec_Embed
  Model_XmlText Model_XmlElement Model_XmlFile Spec_XmlText Spec_Bintype Spec_Models Spec_Oleprops Spec_Layouts Spec_XmlElement Spec_XmlModel Spec_Section Spec_XmlFile Spec_XmlSummary Spec_XmlHwp
  Proof_Record Proof_Text Proof_Tree Proof_Models Proof_Layouts Proof_Fits Proof_Section Proof_XmlText Proof_OleText Proof_XmlElement Proof_XmlEntry Proof_XmlRecord Proof_XmlNames Proof_XmlDocument Proof_XmlDocinfo
  Proof_XmlPasses Proof_XmlFile Proof_XmlSection Proof_XmlSummary Proof_XmlIds Proof_XmlHwp Model_Plaintext Spec_Plaintext Proof_Plaintext Proof_PlaintextXml Spec_Filestructure Spec_Formatting Proof_Formatting Proof_Formatting2
  Proof_Formatting3.
From Verif Require Proof_Html.
Import ListNotations.
Open Scope string_scope.
Open Scope list_scope.
Open Scope Z_scope.
Local Notation item := Model_XmlModel.item.

Definition is_page (x : item) : bool := model_is "PageDef" x.
Definition pages (f : forest item) : list item := filter is_page (roots f).

Lemma model_not : forall a b x, a <> b -> model_is a x = true -> model_is b x = false.
Proof. intros a b x N H. unfold model_is in *. apply String.eqb_eq in H. rewrite H. now apply String.eqb_neq. Qed.
Ltac other_model := match goal with H : ?p ?x = true |- ?q ?x = false =>
  unfold is_page, is_para, is_char, is_ctl, is_field, is_lineseg, is_text, is_listheader, is_tablebody, is_tablecell, is_sectiondef, is_para_data, newcol, not_columns, extended, model_sub, model_is in *;
  apply String.eqb_eq in H; rewrite H; reflexivity end.

Lemma pages_app : forall f g, pages (fapp f g) = pages f ++ pages g.
Proof. intros f g. unfold pages. now rewrite roots_app, filter_app. Qed.
Lemma everywhere_app : forall P (f g : forest item), everywhere P (fapp f g) <-> everywhere P f /\ everywhere P g.
Proof. intros P f g. induction f as [|x k _ n IH]; cbn [fapp everywhere]; [tauto|]. rewrite IH. tauto. Qed.

Section Page.
  Variable p : item.
  Hypothesis HP : is_page p = true.

  (** The page definition is the first thing in the section definition, and there
      is no other. *)
  Definition placed (x : item) (k : forest item) : Prop :=
    if is_sectiondef x then exists r, roots k = p :: r /\ filter is_page r = [] else pages k = [].
  Definition all_placed : forest item -> Prop := everywhere placed.

  Lemma p_not : forall q, In q [is_para; is_para_data; is_ctl; is_char; is_lineseg; is_text; is_listheader; is_tablebody; is_tablecell; is_sectiondef; newcol; extended; is_field] -> q p = false.
  Proof.
    intros q H. unfold is_page, model_is in HP. apply String.eqb_eq in HP.
    repeat (destruct H as [<-|H]; [unfold newcol, extended, is_para, is_para_data, is_ctl, is_char, is_lineseg, is_text, is_listheader, is_tablebody, is_tablecell, is_sectiondef, is_field, model_sub, model_is; rewrite HP; reflexivity|]).
    contradiction.
  Qed.
  Lemma placed_roots : forall x k k', roots k' = roots k -> placed x k -> placed x k'.
  Proof. intros x k k' E H. unfold placed, pages in *. now rewrite E. Qed.
  (** What is needed of a pass on what is in a section definition. *)
  Lemma placed_pass : forall x k k', (forall kk n, k = FCons p kk n -> exists kk' n', k' = FCons p kk' n') -> pages k' = pages k -> placed x k -> placed x k'.
  Proof.
    intros x k k' HD E H. unfold placed in *. destruct (is_sectiondef x); [|now rewrite E]. destruct H as (r & R & N). destruct k as [|y kk n]; [discriminate|]. cbn [roots] in R. injection R as -> <-.
    destruct (HD kk n eq_refl) as (kk' & n' & ->). exists (roots n'). split; [reflexivity|]. unfold pages in E. cbn [roots filter] in E. rewrite HP, N in E. injection E as E. exact E.
  Qed.
  Lemma not_section : forall x k, is_sectiondef x = false -> (placed x k <-> pages k = []).
  Proof. intros x k H. unfold placed. rewrite H. tauto. Qed.

  (** *** Lines *)
  Lemma leaves_placed : forall cs, all_placed (chunk_leaves cs) /\ pages (chunk_leaves cs) = [].
  Proof.
    intros cs. induction cs as [|c cs [A B]]; [split; constructor|]. cbn [chunk_leaves fold_right]. fold (chunk_leaves cs).
    assert (M : is_sectiondef (chunk_elem (fst (snd (fst c))) (snd c)) = false /\ is_page (chunk_elem (fst (snd (fst c))) (snd c)) = false).
    { destruct (snd c) as [t|ct]; [split; reflexivity|]. cbn [chunk_elem]. destruct (control_group (chunk_control_code ct)); split; reflexivity. }
    destruct M as [M1 M2]. split.
    - cbn [all_placed everywhere]. split; [now apply not_section|]. split; [exact I|exact A].
    - unfold pages in *. cbn [roots filter]. rewrite M2. exact B.
  Qed.
  Lemma lines_placed : forall gs, all_placed (line_trees gs) /\ pages (line_trees gs) = [].
  Proof.
    intros gs. induction gs as [|g gs [A B]]; [split; constructor|]. cbn [line_trees fold_right]. fold (line_trees gs). destruct (leaves_placed (snd g)) as [L1 L2]. split.
    - cbn [all_placed everywhere]. split; [apply not_section; [reflexivity|exact L2]|]. split; assumption.
    - exact B.
  Qed.
  Lemma with_lines_placed : forall f g, with_lines f g -> all_placed f -> pages g = pages f /\ all_placed g.
  Proof.
    intros f. induction f as [|x k IHk n IHn]; intros g H A; cbn [with_lines] in H; [subst; now split|]. destruct H as (k' & n' & HK & HN & H). destruct A as (A1 & A2 & A3).
    destruct (IHk _ HK A2) as [K1 K2]. destruct (IHn _ HN A3) as [N1 N2].
    assert (HD : forall kk m, k = FCons p kk m -> exists kk' m', k' = FCons p kk' m').
    { intros kk m ->. cbn [with_lines] in HK. destruct HK as (kk' & m' & _ & _ & E). rewrite (p_not is_para), (p_not is_para_data) in E by (cbn; tauto). exists kk', m'. exact E. }
    destruct (is_para x) eqn:PX.
    - destruct H as (lf & (c1 & c2 & c3 & c4 & c5 & gs & _ & _ & ->) & ->). destruct (lines_placed gs) as [L1 L2]. assert (SX : is_sectiondef x = false) by other_model. apply (not_section x k SX) in A1. split.
      + unfold pages in *. cbn [roots filter]. rewrite N1. reflexivity.
      + cbn [all_placed everywhere]. split; [apply not_section; [exact SX|]; now rewrite pages_app, K1, A1, L2|]. split; [apply everywhere_app; split; assumption|exact N2].
    - destruct (is_para_data x) eqn:DX; subst g.
      + assert (SX : is_sectiondef x = false /\ is_page x = false).
        { unfold is_para_data in DX. rewrite !orb_true_iff in DX. split; destruct DX as [[[DX|DX]|DX]|DX]; (eapply model_not; [|exact DX]; discriminate). }
        destruct SX as [SX PG]. apply (not_section x k SX) in A1. split; [|apply everywhere_app; split; assumption].
        rewrite pages_app, K1, A1. unfold pages at 2. cbn [roots filter]. rewrite PG. exact N1.
      + split; [unfold pages in *; cbn [roots filter]; rewrite N1; reflexivity|]. cbn [all_placed everywhere]. split; [|split; assumption]. exact (placed_pass x k k' HD K1 A1).
  Qed.

  (** *** Controls *)
  Definition fine (t : item * option (forest item)) : Prop := forall k, snd t = Some k -> placed (fst t) k /\ all_placed k.
  Lemma collect_placed : forall l g, collect l = Some g -> Forall fine l -> all_placed g.
  Proof.
    intros l. induction l as [|[x [k|]] l IH]; intros g H F; cbn [collect] in H; [injection H as <-; exact I| |discriminate]. destruct (collect l) as [n|]; [|discriminate]. injection H as <-.
    inversion F as [|? ? F1 F2]; subst. destruct (F1 k eq_refl) as [A B]. cbn [fst] in A. cbn [all_placed everywhere]. split; [exact A|]. split; [exact B|]. now apply IH.
  Qed.
  Lemma fill_placed : forall f cs g r, fill cs f = Some (g, r) -> Forall fine cs -> Forall (fun t => is_page (fst t) = false) cs -> all_placed f ->
    pages g = pages f /\ all_placed g /\ Forall fine r /\ Forall (fun t => is_page (fst t) = false) r.
  Proof.
    intros f. induction f as [|x k IHk n IHn]; intros cs g r H F C A; cbn [fill] in H; [injection H as <- <-; auto|]. destruct A as (A1 & A2 & A3).
    destruct (extended x) eqn:EX.
    - destruct cs as [|[c [ck|]] cs']; try discriminate. destruct (fill cs' n) as [[n' r']|] eqn:EN; [|discriminate]. injection H as <- <-. inversion F as [|? ? F1 F2]; subst. inversion C as [|? ? C1 C2]; subst.
      destruct (IHn _ _ _ EN F2 C2 A3) as (N1 & N2 & N3 & N4). destruct (F1 ck eq_refl) as [B1 B2]. cbn [fst] in *. split; [|split; [cbn [all_placed everywhere]; auto|auto]].
      assert (PX : is_page x = false) by (unfold extended in EX; apply andb_true_iff in EX as [EX _]; other_model). unfold pages in *. cbn [roots filter]. rewrite C1, PX. exact N1.
    - destruct (fill cs k) as [[k' cs']|] eqn:EK; [|discriminate]. destruct (fill cs' n) as [[n' r']|] eqn:EN; [|discriminate]. injection H as <- <-.
      destruct (IHk _ _ _ EK F C A2) as (K1 & K2 & K3 & K4). destruct (IHn _ _ _ EN K3 K4 A3) as (N1 & N2 & N3 & N4). split; [unfold pages in *; cbn [roots filter]; now rewrite N1|]. split; [|auto].
      cbn [all_placed everywhere]. split; [|split; assumption]. apply (placed_pass x k k'); [|exact K1|exact A1]. intros kk m ->. cbn [fill] in EK. rewrite (p_not extended) in EK by (cbn; tauto).
      destruct (fill cs kk) as [[kk' cs1]|]; [|discriminate]. destruct (fill cs1 m) as [[m' r1]|]; [|discriminate]. injection EK as <- _. eauto.
  Qed.
  Lemma converted_placed : forall f, all_placed f -> Forall fine (converted f).
  Proof.
    intros f. induction f as [|x k IHk n IHn]; intros A; [constructor|]. destruct A as (A1 & A2 & A3). specialize (IHk A2). cbn [converted]. constructor; [|now apply IHn]. intros k'. cbn [fst snd]. intros H.
    destruct (is_para x) eqn:PX.
    - assert (SX : is_sectiondef x = false) by other_model. apply (not_section x k SX) in A1. unfold inline_para in H.
      destruct (collect (filter (fun t => negb (is_ctl (fst t))) (converted k))) as [g|] eqn:EC; [|discriminate]. destruct (fill (filter (fun t => is_ctl (fst t)) (converted k)) g) as [[kk r]|] eqn:EF; [|discriminate]. injection H as <-.
      assert (FF : forall q, Forall fine (filter q (converted k))).
      { intros q. apply Forall_forall. intros t HI. apply filter_In in HI as [HI _]. rewrite Forall_forall in IHk. now apply IHk. }
      destruct (fill_placed g _ _ _ EF (FF _)) as (B1 & B2 & _ & _).
      + apply Forall_forall. intros t HI. apply filter_In in HI as [_ HC]. destruct (is_page (fst t)) eqn:PG; [|reflexivity]. exfalso. unfold is_page, is_ctl, model_sub, model_is in *. apply String.eqb_eq in PG. rewrite PG in HC. discriminate.
      + exact (collect_placed _ _ EC (FF _)).
      + split; [|exact B2]. apply not_section; [exact SX|]. rewrite B1. unfold pages in *. rewrite (collect_roots _ _ EC).
        apply Proof_Html.filter_none. intros y HI. apply in_map_iff in HI as (t & <- & HI). apply filter_In in HI as [HI _]. apply (in_map fst) in HI. rewrite converted_roots in HI.
        destruct (is_page (fst t)) eqn:PG; [|reflexivity]. exfalso. assert (X : In (fst t) (filter is_page (roots k))) by (apply filter_In; auto). now rewrite A1 in X.
    - split; [|exact (collect_placed _ _ H IHk)]. apply (placed_roots x k); [|exact A1]. rewrite (collect_roots _ _ H). apply converted_roots.
  Qed.
  Lemma inlined_placed : forall f g, inlined f = Some g -> all_placed f -> all_placed g.
  Proof. intros f g H A. exact (collect_placed _ _ H (converted_placed f A)). Qed.

  (** *** Fields *)
  Definition line_fine (z : line_state) : Prop :=
    pages (fst z) = [] /\ all_placed (fst z) /\ Forall (fun t => is_field (fst t) = true /\ pages (snd t) = [] /\ all_placed (snd t)) (snd z).
  Lemma field_not : forall x, is_field x = true -> is_sectiondef x = false /\ is_page x = false.
  Proof.
    intros x H. split; [destruct (is_sectiondef x) eqn:E|destruct (is_page x) eqn:E]; try reflexivity; exfalso; unfold is_sectiondef, is_page, is_field, model_sub, model_is in *; apply String.eqb_eq in E; rewrite E in H; discriminate.
  Qed.
  Lemma after_fine : forall f x k, pages f = [] -> all_placed f -> is_page x = false -> placed x k -> all_placed k -> pages (leaf_after f x k) = [] /\ all_placed (leaf_after f x k).
  Proof.
    intros f x k H1 H2 PX HP' HK. unfold leaf_after. split; [rewrite pages_app, H1; unfold pages; cbn [roots filter app]; now rewrite PX|]. apply everywhere_app. split; [exact H2|]. cbn [everywhere]. auto.
  Qed.
  Lemma finish_fine : forall fr cur, line_fine (cur, fr) -> pages (finish_line cur fr) = [] /\ all_placed (finish_line cur fr).
  Proof.
    intros fr. induction fr as [|[x outer] fr IH]; intros cur (H1 & H2 & H3); cbn [fst snd finish_line] in *; [auto|]. inversion H3 as [|? ? (F1 & F2 & F3) H4]; subst. cbn [fst snd] in *.
    destruct (field_not x F1) as [SX PX]. apply IH. split; [|split; [|exact H4]]; cbn [fst]; apply (after_fine outer x cur F2 F3 PX); try assumption; now apply not_section.
  Qed.
  Lemma regroup_placed : forall f st z, Forall (fun x => is_field x = true) st -> all_placed f ->
    match z with Some z => line_fine z /\ pages f = [] | None => True end ->
    Forall (fun x => is_field x = true) (snd (regroup st z f)) /\ all_placed (fst (regroup st z f)) /\
    match z with Some _ => pages (fst (regroup st z f)) = [] | None => True end.
  Proof.
    assert (RO : forall st, Forall (fun x => is_field x = true) st -> line_fine (reopen st)).
    { intros st H. split; [reflexivity|]. split; [exact I|]. cbn [reopen snd]. induction H; constructor; [|assumption]. cbn. auto. }
    assert (OP : forall z, line_fine z -> Forall (fun x => is_field x = true) (open_fields z)).
    { intros z (_ & _ & H). unfold open_fields. induction H as [|t l (A & _) _ IH]; constructor; auto. }
    intros f. induction f as [|x k IHk n IHn]; intros st z HS A HZ.
    - destruct z as [[cur fr]|]; cbn [regroup fst snd]; [|auto]. destruct HZ as [HZ _]. destruct (finish_fine fr cur HZ) as [H1 H2]. split; [exact (OP _ HZ)|]. auto.
    - destruct A as (A1 & A2 & A3).
      (* what is inside *)
      assert (IN : forall cur, Forall (fun x => is_field x = true) cur ->
        let k1 := regroup cur (if is_lineseg x then Some (reopen cur) else None) k in Forall (fun x => is_field x = true) (snd k1) /\ placed x (fst k1) /\ all_placed (fst k1)).
      { intros cur HC. cbv zeta. destruct (is_lineseg x) eqn:LX.
        - assert (SX : is_sectiondef x = false) by other_model. apply (not_section x k SX) in A1. destruct (IHk cur (Some (reopen cur)) HC A2 (conj (RO _ HC) A1)) as (I1 & I2 & I3). split; [exact I1|]. split; [now apply not_section|exact I2].
        - destruct (IHk cur None HC A2 I) as (I1 & I2 & _). split; [exact I1|]. split; [|exact I2]. apply (placed_roots x k); [apply regroup_roots|exact A1]. }
      cbn [regroup]. destruct z as [z|].
      + destruct HZ as [HZ PN]. assert (PX : is_page x = false /\ pages n = []).
        { unfold pages in PN |- *. cbn [roots filter] in PN. destruct (is_page x); [discriminate|]. auto. }
        destruct PX as [PX PN']. pose proof HZ as (Z1 & Z2 & Z3). destruct (is_field x) eqn:FX; [|destruct (field_end_char x)].
        * destruct (IN (x :: open_fields z)) as (_ & I2 & I3); [constructor; [exact FX|exact (OP z HZ)]|]. apply IHn; [exact HS|exact A3|]. split; [|exact PN'].
          destruct (field_not x FX) as [SX _]. split; [exact (proj1 (not_section x _ SX) I2)|]. split; [exact I3|]. cbn [open_field snd]. constructor; [|exact Z3]. cbn [fst snd]. auto.
        * apply IHn; [exact HS|exact A3|]. split; [|exact PN']. unfold close_field. destruct z as [cur [|[y outer] fr]]; cbn [fst snd] in *; [exact HZ|]. inversion Z3 as [|? ? (F1 & F2 & F3) Z4]; subst. cbn [fst snd] in *.
          destruct (field_not y F1) as [SY PY]. split; [|split; [|exact Z4]]; cbn [fst]; apply (after_fine outer y cur F2 F3 PY); try assumption; now apply not_section.
        * destruct (IN (open_fields z) (OP z HZ)) as (_ & I2 & I3). apply IHn; [exact HS|exact A3|]. split; [|exact PN']. destruct (after_fine (fst z) x _ Z1 Z2 PX I2 I3) as [B1 B2]. split; [exact B1|]. split; [exact B2|exact Z3].
      + cbv zeta. destruct (IN st HS) as (I1 & I2 & I3). destruct (IHn _ None I1 A3 I) as (N1 & N2 & _). cbn [fst snd]. split; [exact N1|]. split; [|exact I]. cbn [all_placed everywhere]. auto.
  Qed.

  (** *** Runs *)
  Lemma run_rest : forall q f, (forall x, q x = true -> is_page x = false) -> pages (frun q f) = [] /\ pages (frest q f) = pages f.
  Proof.
    intros q f H. induction f as [|x k _ n [I1 I2]]; [split; reflexivity|]. cbn [frun frest]. destruct (q x) eqn:QX; [|split; reflexivity]. unfold pages in *. cbn [roots filter]. rewrite (H x QX). auto.
  Qed.
  Lemma run_everywhere : forall P q (f : forest item), everywhere P f -> everywhere P (frun q f) /\ everywhere P (frest q f).
  Proof. intros P q f. induction f as [|x k _ n IH]; intros H; [split; constructor|]. destruct H as (H1 & H2 & H3). cbn [frun frest]. destruct (IH H3) as [I1 I2]. destruct (q x); cbn [everywhere]; auto. Qed.
  Lemma adopt_placed : forall a q f, (forall x, a x = true -> is_sectiondef x = false) -> (forall x, q x = true -> is_page x = false) -> a p = false -> all_placed f ->
    pages (adopt a q f) = pages f /\ all_placed (adopt a q f).
  Proof.
    intros a q f HA HQ AP. induction f as [|x k IHk n IHn]; intros A; [split; [reflexivity|exact I]|]. destruct A as (A1 & A2 & A3). destruct (IHk A2) as [K1 K2]. destruct (IHn A3) as [N1 N2].
    cbn [adopt]. destruct (run_rest q (adopt a q n) HQ) as [R1 R2]. destruct (run_everywhere placed q _ N2) as [E1 E2]. destruct (a x) eqn:AX.
    - specialize (HA x AX). apply (not_section x k HA) in A1. split; [unfold pages in *; cbn [roots filter]; now rewrite R2, N1|]. cbn [all_placed everywhere]. split; [|split; [apply everywhere_app; split; assumption|exact E2]].
      apply not_section; [exact HA|]. now rewrite pages_app, K1, A1, R1.
    - split; [unfold pages in *; cbn [roots filter]; now rewrite N1|]. cbn [all_placed everywhere]. split; [|split; assumption]. apply (placed_pass x k); [|exact K1|exact A1]. intros kk m ->. cbn [adopt]. rewrite AP. eauto.
  Qed.

  (** *** Rows *)
  Lemma take_everywhere : forall P i (f : forest item), everywhere P f -> everywhere P (ftake i f) /\ everywhere P (fdrop i f).
  Proof.
    intros P i. induction i as [|i IH]; intros f H; [destruct f; (split; [exact I|exact H])|]. destruct f as [|x k n]; [split; exact I|]. destruct H as (H1 & H2 & H3). destruct (IH n H3) as [I1 I2]. cbn [ftake fdrop everywhere]. auto.
  Qed.
  Lemma take_pages : forall i f, pages f = [] -> pages (ftake i f) = [] /\ pages (fdrop i f) = [].
  Proof.
    intros i. induction i as [|i IH]; intros f H; [destruct f; (split; [reflexivity|exact H])|]. destruct f as [|x k n]; [split; reflexivity|]. unfold pages in *. cbn [ftake fdrop roots filter] in *. destruct (is_page x); [discriminate|]. now apply IH.
  Qed.
  Lemma group_placed : forall rc f, pages f = [] -> all_placed f -> pages (group_rows rc f) = [] /\ all_placed (group_rows rc f).
  Proof.
    intros rc. induction rc as [|c rc IH]; intros f H A; [split; [reflexivity|exact I]|]. cbn [group_rows]. destruct (take_everywhere placed (Z.to_nat c) f A) as [T1 T2]. destruct (take_pages (Z.to_nat c) f H) as [P1 P2]. destruct (IH _ P2 T2) as [I1 I2].
    split; [exact I1|]. cbn [all_placed everywhere]. split; [now apply not_section|]. auto.
  Qed.
  Lemma rows_placed : forall f, all_placed f -> pages (with_rows f) = pages f /\ all_placed (with_rows f).
  Proof.
    intros f. induction f as [|x k IHk n IHn]; intros A; [split; [reflexivity|exact I]|]. destruct A as (A1 & A2 & A3). destruct (IHk A2) as [K1 K2]. destruct (IHn A3) as [N1 N2]. cbn [with_rows]. destruct (is_tablebody x) eqn:TX.
    - assert (SX : is_sectiondef x = false) by other_model. apply (not_section x k SX) in A1. rewrite A1 in K1. destruct (group_placed (rowcols_of x) _ K1 K2) as [G1 G2]. assert (PX : is_page x = false) by other_model.
      split; [unfold pages in *; cbn [roots filter]; change (is_page (del_item "rowcols" x)) with (is_page x); now rewrite PX, N1|].
      cbn [all_placed everywhere]. split; [apply not_section; [exact SX|exact G1]|]. auto.
    - split; [unfold pages in *; cbn [roots filter]; now rewrite N1|]. cbn [all_placed everywhere]. split; [|split; assumption]. apply (placed_pass x k); [|exact K1|exact A1]. intros kk m ->. cbn [with_rows]. rewrite (p_not is_tablebody) by (cbn; tauto). eauto.
  Qed.

  (** *** Words *)
  Lemma tokens_placed : forall x, pages (text_tokens x) = [] /\ all_placed (text_tokens x).
  Proof.
    intros x. unfold text_tokens. destruct (attr_get "charshape_id" (i_attrs x)) as [sh|]; [|split; [reflexivity|exact I]]. destruct (attr_get "text" (i_attrs x)) as [[]|]; try (split; [reflexivity|exact I]).
    induction (tokenize_unicode_by_lang t) as [|tok l [I1 I2]]; [split; [reflexivity|exact I]|]. cbn [token_forest fold_right]. fold (token_forest sh l). split; [exact I1|]. cbn [all_placed everywhere]. split; [now apply not_section|]. split; [exact I|exact I2].
  Qed.
  Lemma tokenized_placed : forall f, all_placed f -> pages (tokenized f) = pages f /\ all_placed (tokenized f).
  Proof.
    intros f. induction f as [|x k IHk n IHn]; intros A; [split; [reflexivity|exact I]|]. destruct A as (A1 & A2 & A3). destruct (IHk A2) as [K1 K2]. destruct (IHn A3) as [N1 N2]. cbn [tokenized]. destruct (is_text x) eqn:TX.
    - destruct (tokens_placed x) as [T1 T2]. assert (PX : is_page x = false) by other_model. split; [|apply everywhere_app; split; assumption]. rewrite pages_app, T1. unfold pages in *. cbn [roots filter app]. now rewrite PX.
    - split; [unfold pages in *; cbn [roots filter]; now rewrite N1|]. cbn [all_placed everywhere]. split; [|split; assumption]. apply (placed_pass x k); [|exact K1|exact A1]. intros kk m ->. cbn [tokenized]. rewrite (p_not is_text) by (cbn; tauto). eauto.
  Qed.

  (** *** The section *)
  Lemma extract_placed : forall f s sk rest, extract_section f = Some (s, sk, rest) -> all_placed f -> placed s sk.
  Proof.
    intros f. induction f as [|x k IHk n IHn]; intros s sk rest H A; [discriminate|]. destruct A as (A1 & A2 & A3). cbn [extract_section] in H. destruct (is_sectiondef x) eqn:E; [injection H as <- <- _; exact A1|].
    destruct (extract_section k) as [[[s0 sk0] k0]|]; [injection H as <- <- <-; exact (IHk _ _ _ eq_refl A2)|]. destruct (extract_section n) as [[[s0 sk0] n0]|]; [|discriminate]. injection H as <- <- <-. exact (IHn _ _ _ eq_refl A3).
  Qed.
  Lemma columns_pages : forall f, pages f = [] -> pages (in_columns f) = [].
  Proof.
    intros f. induction f as [|x k _ n IH]; intros H; [reflexivity|]. assert (PX : is_page x = false /\ pages n = []) by (unfold pages in *; cbn [roots filter] in H; destruct (is_page x); [discriminate|auto]). destruct PX as [PX PN]. specialize (IH PN).
    cbn [in_columns]. destruct (newcol x); [|unfold pages in *; cbn [roots filter]; now rewrite PX].
    unfold pages. cbn [roots filter]. change (is_page a_columnset) with false. cbv iota. fold (pages (frest not_columns (in_columns n))).
    revert IH. generalize (in_columns n). intros g. induction g as [|y kk _ m IHm]; intros HG; [reflexivity|]. cbn [frest]. destruct (not_columns y); [|exact HG]. apply IHm. unfold pages in *. cbn [roots filter] in HG. destruct (is_page y); [discriminate|exact HG].
  Qed.

  Theorem page_kept : forall sid f g, section_tree sid f g -> forallb is_para (roots f) = true -> all_placed f ->
    exists s k r, g = FCons (with_section_id sid s) k FNil /\ is_sectiondef s = true /\ roots k = p :: r /\ filter is_page r = [].
  Proof.
    intros sid f g (lined & controlled & sd & sk & rest & L1 & L2 & L3 & ->) P A.
    destruct (with_lines_placed _ _ L1 A) as [_ B1]. pose proof (inlined_placed _ _ L2 B1) as B2. destruct (regroup_placed controlled [] None (Forall_nil _) B2 I) as (_ & B3 & _).
    assert (LH : forall x, is_listheader x = true -> is_sectiondef x = false).
    { intros x H. destruct (is_sectiondef x) eqn:E; [|reflexivity]. exfalso. unfold is_sectiondef, is_listheader, model_sub, model_is in *. apply String.eqb_eq in E. rewrite E in H. discriminate. }
    destruct (adopt_placed is_listheader is_para _ LH (fun x H => ltac:(other_model)) (p_not is_listheader ltac:(cbn; tauto)) B3) as [_ B4].
    destruct (adopt_placed is_tablebody is_tablecell _ (fun x H => ltac:(other_model)) (fun x H => ltac:(other_model)) (p_not is_tablebody ltac:(cbn; tauto)) B4) as [_ B5].
    destruct (rows_placed _ B5) as [_ B6]. destruct (tokenized_placed _ B6) as [_ B7].
    pose proof (extract_is _ _ _ _ L3) as SD. pose proof (extract_placed _ _ _ _ L3 B7) as PL. unfold placed in PL. rewrite SD in PL. destruct PL as (r & R & N).
    assert (PR : pages rest = []).
    { assert (R8 : roots rest = roots f).
      { assert (PL : forall h, roots h = roots f -> paras h) by (intros h E; unfold paras; now rewrite E).
        assert (R1 : roots lined = roots f) by exact (lines_roots _ _ L1 P). assert (R2 : roots controlled = roots f) by (rewrite (inlined_roots _ _ L2); exact R1).
        set (h0 := fst (regroup [] None controlled)) in *. assert (R3 : roots h0 = roots f) by (unfold h0; rewrite regroup_roots; exact R2).
        set (h1 := adopt is_listheader is_para h0) in *. assert (R4 : roots h1 = roots f) by (unfold h1; rewrite adopt_roots; [exact R3|intros x E; apply (para_not x is_listheader E); cbn; tauto|now apply PL]).
        set (h2 := adopt is_tablebody is_tablecell h1) in *. assert (R5 : roots h2 = roots f) by (unfold h2; rewrite adopt_roots; [exact R4|intros x E; apply (para_not x is_tablebody E); cbn; tauto|now apply PL]).
        set (h3 := with_rows h2) in *. assert (R6 : roots h3 = roots f) by (unfold h3; rewrite rows_roots; [exact R5|now apply PL]).
        assert (R7 : roots (tokenized h3) = roots f) by (rewrite tokenized_roots; [exact R6|now apply PL]).
        rewrite (extract_roots _ _ _ _ L3); [exact R7|now apply PL]. }
      unfold pages. rewrite R8. apply Proof_Html.filter_none. intros x HI. rewrite forallb_forall in P. specialize (P x HI). other_model. }
    destruct sk as [|y kk m]; [discriminate|]. cbn [roots] in R. injection R as -> <-. exists sd. cbn [in_columns].
    assert (NC : newcol (with_section_id sid sd) = false).
    { unfold newcol, is_para, model_is. unfold is_sectiondef, model_is in SD. apply String.eqb_eq in SD. destruct sid; cbn [with_section_id set_item i_model]; rewrite SD; reflexivity. }
    rewrite NC. cbn [fapp in_columns]. rewrite (p_not newcol) by (cbn; tauto). eexists _, _. split; [reflexivity|]. split; [exact SD|]. cbn [roots]. split; [reflexivity|].
    apply (columns_pages (fapp m rest)). rewrite pages_app, PR. unfold pages. now rewrite N.
  Qed.
End Page.

(** ** From the records *)
Lemma preorder_levels : forall A (f : forest A) d, Forall (fun lx => d <= fst lx) (preorder d f).
Proof.
  intros A f. induction f as [|x k IHk n IHn]; intros d; [constructor|]. cbn [preorder]. constructor; [cbn; lia|]. apply Forall_app. split; [|apply IHn]. eapply Forall_impl; [|apply IHk]. cbn. intros a H. lia.
Qed.
Lemma none_placed : forall p (f : forest item) d, Forall (fun lx => is_sectiondef (snd lx) = false /\ is_page (snd lx) = false) (preorder d f) -> all_placed p f /\ pages f = [].
Proof.
  intros p f. induction f as [|x k IHk n IHn]; intros d H; [split; [exact I|reflexivity]|]. cbn [preorder] in H. inversion H as [|? ? [H1 H2] H3]; subst. cbn [snd] in *. apply Forall_app in H3 as [H3 H4].
  destruct (IHk _ H3) as [K1 K2]. destruct (IHn _ H4) as [N1 N2]. split; [|unfold pages in *; cbn [roots filter]; now rewrite H2]. cbn [all_placed everywhere]. split; [unfold placed; now rewrite H1|]. auto.
Qed.
Lemma page_placed : forall (f : forest item) d before l x y after, is_sectiondef x = true -> is_page y = true ->
  Forall (fun lx => is_sectiondef (snd lx) = false /\ is_page (snd lx) = false) (before ++ after) ->
  preorder d f = before ++ (l, x) :: (l + 1, y) :: after -> all_placed y f /\ pages f = [].
Proof.
  intros f. induction f as [|z k IHk n IHn]; intros d before l x y after SX PY NO E; [destruct before; discriminate|]. cbn [preorder] in E.
  assert (PX : is_page x = false) by other_model. apply Forall_app in NO as [NB NA].
  destruct before as [|b before].
  - cbn [app] in E. injection E as <- <- E. destruct k as [|y' kk kn].
    + cbn [preorder app] in E. destruct n as [|w wk wn]; [discriminate|]. cbn [preorder] in E. injection E as E _. lia.
    + cbn [preorder app] in E. injection E as <- E. rewrite <- E in NA. apply Forall_app in NA as [NA NN]. apply Forall_app in NA as [NK NKN].
      destruct (none_placed y' _ _ NK) as [K1 K2]. destruct (none_placed y' _ _ NKN) as [M1 M2]. destruct (none_placed y' _ _ NN) as [N1 N2]. split; [|unfold pages in *; cbn [roots filter]; now rewrite PX].
      cbn [all_placed everywhere]. split; [unfold placed; rewrite SX; exists (roots kn); auto|]. split; [|exact N1]. split; [|auto]. unfold placed. assert (SY : is_sectiondef y' = false) by other_model. now rewrite SY.
  - cbn [app] in E. injection E as <- E. inversion NB as [|? ? [B1 B2] NB']; subst. cbn [snd] in *.
    apply app_eq_app in E as (m & [[E1 E2]|[E1 E2]]).
    + (* in the children, or across *)
      destruct m as [|e1 m]; [rewrite app_nil_r in E1; cbn [app] in E2|cbn [app] in E2; injection E2 as <- E2; destruct m as [|e2 m]].
      * destruct (none_placed y k (d + 1)) as [K1 K2]; [now rewrite E1|]. destruct (IHn d [] l x y after SX PY NA (eq_sym E2)) as [N1 N2].
        split; [|unfold pages in *; cbn [roots filter]; now rewrite B2]. cbn [all_placed everywhere]. split; [unfold placed; now rewrite B1|]. auto.
      * exfalso. cbn [app] in E2. pose proof (preorder_levels _ k (d + 1)) as LV. rewrite E1 in LV. apply Forall_app in LV as [_ LV]. inversion LV as [|? ? LV1 _]; subst. cbn [fst] in LV1.
        destruct n as [|w wk wn]; [discriminate|]. cbn [preorder] in E2. injection E2 as E2 _. lia.
      * cbn [app] in E2. injection E2 as <- E2. rewrite E2 in NA. apply Forall_app in NA as [NA NN]. destruct (IHk (d + 1) before l x y m SX PY (proj2 (Forall_app _ _ _) (conj NB' NA)) E1) as [K1 K2]. destruct (none_placed y n d NN) as [N1 N2].
        split; [|unfold pages in *; cbn [roots filter]; now rewrite B2]. cbn [all_placed everywhere]. split; [unfold placed; now rewrite B1|]. auto.
    + rewrite E1 in NB'. apply Forall_app in NB' as [NK NM]. destruct (none_placed y k (d + 1) NK) as [K1 K2]. destruct (IHn d m l x y after SX PY (proj2 (Forall_app _ _ _) (conj NM NA)) E2) as [N1 N2].
      split; [|unfold pages in *; cbn [roots filter]; now rewrite B2]. cbn [all_placed everywhere]. split; [unfold placed; now rewrite B1|]. auto.
Qed.
Lemma pass_app : forall a b ref, exists ref', pass_items ref (a ++ b) = pass_items ref a ++ pass_items ref' b.
Proof. intros a. induction a as [|[r m] a IH]; intros b ref; [exists ref; reflexivity|]. cbn [app pass_items]. destruct (IH b (ref + 1)) as (ref' & ->). exists ref'. reflexivity. Qed.
Lemma pass_none : forall l ref, Forall (fun rm => type_of rm <> "SectionDef" /\ type_of rm <> "PageDef") l ->
  Forall (fun lx : Z * item => is_sectiondef (snd lx) = false /\ is_page (snd lx) = false) (pass_items ref l).
Proof.
  intros l. induction l as [|[r m] l IH]; intros ref H; [constructor|]. inversion H as [|? ? [H1 H2] H3]; subst. cbn [pass_items]. constructor; [|now apply IH]. cbn [snd pass_item]. unfold is_sectiondef, is_page, model_is. cbn [i_model].
  split; apply String.eqb_neq; assumption.
Qed.
Lemma record_placed : forall out f rp, preorder 0 f = pass_items 1 out -> page_record out rp -> exists i, all_placed (pass_item i (snd rp)) f /\ is_page (pass_item i (snd rp)) = true /\ In rp out.
Proof.
  intros out f rp E (before & rs & after & -> & TS & TP & LV & NO). apply Forall_app in NO as [NB NA]. destruct (pass_app before (rs :: rp :: after) 1) as (ref & PE). rewrite PE in E.
  destruct rs as [r1 m1], rp as [r2 m2]. cbn [pass_items fst snd] in *. exists (ref + 1). assert (PG : is_page (pass_item (ref + 1) m2) = true) by (unfold is_page, model_is; cbn [pass_item i_model]; now apply String.eqb_eq).
  split; [|split; [exact PG|apply in_or_app; right; right; now left]]. rewrite LV in E.
  refine (proj1 (page_placed f 0 _ _ _ _ _ _ PG _ E)).
  - unfold is_sectiondef, model_is. cbn [pass_item i_model]. now apply String.eqb_eq.
  - apply Forall_app. split; apply pass_none; assumption.
Qed.

Lemma section_page : forall repr object version s t t' b a out rp, Forall (fun r => all_bytes (r_payload r)) (snd s) ->
  section_made repr object version s t -> numbered b t t' a -> well_named t' -> (forall out', models_of version Finished [] (snd s) out' Finished -> out' = out) -> page_record out rp ->
  exists p, children_named "PageDef" (node_of t') = [p] /\ made_for (snd rp) p.
Proof.
  intros repr object version s t t' b a out rp HB (out' & f & g & HM & EF & SO & ST & _ & _ & W) N WN ONE PR. pose proof (ONE out' HM) as EO. subst out'. clear ONE.
  assert (W' : written (with_number (shown_node repr object)) g [t']) by (apply (written_numbered _ _ _ _ W b [t'] a); econstructor; [exact N|constructor]).
  destruct (record_placed out f rp EF PR) as (i & PL & PG & IO). destruct (page_kept _ PG _ _ _ ST (so_paragraphs f SO) PL) as (sd & k & r & -> & SD & RK & NR).
  inversion W' as [|? ? ? u ks ts HSU HK HN]; subst. inversion HN; subst. destruct (node_own_n repr object version _ _ HSU) as [O1 _].
  pose proof (shown_filter repr object version "PageDef" _ _ (shown_roots repr object _ _ HK)) as F. rewrite RK in F. cbn [filter] in F. change (filter (model_is "PageDef") r) with (filter is_page r) in F. unfold is_page in PG. rewrite PG, NR in F.
  inversion F as [|? w ? ws SA F' E1 E2]; subst. inversion F'; subst. exists (node_of w). rewrite node_children, with_own, filter_app, (filter_calms own_names "PageDef" (own_kids u)); [|cbn; tauto|exact O1].
  cbn [app]. rewrite <- E2. split; [reflexivity|]. apply well_kids in WN. rewrite with_own in WN. apply Forall_app in WN as [_ WN].
  assert (WW : well_named w). { rewrite Forall_forall in WN. apply WN. assert (IW : In w (filter (xnamed "PageDef") ks)) by (rewrite <- E2; now left). apply filter_In in IW. tauto. }
  destruct SA as (u1 & ks1 & (u0 & b0 & a0 & SN & NU) & ->). destruct rp as [r0 m]. cbn [snd] in *. assert (TM : m_type m = "PageDef") by (unfold model_is in PG; cbn [pass_item i_model] in PG; now apply String.eqb_eq in PG).
  inversion SN as [t0 _ _ E|t0 EL _|attrs EL _ _|listed attrs IM _ _ _]; subst; cbn [pass_item i_model] in *.
  - destruct (In_nth_error _ _ IO) as (j & Hj). destruct (out_ok version (snd s) out Finished Finished HB HM j r0 m Hj) as (HP & parent & HR).
    rewrite (sa_members _ _ (item_seen _ _ _ _ _ i HP HR)) in E by congruence.
    apply (made_of repr object m (m_content m) u0); [clear; induction (m_content m); constructor; assumption|congruence|exact E|]. exists u1, b0, a0, ks1. auto.
  - congruence.
  - congruence.
  - exfalso. rewrite TM in IM. repeat (destruct IM as [IM|IM]; [discriminate|]). contradiction.
Qed.
