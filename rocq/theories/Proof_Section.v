(** The passes of a section one after another. *)
From Coq Require Import ZArith String List Bool Lia.
From Verif Require Import Base Model_Tree Spec_Tree Model_ParaText Spec_ParaText Model_Shape Spec_Shape Model_Lang Model_Classes
  Model_XmlModel Spec_XmlModel Proof_Tree Proof_Shape Proof_XmlModel Proof_XmlInline Proof_XmlFields Proof_XmlTexts Spec_Section.
Import ListNotations.
Open Scope string_scope.
Open Scope list_scope.
Open Scope Z_scope.

(** ** Kinds of elements *)
Ltac by_model x :=
  unfold is_para_data, is_para, is_char, is_lineseg, is_text, is_tablebody, is_tablecell, is_sectiondef, not_columns, is_ctl, is_field, is_listheader, model_is, model_sub in *;
  repeat match goal with
  | H : String.eqb (i_model x) ?s = true |- _ => apply String.eqb_eq in H; rewrite H in *; clear H
  | H : _ || _ = true |- _ => apply orb_true_iff in H; destruct H as [H|H]
  | |- context [String.eqb (i_model x) ?s] => let E := fresh "E" in destruct (String.eqb (i_model x) s) eqn:E
  end; try reflexivity; try discriminate.

Lemma field_ctl : forall x, is_field x = true -> is_ctl x = true.
Proof.
  intros x H. unfold is_field, is_ctl, model_sub in *. apply (class_test "Control" (field_classes ++ other_control_classes)); [apply in_or_app; right; now left|vm_compute; reflexivity|vm_compute; reflexivity|].
  apply in_or_app. left. apply (class_test "Field" field_classes) in H; [exact H|now left|vm_compute; reflexivity|vm_compute; reflexivity].
Qed.
Definition unlike (x : item) : Prop :=
  is_para x = false /\ is_para_data x = false /\ is_char x = false /\ is_lineseg x = false /\ is_text x = false /\ is_tablebody x = false /\ is_tablecell x = false /\ not_columns x = true.
Lemma ctl_unlike : forall x, is_ctl x = true -> unlike x.
Proof. intros x H. unfold unlike. repeat split; by_model x. Qed.
Lemma plain_unlike : forall x, plain_record x = true -> unlike x /\ is_ctl x = false.
Proof.
  intros x H. unfold plain_record in H. apply negb_true_iff in H. repeat (apply orb_false_iff in H; destruct H as [H ?]). unfold unlike, not_columns. repeat split; try assumption. now rewrite H0.
Qed.
Lemma not_ctl_not_field : forall x, is_ctl x = false -> is_field x = false.
Proof. intros x H. destruct (is_field x) eqn:E; [apply field_ctl in E; congruence|reflexivity]. Qed.
Lemma tablebody_is : forall x, model_sub "TableBody" x = is_tablebody x.
Proof.
  intros x. apply eq_true_iff_eq. unfold model_sub, is_tablebody, model_is. rewrite (class_test "TableBody" ["TableBody"]); [|now left|vm_compute; reflexivity|vm_compute; reflexivity].
  rewrite String.eqb_eq. cbn. intuition.
Qed.
Lemma adopt_ext : forall p q c f, (forall x, p x = q x) -> adopt p c f = adopt q c f.
Proof. intros p q c f H. induction f as [|x k IHk n IHn]; [reflexivity|]. cbn [adopt]. rewrite H, IHk, IHn. reflexivity. Qed.
Lemma cell_listheader : forall x, is_tablecell x = true -> is_listheader x = true /\ is_para x = false /\ is_tablebody x = false /\ is_ctl x = false /\ is_text x = false /\ not_columns x = true /\ is_char x = false /\ is_lineseg x = false /\ is_para_data x = false.
Proof. intros x H. repeat split; by_model x. Qed.
Lemma body_unlike : forall x, is_tablebody x = true -> is_listheader x = false /\ is_para x = false /\ is_tablecell x = false /\ is_ctl x = false /\ is_text x = false /\ not_columns x = true /\ is_char x = false /\ is_lineseg x = false /\ is_para_data x = false.
Proof. intros x H. repeat split; by_model x. Qed.
Lemma para_unlike : forall x, is_para x = true -> is_listheader x = false /\ is_tablebody x = false /\ is_tablecell x = false /\ is_ctl x = false /\ is_text x = false /\ not_columns x = true /\ is_char x = false /\ is_lineseg x = false /\ is_para_data x = false.
Proof. intros x H. repeat split; by_model x. Qed.
Lemma text_unlike : forall x, is_text x = true -> is_listheader x = false /\ is_para x = false /\ is_tablebody x = false /\ is_tablecell x = false /\ is_ctl x = false /\ not_columns x = true /\ is_char x = false /\ is_lineseg x = false.
Proof. intros x H. repeat split; by_model x. Qed.
Lemma char_unlike : forall x, is_char x = true -> is_para x = false /\ is_tablebody x = false /\ is_tablecell x = false /\ is_ctl x = false /\ not_columns x = true /\ is_text x = false /\ is_lineseg x = false.
Proof. intros x H. repeat split; by_model x. Qed.
Lemma lineseg_unlike : forall x, is_lineseg x = true -> is_para x = false /\ is_tablebody x = false /\ is_tablecell x = false /\ is_ctl x = false /\ not_columns x = true /\ is_text x = false /\ is_char x = false.
Proof. intros x H. repeat split; by_model x. Qed.
Lemma listheader_not_body : forall x, is_listheader x = true -> is_tablebody x = false /\ is_para x = false.
Proof. intros x H. split; by_model x. Qed.
Lemma sectiondef_ctl : forall x, is_sectiondef x = true -> is_ctl x = true /\ is_field x = false.
Proof. intros x H. split; by_model x. Qed.

(** ** Tables *)
Definition closed_state (st : option (bool * Z)) : Prop := match st with None => True | Some (_, n) => n = 0 end.
(** [strict]: the paragraphs of the cells have been moved away. *)
Fixpoint follow (strict : bool) (st : option (bool * Z)) (l : list item) : Prop :=
  match l with
  | [] => closed_state st
  | x :: r =>
      if is_tablecell x then match st with Some (_, n) => 1 <= n /\ follow strict (Some (true, n - 1)) r | None => False end
      else if is_para x && negb strict && match st with Some (true, _) => true | _ => false end then follow strict st r
      else closed_state st /\ follow strict (if is_tablebody x then Some (false, zsum (rowcols_of x)) else None) r
  end.
Lemma follow_weaken : forall l fl, follow false None l -> follow false (Some (fl, 0)) l.
Proof.
  induction l as [|x r IH]; intros fl H; cbn [follow closed_state] in *; [reflexivity|]. destruct (is_tablecell x) eqn:EC; [contradiction|].
  rewrite andb_false_r in H. destruct H as [_ H]. destruct (is_para x) eqn:EP; cbn [negb andb].
  - destruct fl; [|split; [reflexivity|exact H]]. apply IH. destruct (para_unlike x EP) as (_ & EB & _). now rewrite EB in H.
  - now split.
Qed.
Lemma siblings_follow : forall l, siblings l -> follow false None l.
Proof.
  induction 1 as [|x l HB HC H IH|body cells l HB HF HN H IH]; [exact I| |].
  - cbn [follow closed_state]. rewrite HC, HB, andb_false_r. now split.
  - destruct (body_unlike body HB) as (_ & BP & BC & _). cbn [follow closed_state]. rewrite BC, HB, BP. cbn [andb]. split; [exact I|]. rewrite <- HN.
    assert (HH : forall cs fl, Forall (fun c : item * list item => is_tablecell (fst c) = true /\ Forall (fun y => is_para y = true) (snd c)) cs ->
      follow false (Some (fl, Z.of_nat (List.length cs))) (concat (map (fun c => fst c :: snd c) cs) ++ l)).
    { clear cells HF HN. induction cs as [|[c ps] cs IHc]; intros fl HF; [now apply follow_weaken|]. inversion HF as [|? ? [H1 H2] HF']; subst. cbn [fst snd] in *.
      cbn [map concat fst snd app follow]. rewrite H1. split; [cbn [List.length]; lia|]. replace (Z.of_nat (List.length ((c, ps) :: cs)) - 1) with (Z.of_nat (List.length cs)) by (cbn [List.length]; lia).
      rewrite <- app_assoc. induction H2 as [|y ps HY HP IHp]; [now apply IHc|]. cbn [app follow]. destruct (para_unlike y HY) as (_ & _ & YC & _). rewrite YC, HY. cbn [negb andb].
      apply IHp. constructor; [|assumption]. split; assumption. }
    now apply HH.
Qed.

Fixpoint drop_while {A} (p : A -> bool) (l : list A) : list A := match l with x :: r => if p x then drop_while p r else l | [] => [] end.
Fixpoint take_while {A} (p : A -> bool) (l : list A) : list A := match l with x :: r => if p x then x :: take_while p r else [] | [] => [] end.
Lemma roots_frest : forall (p : item -> bool) f, roots (frest p f) = drop_while p (roots f).
Proof. induction f as [|x k _ n IH]; [reflexivity|]. cbn [frest roots drop_while]. destruct (p x); [exact IH|reflexivity]. Qed.
Lemma roots_frun : forall (p : item -> bool) f, roots (frun p f) = take_while p (roots f).
Proof. induction f as [|x k _ n IH]; [reflexivity|]. cbn [frun roots take_while]. destruct (p x); [cbn [roots]; now rewrite IH|reflexivity]. Qed.
Lemma roots_fapp : forall A (f g : forest A), roots (fapp f g) = roots f ++ roots g.
Proof. intros A f g. induction f as [|x k _ n IH]; [reflexivity|]. cbn [fapp roots app]. now rewrite IH. Qed.
Lemma everywhere_fapp : forall A (P : A -> forest A -> Prop) f g, everywhere P (fapp f g) <-> everywhere P f /\ everywhere P g.
Proof. intros A P f g. induction f as [|x k _ n IH]; cbn [fapp everywhere]; [tauto|]. rewrite IH. tauto. Qed.
Lemma flen_roots : forall A (f : forest A), flen f = List.length (roots f).
Proof. intros A f. induction f as [|x k _ n IH]; [reflexivity|]. cbn. now rewrite IH. Qed.

Lemma follow_drop : forall l, follow true None l -> follow true None (drop_while is_para l).
Proof.
  induction l as [|x r IH]; intros H; [exact I|]. cbn [drop_while]. destruct (is_para x) eqn:EP; [|exact H]. apply IH. cbn [follow] in H. destruct (para_unlike x EP) as (_ & EB & EC & _).
  rewrite EC, EB, andb_false_r in H. apply H.
Qed.
(** After the list header pass, cells are directly behind each other. *)
Lemma follow_adopt : forall f st, follow false st (roots f) ->
  match st with
  | Some (true, _) => follow true st (drop_while is_para (roots (adopt is_listheader is_para f)))
  | _ => follow true st (roots (adopt is_listheader is_para f))
  end.
Proof.
  induction f as [|x k _ n IH]; intros st H; [cbn [roots adopt] in *; destruct st as [[[]]|]; exact H|]. cbn [roots follow] in H. cbn [adopt].
  assert (HR : forall y, roots (if is_listheader x then FCons x (fapp (adopt is_listheader is_para k) (frun is_para (adopt is_listheader is_para n))) (frest is_para (adopt is_listheader is_para n)) else FCons x (adopt is_listheader is_para k) (adopt is_listheader is_para n)) = y ->
    y = x :: (if is_listheader x then drop_while is_para (roots (adopt is_listheader is_para n)) else roots (adopt is_listheader is_para n))).
  { intros y <-. destruct (is_listheader x); cbn [roots]; [now rewrite roots_frest|reflexivity]. }
  rewrite (HR _ eq_refl). clear HR. destruct (is_tablecell x) eqn:EC.
  - destruct (cell_listheader x EC) as (EL & EP & _). rewrite EL. destruct st as [[fl m]|]; [|contradiction]. destruct H as [H1 H2]. apply IH in H2. cbn beta iota in H2.
    cbn [drop_while]. rewrite EP. destruct fl; cbn [follow]; rewrite EC; now split.
  - destruct (is_para x) eqn:EP.
    + destruct (para_unlike x EP) as (EL & EB & _). rewrite EL. cbn [negb andb] in H. rewrite EB in H. destruct st as [[[] m]|]; cbn [drop_while]; rewrite ?EP.
      * apply IH in H. exact H.
      * destruct H as [H1 H2]. apply IH in H2. cbn [follow]. rewrite EC, EB, andb_false_r. now split.
      * destruct H as [H1 H2]. apply IH in H2. cbn [follow]. rewrite EC, EB, andb_false_r. now split.
    + cbn [andb] in H. destruct H as [H1 H2]. apply IH in H2.
      assert (HG : follow true st (x :: (if is_listheader x then drop_while is_para (roots (adopt is_listheader is_para n)) else roots (adopt is_listheader is_para n)))).
      { cbn [follow]. rewrite EC, EP. cbn [andb]. split; [exact H1|]. destruct (is_listheader x) eqn:EL.
        - destruct (listheader_not_body x EL) as [EB _]. rewrite EB in *. now apply follow_drop.
        - destruct (is_tablebody x); exact H2. }
      destruct st as [[[] m]|]; cbn [drop_while]; rewrite ?EP; exact HG.
Qed.
(** After the table body pass the cells are in the bodies. *)
Definition no_cells (l : list item) : Prop := forallb (fun y => negb (is_tablecell y)) l = true.
Lemma follow_cells : forall f st, follow true st (roots f) ->
  match st with
  | None => no_cells (roots (adopt is_tablebody is_tablecell f))
  | Some (_, m) => Z.of_nat (List.length (take_while is_tablecell (roots (adopt is_tablebody is_tablecell f)))) = m /\
      no_cells (drop_while is_tablecell (roots (adopt is_tablebody is_tablecell f)))
  end.
Proof.
  induction f as [|x k _ n IH]; intros st H; [cbn [roots adopt follow closed_state] in *; destruct st as [[? m]|]; [change (m = 0) in H; subst m|]; repeat split|]. cbn [roots follow] in H. cbn [adopt].
  assert (HR : roots (if is_tablebody x then FCons x (fapp (adopt is_tablebody is_tablecell k) (frun is_tablecell (adopt is_tablebody is_tablecell n))) (frest is_tablecell (adopt is_tablebody is_tablecell n)) else FCons x (adopt is_tablebody is_tablecell k) (adopt is_tablebody is_tablecell n)) =
    x :: (if is_tablebody x then drop_while is_tablecell (roots (adopt is_tablebody is_tablecell n)) else roots (adopt is_tablebody is_tablecell n))).
  { destruct (is_tablebody x); cbn [roots]; [now rewrite roots_frest|reflexivity]. }
  rewrite HR. clear HR. destruct (is_tablecell x) eqn:EC.
  - destruct (cell_listheader x EC) as (_ & _ & EB & _). rewrite EB. destruct st as [[fl m]|]; [|contradiction]. destruct H as [H1 H2]. apply IH in H2. cbn beta iota in H2. destruct H2 as [H2 H3].
    cbn [take_while drop_while]. rewrite EC. split; [cbn [List.length]; lia|exact H3].
  - rewrite andb_false_r in H. cbn [andb] in H. destruct H as [H1 H2]. apply IH in H2.
    assert (HG : no_cells (x :: (if is_tablebody x then drop_while is_tablecell (roots (adopt is_tablebody is_tablecell n)) else roots (adopt is_tablebody is_tablecell n)))).
    { unfold no_cells. cbn [forallb]. rewrite EC. cbn [negb andb]. destruct (is_tablebody x); [apply H2|exact H2]. }
    destruct st as [[fl m]|]; cbn [take_while drop_while]; rewrite ?EC; [|exact HG]. split; [|exact HG]. exact (eq_sym H1).
Qed.
Lemma follow_body : forall x k n st, is_tablebody x = true -> follow true st (roots (FCons x k n)) ->
  Z.of_nat (flen (frun is_tablecell (adopt is_tablebody is_tablecell n))) = zsum (rowcols_of x).
Proof.
  intros x k n st HB H. destruct (body_unlike x HB) as (_ & EP & EC & _). cbn [roots follow] in H. rewrite EC, EP, HB in H. cbn [andb] in H. destruct H as [_ H]. apply follow_cells in H.
  rewrite flen_roots, roots_frun. apply H.
Qed.

(** ** From the fields on: only sequences of siblings matter. *)
Definition node_ok (strict : bool) (x : item) (k : forest item) : Prop :=
  follow strict None (roots k) /\ (is_tablebody x = true -> k = FNil /\ rows_declared x) /\ text_node x k /\ column_node x k.
Definition no_paras (l : list item) : Prop := forallb (fun y => negb (is_para y)) l = true.

Lemma forallb_while : forall A (p q : A -> bool) l, forallb p l = true -> forallb p (take_while q l) = true /\ forallb p (drop_while q l) = true.
Proof.
  intros A p q. induction l as [|x l IH]; intros H; [now split|]. cbn [forallb] in H. apply andb_true_iff in H. destruct H as [H1 H2]. destruct (IH H2) as [I1 I2].
  cbn [take_while drop_while]. destruct (q x); [split; [cbn [forallb]; now rewrite H1|exact I2]|]. split; [reflexivity|]. cbn [forallb]. now rewrite H1.
Qed.
Lemma roots_adopt : forall (p : item -> bool) isp isc f, forallb p (roots f) = true -> forallb p (roots (adopt isp isc f)) = true.
Proof.
  intros p isp isc. induction f as [|x k _ n IH]; intros H; [reflexivity|]. cbn [roots forallb] in H. apply andb_true_iff in H. destruct H as [H1 H2]. specialize (IH H2).
  cbn [adopt]. destruct (isp x); cbn [roots forallb]; rewrite H1; [|exact IH]. rewrite roots_frest. now apply forallb_while.
Qed.
Lemma take_while_all : forall A (p : A -> bool) l, forallb p (take_while p l) = true.
Proof. intros A p. induction l as [|x l IH]; [reflexivity|]. cbn [take_while]. destruct (p x) eqn:E; [|reflexivity]. cbn [forallb]. now rewrite E. Qed.
Lemma follow_inert : forall strict l m st, follow strict st l -> forallb (fun y => negb (is_tablecell y) && negb (is_tablebody y)) m = true -> follow strict st (l ++ m).
Proof.
  intros strict. induction l as [|x l IH]; intros m st H HM.
  - revert st H. induction m as [|y m IHm]; intros st H; [exact H|]. cbn [forallb] in HM. apply andb_true_iff in HM. destruct HM as [HY HM]. apply andb_true_iff in HY. destruct HY as [Y1 Y2].
    apply negb_true_iff in Y1, Y2. cbn [app follow]. rewrite Y1, Y2. destruct (_ && _); [apply IHm; assumption|]. split; [exact H|]. apply IHm; [exact HM|exact I].
  - cbn [app follow] in *. destruct (is_tablecell x); [destruct st as [[fl m']|]; [|exact H]; split; [apply H|apply IH; [apply H|exact HM]]|].
    destruct (_ && _); [now apply IH|]. split; [apply H|apply IH; [apply H|exact HM]].
Qed.
Lemma forallb_impl : forall A (p q : A -> bool) l, (forall x, p x = true -> q x = true) -> forallb p l = true -> forallb q l = true.
Proof. intros A p q l H. rewrite !forallb_forall. intros H1 x Hx. apply H. now apply H1. Qed.
Lemma paras_inert : forall l, forallb is_para l = true -> forallb (fun y => negb (is_tablecell y) && negb (is_tablebody y)) l = true.
Proof. intros l. apply forallb_impl. intros x H. destruct (para_unlike x H) as (_ & -> & -> & _). reflexivity. Qed.

Lemma listheaders_ok : forall f, everywhere (node_ok false) f -> everywhere (node_ok true) (adopt is_listheader is_para f).
Proof.
  induction f as [|x k IHk n IHn]; intros H; [exact I|]. destruct H as ((H1 & H2 & H3 & H4) & HK & HN). specialize (IHk HK). specialize (IHn HN).
  pose proof (follow_adopt k None H1) as HF. cbn beta iota in HF. destruct (rest_everywhere is_para _ _ IHn) as [R1 R2].
  cbn [adopt]. destruct (is_listheader x) eqn:EL; cbn [everywhere]; (split; [|split]); try assumption.
  - destruct (listheader_not_body x EL) as [EB EP]. split; [|split; [|split]].
    + rewrite roots_fapp. apply follow_inert; [exact HF|]. apply paras_inert. rewrite roots_frun. apply take_while_all.
    + now rewrite EB.
    + intros ET. destruct (text_unlike x ET) as (E & _). congruence.
    + split; [apply H4|]. now rewrite EP.
  - apply everywhere_fapp. now split.
  - split; [exact HF|]. split; [|split].
    + intros HB. destruct (H2 HB) as [-> HR]. now split.
    + intros HT. destruct (H3 HT) as [-> HR]. now split.
    + split; [apply H4|]. intros HP. destruct H4 as [_ H4]. destruct (H4 HP) as [H5 H6]. split; [exact H5|]. now apply roots_adopt.
Qed.

Definition body_ok (x : item) (k : forest item) : Prop := table_node x k /\ text_node x k /\ column_node x k.
Lemma bodies_ok : forall f st, everywhere (node_ok true) f -> follow true st (roots f) -> everywhere body_ok (adopt is_tablebody is_tablecell f).
Proof.
  induction f as [|x k IHk n IHn]; intros st H HS; [exact I|]. destruct H as ((H1 & H2 & H3 & H4) & HK & HN). specialize (IHk None HK H1).
  assert (HS' : exists st', follow true st' (roots n)).
  { cbn [roots follow] in HS. destruct (is_tablecell x); [destruct st as [[? ?]|]; [|contradiction]; eexists; apply HS|]. rewrite andb_false_r in HS. cbn [andb] in HS. eexists. apply HS. }
  destruct HS' as [st' HS']. specialize (IHn st' HN HS'). pose proof (follow_cells k None H1) as HC. cbn beta iota in HC.
  destruct (rest_everywhere is_tablecell _ _ IHn) as [R1 R2]. cbn [adopt]. destruct (is_tablebody x) eqn:EB; cbn [everywhere]; (split; [|split]); try assumption.
  - destruct (H2 eq_refl) as [-> (l & HL & HG)]. destruct (body_unlike x EB) as (_ & EP & _ & _ & ET & _). split; [|split].
    + unfold table_node. rewrite EB. split; [now exists l|]. split; [unfold rowcols_of; now rewrite HL|]. cbn [adopt fapp]. split; [rewrite roots_frun; apply take_while_all|exact (follow_body x FNil n st EB HS)].
    + intros E. congruence.
    + split; [apply H4|]. now rewrite EP.
  - destruct (H2 eq_refl) as [-> _]. cbn [adopt fapp]. exact R1.
  - split; [|split].
    + unfold table_node. rewrite EB. exact HC.
    + intros HT. destruct (H3 HT) as [-> HR]. now split.
    + split; [apply H4|]. intros HP. destruct H4 as [_ H4]. destruct (H4 HP) as [H5 H6]. split; [exact H5|]. now apply roots_adopt.
Qed.

Definition plain_ok (x : item) (k : forest item) : Prop := text_node x k /\ column_node x k.
Lemma everywhere_take : forall (P : item -> forest item -> Prop) n f, everywhere P f -> everywhere P (ftake n f) /\ everywhere P (fdrop n f).
Proof. intros P. induction n as [|n IH]; intros [|x k r] H; [now split|now split|now split|]. destruct H as (H1 & H2 & H3). destruct (IH r H3) as [I1 I2]. now repeat split. Qed.
Lemma row_ok : forall k, plain_ok a_row k.
Proof. intros k. split; [intros H; discriminate H|]. split; [reflexivity|intros H; discriminate H]. Qed.
Lemma group_rows_ok : forall l f, everywhere plain_ok f -> everywhere plain_ok (group_rows l f).
Proof.
  induction l as [|c l IH]; intros f H; [exact I|]. destruct (everywhere_take plain_ok (Z.to_nat c) f H) as [H1 H2]. cbn [group_rows everywhere]. split; [apply row_ok|]. split; [exact H1|now apply IH].
Qed.
Lemma no_paras_rows : forall f, no_paras (roots f) -> no_paras (roots (with_rows f)).
Proof.
  induction f as [|x k _ n IH]; intros H; [reflexivity|]. unfold no_paras in *. cbn [roots forallb] in H. apply andb_true_iff in H. destruct H as [H1 H2]. specialize (IH H2).
  cbn [with_rows]. destruct (is_tablebody x); cbn [roots forallb]; [change (is_para (del_item "rowcols" x)) with (is_para x)|]; now rewrite H1.
Qed.
Lemma rows_ok : forall f, everywhere body_ok f -> everywhere plain_ok (with_rows f).
Proof.
  induction f as [|x k IHk n IHn]; intros H; [exact I|]. destruct H as ((H1 & H2 & H3) & HK & HN). specialize (IHk HK). specialize (IHn HN). cbn [with_rows].
  destruct (is_tablebody x) eqn:EB; cbn [everywhere]; (split; [|split]); try assumption.
  - destruct (body_unlike x EB) as (_ & EP & _ & _ & ET & _). split; [intros E; change (is_text x = true) in E; congruence|]. split; [apply H3|]. intros E. change (is_para x = true) in E. congruence.
  - now apply group_rows_ok.
  - split; [intros HT; destruct (H2 HT) as [-> HR]; now split|]. split; [apply H3|]. intros HP. destruct H3 as [_ H3]. destruct (H3 HP) as [H5 H6]. split; [exact H5|]. now apply no_paras_rows.
Qed.

Lemma tokens_columns : forall shape toks, everywhere column_node (token_forest shape toks) /\ no_paras (roots (token_forest shape toks)).
Proof.
  intros shape. induction toks as [|t toks [IH1 IH2]]; [now split|]. cbn [token_forest fold_right everywhere]. split; [|exact IH2]. split; [|split; [exact I|exact IH1]].
  split; [reflexivity|intros H; discriminate H].
Qed.
Lemma text_tokens_columns : forall x, everywhere column_node (text_tokens x) /\ no_paras (roots (text_tokens x)).
Proof. intros x. unfold text_tokens. destruct (attr_get _ _); [|now split]. destruct (attr_get _ _) as [[]|]; try (now split). apply tokens_columns. Qed.
Lemma no_paras_tokenized : forall f, no_paras (roots f) -> no_paras (roots (tokenized f)).
Proof.
  induction f as [|x k _ n IH]; intros H; [reflexivity|]. unfold no_paras in *. cbn [roots forallb] in H. apply andb_true_iff in H. destruct H as [H1 H2]. specialize (IH H2).
  cbn [tokenized]. destruct (is_text x); [|cbn [roots forallb]; now rewrite H1]. rewrite roots_fapp, forallb_app, IH, andb_true_r. apply text_tokens_columns.
Qed.
Lemma tokenized_ok : forall f, everywhere plain_ok f -> everywhere column_node (tokenized f).
Proof.
  induction f as [|x k IHk n IHn]; intros H; [exact I|]. destruct H as ((H1 & H2) & HK & HN). specialize (IHk HK). specialize (IHn HN). cbn [tokenized].
  destruct (is_text x); [apply everywhere_fapp; split; [apply text_tokens_columns|exact IHn]|]. split; [|now split]. split; [apply H2|]. intros HP. destruct H2 as [_ H2].
  destruct (H2 HP) as [H5 H6]. split; [exact H5|]. now apply no_paras_tokenized.
Qed.
Lemma extract_ok : forall f s sk f', everywhere column_node f -> extract_section f = Some (s, sk, f') ->
  is_sectiondef s = true /\ everywhere column_node sk /\ everywhere column_node f' /\ (no_paras (roots f) -> no_paras (roots f')).
Proof.
  induction f as [|x k IHk n IHn]; intros s sk f' H HE; [discriminate HE|]. destruct H as (H1 & H2 & H3). cbn [extract_section] in HE. destruct (is_sectiondef x) eqn:ES.
  - injection HE as <- <- <-. repeat split; try assumption. unfold no_paras. cbn [roots forallb]. intros H. apply andb_true_iff in H. apply H.
  - destruct (extract_section k) as [[[s1 sk1] k']|].
    + injection HE as <- <- <-. destruct (IHk _ _ _ H2 eq_refl) as (I1 & I2 & I3 & I4). split; [exact I1|]. split; [exact I2|]. split; [|exact (fun H => H)]. split; [|now split].
      split; [apply H1|]. intros HP. destruct H1 as [_ H1]. destruct (H1 HP) as [H5 H6]. split; [exact H5|now apply I4].
    + destruct (extract_section n) as [[[s1 sk1] n']|]; [|discriminate HE]. injection HE as <- <- <-. destruct (IHn _ _ _ H3 eq_refl) as (I1 & I2 & I3 & I4). split; [exact I1|]. split; [exact I2|].
      split; [now repeat split; try apply H1|]. unfold no_paras. cbn [roots forallb]. intros H. apply andb_true_iff in H. destruct H as [HA HB]. rewrite HA. now apply I4.
Qed.

(** ** The section definition stays. *)
Definition defined (f : forest item) : Prop := exists s, In s (starts (walk f)) /\ is_sectiondef s = true.
Lemma starts_cons : forall A (x : A) k n, starts (walk (FCons x k n)) = x :: starts (walk k) ++ starts (walk n).
Proof. intros. apply starts_walk_cons. Qed.
Lemma starts_fapp : forall A (f g : forest A), starts (walk (fapp f g)) = starts (walk f) ++ starts (walk g).
Proof. intros A f g. induction f as [|x k _ n IH]; [reflexivity|]. cbn [fapp]. rewrite !starts_cons, IH. cbn [app]. now rewrite app_assoc. Qed.
Lemma defined_cons : forall x k n, defined (FCons x k n) <-> is_sectiondef x = true \/ defined k \/ defined n.
Proof.
  intros x k n. unfold defined. rewrite starts_cons. split.
  - intros (s & [<-|H] & HS); [now left|]. apply in_app_or in H. destruct H as [H|H]; right; [left|right]; now exists s.
  - intros [H|[(s & H & HS)|(s & H & HS)]]; [exists x|exists s|exists s]; (split; [|assumption]); [now left| |]; right; apply in_or_app; [now left|now right].
Qed.
Lemma defined_fapp : forall f g, defined (fapp f g) <-> defined f \/ defined g.
Proof.
  intros f g. unfold defined. rewrite starts_fapp. split.
  - intros (s & H & HS). apply in_app_or in H. destruct H as [H|H]; [left|right]; now exists s.
  - intros [(s & H & HS)|(s & H & HS)]; exists s; (split; [|assumption]); apply in_or_app; [now left|now right].
Qed.
Lemma defined_nil : ~ defined FNil.
Proof. intros (s & [] & _). Qed.
Lemma defined_adopt : forall isp isc f, defined (adopt isp isc f) <-> defined f.
Proof. intros. unfold defined. now rewrite adopt_order. Qed.
Lemma ftake_fdrop_defined : forall n f, defined f -> defined (ftake n f) \/ defined (fdrop n f).
Proof.
  induction n as [|n IH]; intros [|x k r] H; try (right; exact H); try (now left). cbn [ftake fdrop]. rewrite defined_cons in *. destruct H as [H|[H|H]]; [left; now left|left; right; now left|].
  destruct (IH _ H) as [H'|H']; [left; right; now right|now right].
Qed.
Lemma group_rows_defined : forall l f, Forall (fun c => 1 <= c) l -> Z.of_nat (flen f) = zsum l -> defined f -> defined (group_rows l f).
Proof.
  induction l as [|c l IH]; intros f HF HN H.
  - destruct f; [exact H|cbn in HN; lia].
  - cbn [group_rows]. rewrite defined_cons. inversion HF; subst. destruct (ftake_fdrop_defined (Z.to_nat c) f H) as [H'|H']; [right; now left|]. right; right. apply IH; [assumption| |exact H'].
    rewrite flen_fdrop. assert (HZ : 0 <= zsum l) by (clear - H3; induction H3; cbn; [lia|unfold zsum in *; cbn in *; lia]). cbn [zsum fold_right] in HN. fold (zsum l) in HN. lia.
Qed.
Lemma rows_defined : forall f, everywhere table_node f -> defined f -> defined (with_rows f).
Proof.
  induction f as [|x k IHk n IHn]; intros HE H; [exact H|]. destruct HE as (H1 & H2 & H3). cbn [with_rows]. rewrite defined_cons in H. destruct (is_tablebody x) eqn:EB; rewrite defined_cons.
  - unfold table_node in H1. rewrite EB in H1. destruct H1 as (_ & HF & _ & HN). destruct H as [H|[H|H]]; [|right; left|right; right; now apply IHn].
    + left. exact H.
    + apply group_rows_defined; [exact HF|now rewrite flen_with_rows|now apply IHk].
  - destruct H as [H|[H|H]]; [now left|right; left; now apply IHk|right; right; now apply IHn].
Qed.
Lemma tokenized_defined : forall f, everywhere plain_ok f -> defined f -> defined (tokenized f).
Proof.
  induction f as [|x k IHk n IHn]; intros HE H; [exact H|]. destruct HE as ((H1 & _) & H2 & H3). cbn [tokenized]. rewrite defined_cons in H. destruct (is_text x) eqn:ET.
  - apply defined_fapp. right. destruct H as [H|[H|H]]; [|destruct (H1 ET) as [-> _]; now apply defined_nil in H|now apply IHn].
    apply sectiondef_ctl in H. destruct (text_unlike x ET) as (_ & _ & _ & _ & E & _). destruct H. congruence.
  - rewrite defined_cons. destruct H as [H|[H|H]]; [now left|right; left; now apply IHk|right; right; now apply IHn].
Qed.
Lemma defined_extracts : forall f, defined f -> exists s sk f', extract_section f = Some (s, sk, f').
Proof.
  intros f (s & H & HS). destruct (extract_section f) as [[[s' sk] f']|] eqn:E; [now exists s', sk, f'|]. apply extract_none in E. exfalso. unfold no_sectiondef in E. rewrite Forall_forall in E.
  assert (HI : forall evs, In s (starts evs) -> In (EStart s) evs).
  { induction evs as [|[y|y] evs IH]; cbn [starts]; [intros []|intros [->|HI]; [now left|right; now apply IH]|intros HI; right; now apply IH]. }
  specialize (E (EStart s) (HI _ H)). cbn in E. congruence.
Qed.

(** ** All passes from the list headers on *)
Lemma later_passes : forall sid f3, everywhere (node_ok false) f3 -> forallb is_para (roots f3) = true -> defined f3 ->
  exists s sk rest, extract_section (tokenized (with_rows (adopt is_tablebody is_tablecell (adopt is_listheader is_para f3)))) = Some (s, sk, rest) /\
  wrap_columns (wrap_section sid (tokenize_text_by_lang (restructure_tablebody (make_cells_children_of_tablebody (make_paragraphs_children_of_listheader (walk f3, Finished)))))) =
    (walk (in_columns (FCons (with_section_id sid s) (fapp sk rest) FNil)), Finished).
Proof.
  intros sid f3 H3 HP HD. set (f4 := adopt is_listheader is_para f3). set (f5 := adopt is_tablebody is_tablecell f4).
  rewrite (listheader_pass f3) by (revert HP; apply forallb_impl; intros x Hx; destruct (para_unlike x Hx) as (E & _); now rewrite E). fold f4.
  assert (HP4 : forallb is_para (roots f4) = true) by now apply roots_adopt.
  assert (H4 : everywhere (node_ok true) f4) by now apply listheaders_ok.
  rewrite (tablebody_pass f4) by (revert HP4; apply forallb_impl; intros x Hx; rewrite tablebody_is; destruct (para_unlike x Hx) as (_ & E & _); now rewrite E).
  rewrite (adopt_ext _ is_tablebody) by apply tablebody_is. fold f5.
  assert (HF : follow true None (roots f4)).
  { rewrite <- (app_nil_l (roots f4)). apply follow_inert; [exact I|]. now apply paras_inert. }
  assert (H5 : everywhere body_ok f5) by (now apply bodies_ok with (st := None)).
  assert (HT : everywhere table_node f5) by (revert H5; clear; induction f5 as [|x k IHk n IHn]; [trivial|]; intros (H & HK & HN); split; [apply H|]; split; [now apply IHk|now apply IHn]).
  rewrite (rows_pass f5); [|split; [exact (follow_cells f4 None HF)|exact HT]].
  assert (H6 : everywhere plain_ok (with_rows f5)) by now apply rows_ok.
  rewrite (tokens_pass (with_rows f5)); [|revert H6; clear; generalize (with_rows f5); intros f; induction f as [|x k IHk n IHn]; [trivial|]; intros (H & HK & HN); split; [apply H|]; split; [now apply IHk|now apply IHn]].
  assert (HD6 : defined (tokenized (with_rows f5))).
  { apply tokenized_defined; [exact H6|]. apply rows_defined; [exact HT|]. unfold f5, f4. now rewrite !defined_adopt. }
  destruct (defined_extracts _ HD6) as (s & sk & rest & HE). exists s, sk, rest. split; [exact HE|]. rewrite (section_pass sid _ _ _ _ HE).
  destruct (extract_ok _ _ _ _ (tokenized_ok _ H6) HE) as (E1 & E2 & E3 & _). apply columns_pass.
  - assert (HM : is_para (with_section_id sid s) = false /\ not_columns (with_section_id sid s) = true).
    { destruct (ctl_unlike s) as (U1 & _ & _ & _ & _ & _ & _ & U2); [now apply sectiondef_ctl|]. destruct sid; split; assumption. }
    destruct HM as [M1 M2]. split; [|split; [apply everywhere_fapp; now split|exact I]]. split; [exact M2|]. rewrite M1. discriminate.
  - cbn [roots forallb]. unfold newcol. destruct (ctl_unlike s) as (U1 & _); [now apply sectiondef_ctl|].
    replace (is_para (with_section_id sid s)) with (is_para s) by (destruct sid; reflexivity). now rewrite U1.
Qed.

(** ** After the controls are in place *)
Inductive place := Inside | Paragraph_ | Line.
Definition leaf_ok (x : item) : Prop :=
  (is_text x = true /\ exists shape t, attr_get "charshape_id" (i_attrs x) = Some shape /\ attr_get "text" (i_attrs x) = Some (VText t)) \/
  (is_char x = true /\ extended x = false /\ exists a, attr_get "name" (i_attrs x) = Some a).
Definition has_split (x : item) : Prop := exists s, split_number x = Some s.
Fixpoint marks (m : place) (f : forest item) : list bool :=
  match f with
  | FNil => []
  | FCons x k n =>
      match m with
      | Inside => if is_para x then marks Paragraph_ k else marks Inside k
      | Paragraph_ => if is_lineseg x then marks Line k else []
      | Line => if is_field x then [true] else if field_end_char x then [false] else []
      end ++ marks m n
  end.
Fixpoint placed (m : place) (f : forest item) : Prop :=
  match f with
  | FNil => True
  | FCons x k n =>
      match m with
      | Inside =>
          if is_para x then has_split x /\ placed Paragraph_ k
          else if is_tablebody x then k = FNil /\ rows_declared x
          else (plain_record x = true \/ is_tablecell x = true) /\ placed Inside k /\ follow false None (roots k)
      | Paragraph_ =>
          if is_lineseg x then placed Line k
          else plain_record x = true /\ placed Inside k /\ follow false None (roots k) /\ balanced 0 (marks Inside k)
      | Line =>
          if is_ctl x then placed Inside k /\ follow false None (roots k) /\ balanced 0 (marks Inside k)
          else leaf_ok x /\ k = FNil
      end /\ placed m n
  end.

(** Marks open and close fields. *)
Fixpoint runs (l : list bool) (st st' : list item) : Prop :=
  match l with
  | [] => st' = st
  | true :: r => exists x, runs r (x :: st) st'
  | false :: r => runs r (tl st) st'
  end.
Lemma runs_app : forall a b s t u, runs a s t -> runs b t u -> runs (a ++ b) s u.
Proof.
  induction a as [|[] a IH]; intros b s t u H1 H2; cbn [app runs] in *; [now subst|destruct H1 as [x H1]; exists x; eapply IH; eassumption|eapply IH; eassumption].
Qed.
Lemma runs_balanced : forall l p s t, balanced (List.length p) l -> runs l (p ++ s) t -> t = s.
Proof.
  induction l as [|[] l IH]; intros p s t HB HR; cbn [balanced runs] in *.
  - destruct p; [exact HR|discriminate HB].
  - destruct HR as [x HR]. now apply (IH (x :: p) s t).
  - destruct p as [|y p]; [contradiction|]. now apply (IH p s t).
Qed.

Definition kids_ok (f : forest item) : Prop := everywhere (node_ok false) f /\ follow false None (roots f).
Definition line_ok (z : line_state) : Prop :=
  kids_ok (fst z) /\ Forall (fun fr => is_field (fst fr) = true /\ kids_ok (snd fr)) (snd z).
Lemma kids_after : forall f x k, kids_ok f -> node_ok false x k -> everywhere (node_ok false) k -> is_tablebody x = false -> is_tablecell x = false -> kids_ok (leaf_after f x k).
Proof.
  intros f x k [F1 F2] H1 H2 HB HC. unfold leaf_after. split; [apply everywhere_fapp; split; [exact F1|split; [exact H1|split; [exact H2|exact I]]]|]. rewrite roots_fapp. apply follow_inert; [exact F2|].
  cbn [roots forallb]. now rewrite HB, HC.
Qed.
Lemma ctl_node : forall x k, is_ctl x = true -> kids_ok k -> node_ok false x k.
Proof.
  intros x k H [K1 K2]. destruct (ctl_unlike x H) as (U1 & _ & _ & _ & U2 & U3 & U4 & U5). split; [exact K2|]. split; [now rewrite U3|]. split; [intros E; congruence|]. split; [exact U5|]. now rewrite U1.
Qed.
Lemma line_put_field : forall outer x cur, is_field x = true -> kids_ok outer -> kids_ok cur -> kids_ok (leaf_after outer x cur).
Proof.
  intros outer x cur H HO HC. pose proof (field_ctl x H) as HX. destruct (ctl_unlike x HX) as (_ & _ & _ & _ & _ & U3 & U4 & _). apply kids_after; try assumption; [now apply ctl_node|apply HC].
Qed.
Lemma finish_ok : forall fr cur, kids_ok cur -> Forall (fun fr => is_field (fst fr) = true /\ kids_ok (snd fr)) fr -> kids_ok (finish_line cur fr).
Proof.
  induction fr as [|[x outer] fr IH]; intros cur HC HF; [exact HC|]. inversion HF as [|? ? [H1 H2] HF']; subst. cbn [finish_line]. apply IH; [|exact HF']. now apply line_put_field.
Qed.
Definition fields (st : list item) : Prop := Forall (fun x => is_field x = true) st.
Lemma reopen_ok : forall st, fields st -> line_ok (reopen st) /\ open_fields (reopen st) = st.
Proof.
  intros st H. split; [|apply zwalk_reopen]. split; [split; exact I|]. unfold reopen. cbn [snd]. induction H; constructor; [|assumption]. split; [assumption|split; exact I].
Qed.
Lemma line_ok_fields : forall z, line_ok z -> fields (open_fields z).
Proof. intros z [_ H]. unfold fields, open_fields. induction H; constructor; [apply H|assumption]. Qed.

Lemma end_not_char : forall x, is_char x = false -> field_end_char x = false.
Proof. intros x H. unfold field_end_char. now rewrite H. Qed.
Lemma paragraph_roots : forall f, placed Paragraph_ f -> no_paras (roots f) /\ forallb (fun y => negb (is_tablecell y) && negb (is_tablebody y)) (roots f) = true.
Proof.
  unfold no_paras. induction f as [|x k _ n IH]; intros H; [now split|]. cbn [placed] in H. destruct H as [H HN]. destruct (IH HN) as [I1 I2]. cbn [roots forallb]. rewrite I1, I2, !andb_true_r.
  destruct (is_lineseg x) eqn:EL.
  - destruct (lineseg_unlike x EL) as (-> & -> & -> & _). now split.
  - destruct H as [H _]. apply plain_unlike in H. destruct H as [(-> & _ & _ & _ & _ & -> & -> & _) _]. now split.
Qed.

Definition inside_fine (f : forest item) : Prop := forall st, fields st ->
  fields_ok st None f /\ everywhere (node_ok false) (fst (regroup st None f)) /\ roots (fst (regroup st None f)) = roots f /\
  runs (marks Inside f) st (snd (regroup st None f)) /\ fields (snd (regroup st None f)).
Definition paragraph_fine (f : forest item) : Prop := forall st, fields st ->
  fields_ok st None f /\ everywhere (node_ok false) (fst (regroup st None f)) /\ roots (fst (regroup st None f)) = roots f /\
  runs (marks Paragraph_ f) st (snd (regroup st None f)) /\ fields (snd (regroup st None f)).
Definition line_fine (f : forest item) : Prop := forall z st, line_ok z ->
  fields_ok st (Some z) f /\ kids_ok (fst (regroup st (Some z) f)) /\
  runs (marks Line f) (open_fields z) (snd (regroup st (Some z) f)) /\ fields (snd (regroup st (Some z) f)).

(** What is inside an element and balanced. *)
Lemma inside_balanced : forall k st, inside_fine k -> follow false None (roots k) -> balanced 0 (marks Inside k) -> fields st ->
  fields_ok st None k /\ snd (regroup st None k) = st /\ kids_ok (fst (regroup st None k)).
Proof.
  intros k st H HF HB HS. destruct (H st HS) as (H1 & H2 & H3 & H4 & _). split; [exact H1|]. split; [exact (runs_balanced _ [] st _ HB H4)|]. split; [exact H2|now rewrite H3].
Qed.
Lemma regroup_none : forall st x k n, is_lineseg x = false ->
  regroup st None (FCons x k n) = (FCons x (fst (regroup st None k)) (fst (regroup (snd (regroup st None k)) None n)), snd (regroup (snd (regroup st None k)) None n)).
Proof. intros st x k n H. cbn [regroup]. now rewrite H. Qed.

Lemma fields_fine : forall f, (placed Inside f -> inside_fine f) /\ (placed Paragraph_ f -> paragraph_fine f) /\ (placed Line f -> line_fine f).
Proof.
  induction f as [|x k (Ki & Kp & Kl) n (Ni & Np & Nl)].
  - split; [|split].
    + intros _ st HS. cbn. auto.
    + intros _ st HS. cbn. auto.
    + intros _ z st HZ. cbn [fields_ok regroup marks runs]. split; [exact I|]. split; [apply finish_ok; apply HZ|]. split; [reflexivity|now apply line_ok_fields].
  - split; [|split]; cbn [placed]; intros [HX HN].
    + (* inside *)
      specialize (Ni HN). intros st HS.
      assert (HU : is_lineseg x = false /\ is_char x = false /\ is_field x = false /\ is_text x = false /\ not_columns x = true).
      { destruct (is_para x) eqn:EP; [destruct (para_unlike x EP) as (_ & _ & _ & A & B & C & D & E & _); repeat split; auto; now apply not_ctl_not_field|].
        destruct (is_tablebody x) eqn:EB; [destruct (body_unlike x EB) as (_ & _ & _ & A & B & C & D & E & _); repeat split; auto; now apply not_ctl_not_field|].
        destruct HX as [[HX|HX] _]; [apply plain_unlike in HX; destruct HX as [(_ & _ & A & B & C & _ & _ & D) E]|destruct (cell_listheader x HX) as (_ & _ & _ & E & C & D & A & B & _)]; repeat split; auto; now apply not_ctl_not_field. }
      destruct HU as (UL & UC & UF & UT & UN).
      assert (HK : exists l, (fields_ok st None k /\ everywhere (node_ok false) (fst (regroup st None k)) /\ roots (fst (regroup st None k)) = roots k /\
          runs l st (snd (regroup st None k)) /\ fields (snd (regroup st None k))) /\
          l = (if is_para x then marks Paragraph_ k else marks Inside k) /\ node_ok false x (fst (regroup st None k))).
      { destruct (is_para x) eqn:EP.
        - destruct HX as [HS' HX]. exists (marks Paragraph_ k). pose proof (Kp HX st HS) as HH. split; [exact HH|]. split; [reflexivity|]. destruct HH as (_ & _ & HR & _). destruct (paragraph_roots k HX) as [P1 P2].
          split; [rewrite HR, <- (app_nil_l (roots k)); apply follow_inert; [exact I|exact P2]|]. split; [destruct (para_unlike x EP) as (_ & E & _); now rewrite E|]. split; [intros E; congruence|].
          split; [exact UN|]. intros _. split; [exact HS'|now rewrite HR].
        - destruct (is_tablebody x) eqn:EB.
          + destruct HX as [-> HR]. exists []. split; [cbn; auto|]. split; [reflexivity|]. split; [exact I|]. split; [intros _; now split|]. split; [intros E; congruence|]. split; [exact UN|now rewrite EP].
          + destruct HX as (_ & HX & HF). exists (marks Inside k). pose proof (Ki HX st HS) as HH. split; [exact HH|]. split; [reflexivity|]. destruct HH as (_ & _ & HR & _).
            split; [now rewrite HR|]. split; [now rewrite EB|]. split; [intros E; congruence|]. split; [exact UN|now rewrite EP]. }
      destruct HK as (l & (K1 & K2 & K3 & K4 & K5) & HL & KN). destruct (Ni _ K5) as (N1 & N2 & N3 & N4 & N5). rewrite (regroup_none st x k n UL).
      split; [|split; [|split; [|split]]]; cbn [fst snd].
      * cbn [fields_ok]. rewrite UL. split; [now rewrite UC|]. split; [exact UF|]. split; [now apply end_not_char|]. now split.
      * cbn [everywhere]. auto.
      * cbn [roots]. now rewrite N3.
      * cbn [marks]. apply runs_app with (t := snd (regroup st None k)); [subst l; destruct (is_para x); exact K4|exact N4].
      * exact N5.
    + (* paragraph *)
      specialize (Np HN). intros st HS. destruct (is_lineseg x) eqn:EL.
      * destruct (lineseg_unlike x EL) as (UP & UB & _ & UC & UN & UT & UH). destruct (reopen_ok st HS) as [R1 R2]. destruct (Kl HX (reopen st) st R1) as (K1 & K2 & K3 & K4). rewrite R2 in K3.
        destruct (Np _ K4) as (N1 & N2 & N3 & N4 & N5). cbn [fields_ok regroup marks]. rewrite EL. cbn [fst snd everywhere roots].
        split; [split; [now rewrite UH|]; split; [now apply not_ctl_not_field|]; split; [now apply end_not_char|]; now split|].
        split; [split; [|split; [apply K2|exact N2]]|].
        { split; [apply K2|]. split; [now rewrite UB|]. split; [intros E; congruence|]. split; [exact UN|now rewrite UP]. }
        split; [now rewrite N3|]. split; [now apply runs_app with (t := snd (regroup st (Some (reopen st)) k))|exact N5].
      * destruct HX as (HP & HX & HF & HB). apply plain_unlike in HP. destruct HP as [(UP & _ & UH & _ & UT & UB & _ & UN) UC].
        destruct (inside_balanced k st (Ki HX) HF HB HS) as (K1 & K2 & K3 & K4). rewrite (regroup_none st x k n EL). rewrite K2. destruct (Np st HS) as (N1 & N2 & N3 & N4 & N5).
        cbn [fields_ok marks fst snd everywhere roots]. rewrite EL. rewrite K2.
        split; [split; [now rewrite UH|]; split; [now apply not_ctl_not_field|]; split; [now apply end_not_char|]; now split|].
        split; [split; [|split; [exact K3|exact N2]]|].
        { split; [exact K4|]. split; [now rewrite UB|]. split; [intros E; congruence|]. split; [exact UN|now rewrite UP]. }
        split; [now rewrite N3|]. split; [exact N4|exact N5].
    + (* line *)
      specialize (Nl HN). intros z st HZ. pose proof (line_ok_fields z HZ) as HO. destruct (is_ctl x) eqn:EC.
      * destruct HX as (HX & HF & HB). destruct (ctl_unlike x EC) as (UP & _ & UH & UL & UT & UB & UE & UN). cbn [fields_ok regroup marks]. rewrite UL.
        destruct (is_field x) eqn:EF.
        -- assert (HS1 : fields (x :: open_fields z)) by (constructor; assumption). destruct (inside_balanced k _ (Ki HX) HF HB HS1) as (K1 & K2 & K3).
           assert (HZ' : line_ok (open_field x (fst (regroup (x :: open_fields z) None k)) z)).
           { split; [exact K3|]. cbn [open_field snd]. constructor; [split; [exact EF|apply HZ]|apply HZ]. }
           destruct (Nl _ st HZ') as (N1 & N2 & N3 & N4). split; [split; [now rewrite UH|]; split; [now split|exact N1]|]. split; [exact N2|]. split; [|exact N4].
           cbn [app runs]. exists x. exact N3.
        -- rewrite (end_not_char x UH). destruct (inside_balanced k _ (Ki HX) HF HB HO) as (K1 & K2 & K3).
           assert (HZ' : line_ok (put x (fst (regroup (open_fields z) None k)) z)).
           { split; [|apply HZ]. cbn [put fst]. apply kids_after; try assumption; [apply HZ|now apply ctl_node|apply K3]. }
           destruct (Nl _ st HZ') as (N1 & N2 & N3 & N4). split; [split; [now rewrite UH|]; split; [now split|exact N1]|]. split; [exact N2|]. split; [exact N3|exact N4].
      * destruct HX as [HX ->]. pose proof (not_ctl_not_field x EC) as EF. cbn [fields_ok regroup marks]. rewrite EF.
        assert (HU : is_para x = false /\ is_tablebody x = false /\ is_tablecell x = false /\ not_columns x = true /\ is_lineseg x = false).
        { destruct HX as [[HX _]|[HX _]]; [destruct (text_unlike x HX) as (_ & A & B & C & _ & D & _ & E)|destruct (char_unlike x HX) as (A & B & C & _ & D & _ & E)]; auto. }
        destruct HU as (UP & UB & UE & UN & UL). rewrite UL.
        assert (HC : is_char x = true -> exists a, attr_get "name" (i_attrs x) = Some a).
        { destruct HX as [[HX _]|[HX [_ HA]]]; [|intros _; exact HA]. destruct (text_unlike x HX) as (_ & _ & _ & _ & _ & _ & E & _). congruence. }
        destruct (field_end_char x) eqn:EE.
        -- assert (HZ' : line_ok (close_field z) /\ open_fields (close_field z) = tl (open_fields z)).
           { destruct HZ as [Z1 Z2]. unfold close_field, open_fields. destruct (snd z) as [|[y outer] fr] eqn:E; [split; [split; [exact Z1|rewrite E; constructor]|now rewrite E]|].
             inversion Z2 as [|? ? [Y1 Y2] Z3]; subst. split; [|reflexivity]. split; [|exact Z3]. now apply line_put_field. }
           destruct HZ' as [HZ' HT]. destruct (Nl _ st HZ') as (N1 & N2 & N3 & N4). split; [split; [exact HC|]; now split|]. split; [exact N2|]. split; [|exact N4]. cbn [app runs]. now rewrite <- HT.
        -- assert (HZ' : line_ok (put x FNil z)).
           { split; [|apply HZ]. cbn [put fst]. apply kids_after; try assumption; [apply HZ| |exact I]. split; [exact I|]. split; [now rewrite UB|]. split; [|split; [exact UN|now rewrite UP]].
             intros ET. split; [reflexivity|]. destruct HX as [[_ HX]|[HX _]]; [exact HX|]. destruct (text_unlike x ET) as (_ & _ & _ & _ & _ & _ & E & _). congruence. }
           destruct (Nl _ st HZ') as (N1 & N2 & N3 & N4). cbn [regroup fields_ok fst snd]. split; [split; [exact HC|]; split; [now split|exact N1]|]. split; [exact N2|]. split; [exact N3|exact N4].
Qed.

(** ** The lines of a paragraph have its control characters. *)
Definition codes_of {B} (l : list (B * chunk)) : list Z := concat (map (fun c => map chunk_control_code (ctl_of (snd c))) l).
Lemma codes_app : forall B (a b : list (B * chunk)), codes_of (a ++ b) = codes_of a ++ codes_of b.
Proof. intros. unfold codes_of. now rewrite map_app, concat_app. Qed.
Lemma split_codes : forall S A (d : S) shapes (chunks : list ((Z * Z) * A * chunk)) out,
  split_spec d shapes chunks Finished = (out, Finished) -> codes_of out = codes_of chunks.
Proof.
  intros S A d shapes. induction chunks as [|[[[s e] a] c] chunks IH]; intros out H; cbn [split_spec] in H; [now injection H as <-|].
  destruct (cut_at (map fst shapes) s e c) as [ps|] eqn:EC; [|discriminate H]. destruct (split_spec d shapes chunks Finished) as [out' o'] eqn:ES. unfold gapp in H. cbn [fst snd] in H. injection H as <- ->.
  specialize (IH out' eq_refl). unfold piece. rewrite codes_app, IH. unfold codes_of at 3. cbn [map concat snd]. fold (codes_of chunks). f_equal. apply cut_ctl in EC. rewrite <- EC. clear.
  unfold codes_of. rewrite map_map. cbn [snd]. induction ps as [|p ps IH]; [reflexivity|]. cbn [map concat]. now rewrite map_app, IH.
Qed.
Lemma flatten_codes : forall S A (gs : list (S * list ((Z * Z) * A * chunk))), codes_of (flatten gs) = concat (map (fun g => codes_of (snd g)) gs).
Proof.
  intros S A. induction gs as [|[s l] gs IH]; [reflexivity|]. rewrite flatten_cons. unfold piece. rewrite codes_app, IH. cbn [map concat snd fst]. f_equal. unfold codes_of. now rewrite map_map.
Qed.
Lemma lines_of_para : forall l lf, para_lines l lf -> exists chunks gs, para_chunks l chunks /\ lf = line_trees gs /\
  concat (map (fun g => codes_of (snd g)) gs) = control_codes chunks /\ Forall (fun g => Forall (fun c => known_control (snd c)) (snd g)) gs.
Proof.
  intros l lf (chunks & shape0 & shapes & line0 & lines & gs & HL & HG & ->). exists chunks, gs. destruct HL as [HC HS HSG _ _ [HF1 HF2] HK]. split; [exact HC|]. split; [reflexivity|].
  pose proof (spec_outcome_fits (snd shape0) (shape0 :: shapes) (plain_chunks chunks) HF1) as EO1.
  destruct (split_spec (snd shape0) (shape0 :: shapes) (plain_chunks chunks) Finished) as [out1 o1] eqn:E1. cbn [snd fst] in *. subst o1.
  pose proof (pieces_control_fits _ _ _ _ _ E1 HF2) as HF2'.
  pose proof (spec_outcome_fits (snd line0) (line0 :: lines) out1 HF2') as EO2.
  destruct (split_spec (snd line0) (line0 :: lines) out1 Finished) as [out2 o2] eqn:E2. cbn [snd fst] in *. subst o2. destruct HG as [HG _]. split.
  - rewrite <- flatten_codes, HG, (split_codes _ _ _ _ _ _ E2), (split_codes _ _ _ _ _ _ E1). unfold codes_of, plain_chunks, control_codes. rewrite map_map. cbn [snd]. f_equal.
    apply map_ext. intros [r [t|ct]]; reflexivity.
  - apply known_groups. rewrite HG.
    assert (K1 : Forall (fun c => known_control (snd c)) out1).
    { pose proof (known_pieces _ _ (snd shape0) (shape0 :: shapes) (plain_chunks chunks) Finished) as H. rewrite E1 in H. apply H. unfold plain_chunks. rewrite Forall_map. cbn [snd]. exact HK. }
    pose proof (known_pieces _ _ (snd line0) (line0 :: lines) out1 Finished K1) as H. now rewrite E2 in H.
Qed.

(** ** Controls into lines *)
Definition ctree := (item * forest item)%type.
Definition some_tree (c : ctree) : item * option (forest item) := (fst c, Some (snd c)).
Definition control_ok (c : ctree) : Prop :=
  is_ctl (fst c) = true /\ placed Inside (snd c) /\ follow false None (roots (snd c)) /\ balanced 0 (marks Inside (snd c)).
Definition cdefined (c : ctree) : Prop := is_sectiondef (fst c) = true \/ defined (snd c).
Definition next_count (codes : list Z) : nat := List.length (filter extended_code codes).
Lemma field_marks_app : forall a b cs, field_marks cs (a ++ b) = field_marks cs a ++ field_marks (skipn (next_count a) cs) b.
Proof.
  unfold next_count. induction a as [|c a IH]; intros b cs; [reflexivity|]. cbn [app field_marks filter]. destruct (extended_code c).
  - destruct cs as [|x cs]; [now rewrite IH, !skipn_nil|]. cbn [List.length skipn]. rewrite IH. now rewrite app_assoc.
  - rewrite IH. now rewrite app_assoc.
Qed.
Lemma skipn_add : forall A a b (l : list A), skipn b (skipn a l) = skipn (a + b) l.
Proof. intros A. induction a as [|a IH]; intros b l; [reflexivity|]. destruct l as [|x l]; [now rewrite !skipn_nil|]. exact (IH b l). Qed.
Lemma firstn_add : forall A a b (l : list A), firstn (a + b) l = firstn a l ++ firstn b (skipn a l).
Proof. intros A. induction a as [|a IH]; intros b l; [reflexivity|]. destruct l as [|x l]; [now rewrite skipn_nil, !firstn_nil|]. cbn [Nat.add firstn skipn app]. now rewrite IH. Qed.
Lemma fill_leaves : forall l cs, Forall (fun c : (Z * Z) * (Z * unit) * chunk => known_control (snd c)) l -> Forall control_ok cs -> (next_count (codes_of l) <= List.length cs)%nat ->
  exists k, fill (map some_tree cs) (chunk_leaves l) = Some (k, map some_tree (skipn (next_count (codes_of l)) cs)) /\
  placed Line k /\ marks Line k = field_marks (map fst cs) (codes_of l) /\ (Exists cdefined (firstn (next_count (codes_of l)) cs) -> defined k).
Proof.
  unfold next_count. induction l as [|[[r [sh u]] c] l IH]; intros cs HK HC HN.
  - exists FNil. cbn. repeat split. intros H. inversion H.
  - inversion HK as [|? ? K1 K2]; subst. cbn [snd] in K1. cbn [chunk_leaves fold_right fst snd fill]. fold (chunk_leaves l). destruct c as [t|ct].
    + change (codes_of ((r, (sh, u), ChText t) :: l)) with (codes_of l) in *. cbn [chunk_elem]. change (extended (a_text t sh)) with false. cbn match.
      destruct (IH cs K2 HC HN) as (k & E & P & M & D). rewrite E. exists (FCons (a_text t sh) FNil k). split; [reflexivity|]. split; [|split].
      * cbn [placed]. change (is_ctl (a_text t sh)) with false. cbn match. split; [|exact P]. split; [|reflexivity]. left. split; [reflexivity|]. now exists (VInt sh), t.
      * cbn [marks]. exact M.
      * intros H. apply defined_cons. right. right. now apply D.
    + destruct K1 as [kd K1]. set (code := chunk_control_code ct) in *. change (codes_of ((r, (sh, u), ChCtl ct) :: l)) with (code :: codes_of l) in *. cbn [chunk_elem]. fold code. rewrite K1.
      assert (EX : extended (a_char code kd sh) = extended_code code) by (unfold extended, extended_code; rewrite K1; destruct kd; reflexivity). rewrite EX. cbn [filter field_marks] in *.
      destruct (extended_code code) eqn:EE.
      * destruct cs as [|c0 cs]; [cbn in HN; lia|]. inversion HC as [|? ? C1 C2]; subst. cbn [List.length] in *. destruct (IH cs K2 C2 ltac:(lia)) as (k & E & P & M & D).
        change (map some_tree (c0 :: cs)) with ((fst c0, Some (snd c0)) :: map some_tree cs). cbv beta iota. rewrite E. exists (FCons (fst c0) (snd c0) k). split; [reflexivity|]. destruct C1 as (C1 & C3 & C4 & C5). split; [|split].
        -- cbn [placed]. rewrite C1. auto.
        -- cbn [marks]. rewrite (end_not_char (fst c0)) by (now apply ctl_unlike). now rewrite M.
        -- cbn [firstn]. intros H. apply defined_cons. inversion H as [? ? [H'|H']|? ? H']; subst; [now left|right; now left|]. right. right. now apply D.
      * destruct (IH cs K2 HC HN) as (k & E & P & M & D). rewrite E. exists (FCons (a_char code kd sh) FNil k). split; [reflexivity|].
        assert (EF : field_end_char (a_char code kd sh) = (code =? 4)).
        { clear - K1. unfold control_group in K1. revert K1. cbn [existsb].
          repeat match goal with |- context [code =? ?n] => destruct (Z.eqb_spec code n) as [->|?]; [intros _; destruct kd; reflexivity|] end. cbn [orb]. discriminate. }
        split; [|split].
        -- cbn [placed]. change (is_ctl (a_char code kd sh)) with false. cbn match. split; [|exact P]. split; [|reflexivity]. right. split; [reflexivity|]. split; [exact EX|]. eexists. reflexivity.
        -- cbn [marks]. change (is_field (a_char code kd sh)) with false. cbn match. rewrite EF, M. now destruct (code =? 4).
        -- intros H. apply defined_cons. right. right. now apply D.
Qed.
Lemma fill_lines : forall gs cs, Forall (fun g : (Z * list (string * Z)) * _ => Forall (fun c => known_control (snd c)) (snd g)) gs -> Forall control_ok cs ->
  let codes := concat (map (fun g => codes_of (snd g)) gs) in (next_count codes <= List.length cs)%nat ->
  exists k, fill (map some_tree cs) (line_trees gs) = Some (k, map some_tree (skipn (next_count codes) cs)) /\
  placed Paragraph_ k /\ marks Paragraph_ k = field_marks (map fst cs) codes /\ (Exists cdefined (firstn (next_count codes) cs) -> defined k).
Proof.
  cbn zeta. induction gs as [|[ls l] gs IH]; intros cs HK HC HN.
  - exists FNil. cbn. repeat split. intros H. inversion H.
  - inversion HK as [|? ? K1 K2]; subst. cbn [snd map concat] in *. cbn [line_trees fold_right fst snd fill]. fold (line_trees gs). change (extended (line_elem ls)) with false. cbn match.
    assert (EN : next_count (codes_of l ++ concat (map (fun g => codes_of (snd g)) gs)) = (next_count (codes_of l) + next_count (concat (map (fun g => codes_of (snd g)) gs)))%nat).
    { unfold next_count. now rewrite filter_app, app_length. }
    rewrite EN in *. set (a := next_count (codes_of l)) in *. set (b := next_count (concat (map (fun g => codes_of (snd g)) gs))) in *.
    destruct (fill_leaves l cs K1 HC ltac:(fold a; lia)) as (k & E & P & M & D). rewrite E. fold a in E, M, D. fold a.
    assert (HC' : Forall control_ok (skipn a cs)) by (rewrite <- (firstn_skipn a cs) in HC; apply Forall_app in HC; apply HC).
    destruct (IH (skipn a cs) K2 HC' ltac:(rewrite skipn_length; fold b; lia)) as (n & E' & P' & M' & D'). fold b in E', D'. rewrite E'. exists (FCons (line_elem ls) k n).
    split; [now rewrite skipn_add|]. split; [|split].
    + cbn [placed]. change (is_lineseg (line_elem ls)) with true. cbn match. now split.
    + cbn [marks]. change (is_lineseg (line_elem ls)) with true. cbn match. rewrite field_marks_app, M, M'. fold a. now rewrite skipn_map.
    + intros H. apply defined_cons. right. rewrite firstn_add in H.
      apply Exists_app in H. destruct H as [H|H]; [left; now apply D|right; now apply D'].
Qed.

(** ** Texts and controls *)
Lemma converted_fapp : forall f g, converted (fapp f g) = converted f ++ converted g.
Proof. intros f g. induction f as [|x k _ n IH]; [reflexivity|]. cbn [fapp converted app]. now rewrite IH. Qed.
Lemma collect_app : forall a b, collect (a ++ b) = match collect a with Some f => match collect b with Some g => Some (fapp f g) | None => None end | None => None end.
Proof.
  induction a as [|[x [k|]] a IH]; intros b; cbn [app collect]; [now destruct (collect b)| |reflexivity]. rewrite IH. destruct (collect a); [|reflexivity]. now destruct (collect b).
Qed.
Lemma placed_noext : forall f m, placed m f -> noext f.
Proof.
  unfold noext. induction f as [|x k IHk n IHn]; intros m H; [exact I|]. cbn [placed] in H. destruct H as [H HN]. split; [|split; [|now apply (IHn m)]].
  - destruct m.
    + apply not_char_not_extended. destruct (is_para x) eqn:EP; [now apply para_unlike|]. destruct (is_tablebody x) eqn:EB; [now apply body_unlike|].
      destruct H as [[H|H] _]; [now apply plain_unlike|now apply cell_listheader].
    + apply not_char_not_extended. destruct (is_lineseg x) eqn:EL; [now apply lineseg_unlike|]. destruct H as [H _]. now apply plain_unlike.
    + destruct (is_ctl x) eqn:EC; [apply not_char_not_extended; now apply ctl_unlike|]. destruct H as [[[H _]|[_ [H _]]] _]; [|exact H]. apply not_char_not_extended. now apply text_unlike.
  - destruct m.
    + destruct (is_para x); [now apply (IHk Paragraph_)|]. destruct (is_tablebody x); [now destruct H as [-> _]|]. now apply (IHk Inside).
    + destruct (is_lineseg x); [now apply (IHk Line)|]. now apply (IHk Inside).
    + destruct (is_ctl x); [now apply (IHk Inside)|]. now destruct H as [_ ->].
Qed.
Lemma fill_after : forall q cs f, noext q -> fill cs (fapp q f) = match fill cs f with Some (f', r) => Some (fapp q f', r) | None => None end.
Proof.
  induction q as [|x k _ n IH]; intros cs f H; [cbn [fapp]; now destruct (fill cs f) as [[]|]|]. destruct H as (H1 & H2 & H3). cbn [fapp fill]. rewrite H1, (fill_noext k cs H2), (IH cs f H3). now destruct (fill cs f) as [[]|].
Qed.
Lemma leaves_lines_ok : forall l, lines_ok (chunk_leaves l).
Proof.
  induction l as [|[[r [sh u]] c] l IH]; [exact I|]. cbn [chunk_leaves fold_right fst snd]. fold (chunk_leaves l). cbn [lines_ok].
  assert (HE : exists t, chunk_elem sh c = a_text t sh \/ exists code kd, chunk_elem sh c = a_char code kd sh).
  { destruct c as [t|ct]; cbn [chunk_elem]; [now exists t; left|]. exists []. destruct (control_group _); [right; eexists; eexists; reflexivity|now left]. }
  destruct HE as (t & [->|(code & kd & ->)]); (split; [reflexivity|]; split; [reflexivity|]; split; [|split; [exact I|exact IH]]); [discriminate|]. intros _. split; [reflexivity|]. eexists. reflexivity.
Qed.
Lemma lines_lines_ok : forall gs, lines_ok (line_trees gs).
Proof.
  induction gs as [|[ls l] gs IH]; [exact I|]. cbn [line_trees fold_right fst snd]. fold (line_trees gs). split; [reflexivity|]. split; [reflexivity|]. split; [discriminate|]. split; [apply leaves_lines_ok|exact IH].
Qed.
Lemma lines_inline_node : forall f, lines_ok f -> everywhere inline_node f.
Proof. induction f as [|x k IHk n IHn]; intros H; [exact I|]. destruct H as (H1 & _ & _ & H2 & H3). split; [intros E; congruence|]. split; [now apply IHk|now apply IHn]. Qed.
Lemma find_filter : forall A (p q : A -> bool) l, (forall x, p x = true -> q x = true) -> find p (filter q l) = find p l.
Proof.
  intros A p q l H. induction l as [|x l IH]; [reflexivity|]. cbn [filter find]. destruct (q x) eqn:EQ; cbn [find]; [now rewrite IH|]. destruct (p x) eqn:EP; [apply H in EP; congruence|exact IH].
Qed.
Lemma rev_filter : forall A (q : A -> bool) l, rev (filter q l) = filter q (rev l).
Proof. intros A q l. induction l as [|x l IH]; [reflexivity|]. cbn [filter rev]. rewrite filter_app. cbn [filter]. destruct (q x); cbn [rev]; rewrite IH; [reflexivity|now rewrite app_nil_r]. Qed.
Lemma last_text : forall l, last_of "ParaText" (filter is_para_data l) = last_of "ParaText" l.
Proof. intros l. unfold last_of. rewrite rev_filter. apply find_filter. intros x H. unfold is_para_data. now rewrite H. Qed.
Lemma codes_given : forall k chunks, para_chunks (filter is_para_data (roots k)) chunks -> para_codes k = control_codes chunks.
Proof.
  intros k chunks H. unfold para_chunks in H. unfold para_codes. rewrite last_text in H. destruct (last_of "ParaText" (roots k)) as [x|]; [now rewrite H|]. now subst chunks.
Qed.

Lemma shaped_items : forall f, (shaped false f -> para_items f = []) /\ (shaped true f -> para_items f = filter is_para_data (roots f)).
Proof.
  induction f as [|x k [K1 K2] n [N1 N2]]; [now split|]. split; cbn [shaped para_items roots filter]; intros [H HN].
  - rewrite (N1 HN), app_nil_r. destruct (is_para x) eqn:EP; [reflexivity|]. destruct (is_tablebody x) eqn:EB.
    + destruct H as [-> _]. destruct (body_unlike x EB) as (_ & _ & _ & _ & _ & _ & _ & _ & ED). now rewrite ED.
    + destruct H as (H & HK & _). rewrite (K1 HK), app_nil_r. assert (ED : is_para_data x = false) by (destruct H as [H|H]; [now apply plain_unlike|now apply cell_listheader]). now rewrite ED.
  - rewrite (N2 HN). destruct H as [[HD ->]|(H & HK & _)].
    + assert (EP : is_para x = false) by (destruct (is_para x) eqn:EP; [apply para_unlike in EP; destruct EP as (_ & _ & _ & _ & _ & _ & _ & _ & E); congruence|reflexivity]). now rewrite EP, HD.
    + assert (HU : is_para x = false /\ is_para_data x = false) by (destruct H as [H|H]; [destruct (ctl_unlike x H) as (A & B & _)|destruct (plain_unlike x H) as [(A & B & _) _]]; now split).
      destruct HU as [-> ->]. now rewrite (K1 HK).
Qed.
Lemma shaped_texts : forall f m, shaped m f -> everywhere texts_node f.
Proof.
  induction f as [|x k IHk n IHn]; intros m H; [exact I|]. cbn [shaped] in H. destruct H as [H HN]. split; [|split; [|now apply (IHn m)]].
  - intros EP. destruct m.
    + exfalso. destruct (para_unlike x EP) as (_ & _ & _ & EC & _ & _ & _ & _ & ED). destruct H as [[H _]|[[H|H] _]]; [congruence|congruence|]. apply plain_unlike in H. destruct H as [(E & _) _]. congruence.
    + rewrite EP in H. destruct H as [(_ & H & _) HK]. now rewrite (proj2 (shaped_items k) HK).
  - destruct m; [destruct H as [[_ ->]|(_ & H & _)]; [exact I|now apply (IHk false)]|]. destruct (is_para x); [now apply (IHk true)|]. destruct (is_tablebody x); [now destruct H as [-> _]|]. now apply (IHk false).
Qed.

Definition inside_result (f f1 : forest item) : Prop :=
  no_char f1 /\ everywhere inline_node f1 /\ exists f2, inlined f1 = Some f2 /\ placed Inside f2 /\ roots f2 = roots f /\ marks Inside f2 = marks_inside f /\ (defined f -> defined f2).
Definition paragraph_result (f f1 : forest item) : Prop :=
  everywhere inline_node f1 /\ (forall lf, lines_ok lf -> para_kids (fapp f1 lf)) /\
  exists q cs, others f1 = Some q /\ ctls f1 = map some_tree cs /\ placed Paragraph_ q /\ marks Paragraph_ q = [] /\
    map fst cs = para_controls f /\ Forall control_ok cs /\ (defined f -> defined q \/ Exists cdefined cs).
Lemma placed_fapp : forall m f g, placed m f -> placed m g -> placed m (fapp f g).
Proof. intros m f g. induction f as [|x k _ n IH]; intros H1 H2; [exact H2|]. cbn [fapp placed] in *. split; [apply H1|]. apply IH; [apply H1|exact H2]. Qed.
Lemma marks_fapp : forall m f g, marks m (fapp f g) = marks m f ++ marks m g.
Proof. intros m f g. induction f as [|x k _ n IH]; [reflexivity|]. cbn [fapp marks]. now rewrite IH, app_assoc. Qed.

Lemma texts_controls : forall f f1, with_lines f f1 -> (shaped false f -> inside_result f f1) /\ (shaped true f -> paragraph_result f f1).
Proof.
  induction f as [|x k IHk n IHn]; intros f1 HW; cbn [with_lines] in HW.
  - subst f1. split; intros _.
    + split; [exact I|]. split; [exact I|]. exists FNil. repeat split. auto.
    + split; [exact I|]. split; [intros lf H; destruct lf; left; exact H|]. exists FNil, []. repeat split; [constructor|]. now left.
  - destruct HW as (k' & n' & HK & HN & HW). specialize (IHk _ HK). specialize (IHn _ HN). destruct IHk as [KI KP]. destruct IHn as [NI NP]. split; cbn [shaped]; intros [HX HS].
    + (* inside *)
      destruct (NI HS) as (N1 & N2 & n2 & N3 & N4 & N5 & N6 & N7). destruct (is_para x) eqn:EP.
      * destruct HW as (lf & HL & ->). destruct HX as [(HX1 & HX2 & HX3) HX4]. rewrite (proj2 (shaped_items k) HX4) in HL. destruct (KP HX4) as (P1 & P2 & q & cs & P3 & P4 & P5 & P6 & P7 & P8 & P9).
        destruct (lines_of_para _ _ HL) as (chunks & gs & L1 & -> & L2 & L3). apply codes_given in L1. unfold controls_match in HX3. rewrite L1 in HX3. rewrite <- P7, map_length in HX3.
        destruct (fill_lines gs cs L3 P8) as (kk & F1 & F2 & F3 & F4); [rewrite L2; unfold next_count; rewrite <- HX3; apply le_n|]. rewrite L2 in *. unfold next_count in F1, F4. rewrite <- HX3 in F1, F4. rewrite skipn_all in F1. rewrite firstn_all in F4.
        assert (EI : inline_para (converted (fapp k' (line_trees gs))) = Some (fapp q kk)).
        { rewrite inline_para_eq. unfold others, ctls in *. rewrite converted_fapp, !filter_app, collect_app, P3, P4. destruct (inlined_lines _ (lines_lines_ok gs)) as (_ & I2 & I3). unfold others, ctls in I2, I3.
          rewrite I2, I3, app_nil_r. rewrite fill_after by (now apply (placed_noext q Paragraph_)). rewrite F1. reflexivity. }
        split; [|split].
        -- cbn [no_char]. split; [now apply para_unlike|]. split; [now apply para_unlike|]. split; [now left|exact N1].
        -- cbn [everywhere]. split; [intros _; apply P2; apply lines_lines_ok|]. split; [apply everywhere_fapp; split; [exact P1|apply lines_inline_node; apply lines_lines_ok]|exact N2].
        -- exists (FCons x (fapp q kk) n2). split; [rewrite inlined_cons; unfold node; now rewrite EP, EI, N3|]. split; [|split; [|split]].
           ++ cbn [placed]. rewrite EP. split; [|exact N4]. split; [exact HX1|]. now apply placed_fapp.
           ++ cbn [roots]. now rewrite N5.
           ++ cbn [marks marks_inside]. rewrite EP, N6. f_equal. rewrite marks_fapp, P6, F3, P7, L1. reflexivity.
           ++ rewrite !defined_cons. intros [H|[H|H]]; [now left| |right; right; now apply N7]. right. left. apply defined_fapp. destruct (P9 H) as [H'|H']; [now left|right; now apply F4].
      * assert (HU : is_para_data x = false /\ is_char x = false /\ is_ctl x = false).
        { destruct (is_tablebody x) eqn:EB; [destruct (body_unlike x EB) as (_ & _ & _ & A & _ & _ & B & _ & C); auto|]. destruct HX as [[H|H] _]; [apply plain_unlike in H; destruct H as [(_ & A & B & _) C]; auto|].
          destruct (cell_listheader x H) as (_ & _ & _ & A & _ & _ & B & _ & C); auto. }
        destruct HU as (UD & UC & UT). rewrite UD in HW. subst f1.
        assert (HKR : inside_result k k' /\ (is_tablebody x = true -> k = FNil)).
        { destruct (is_tablebody x); [|split; [now apply KI|discriminate]]. destruct HX as [-> _]. split; [|reflexivity]. cbn [with_lines] in HK. subst k'. split; [exact I|]. split; [exact I|]. exists FNil. repeat split. auto. }
        destruct HKR as [(K1 & K2 & k2 & K3 & K4 & K5 & K6 & K7) HB]. split; [|split].
        -- cbn [no_char]. split; [exact UC|]. split; [exact UT|]. split; [now right|exact N1].
        -- cbn [everywhere]. split; [intros E; congruence|]. now split.
        -- exists (FCons x k2 n2). split; [rewrite inlined_cons; unfold node; now rewrite EP, K3, N3|]. split; [|split; [|split]].
           ++ cbn [placed]. rewrite EP. split; [|exact N4]. destruct (is_tablebody x) eqn:EB.
              ** split; [|apply HX]. specialize (HB eq_refl). subst k. destruct k2; [reflexivity|discriminate K5].
              ** destruct HX as (HX1 & HX2 & HX3). split; [exact HX1|]. split; [exact K4|]. rewrite K5. now apply siblings_follow.
           ++ cbn [roots]. now rewrite N5.
           ++ cbn [marks marks_inside]. now rewrite EP, N6, K6.
           ++ rewrite !defined_cons. intros [H|[H|H]]; [now left|right; left; now apply K7|right; right; now apply N7].
    + (* paragraph *)
      destruct (NP HS) as (N1 & N2 & q & cs & N3 & N4 & N5 & N6 & N7 & N8 & N9). destruct HX as [[HD ->]|(HX & HX1 & HX2 & HX3)].
      * assert (EP : is_para x = false) by (destruct (is_para x) eqn:EP; [apply para_unlike in EP; destruct EP as (_ & _ & _ & _ & _ & _ & _ & _ & E); congruence|reflexivity]).
        assert (EC : is_ctl x = false) by (destruct (is_ctl x) eqn:EC; [apply ctl_unlike in EC; destruct EC as (_ & E & _); congruence|reflexivity]).
        rewrite EP, HD in HW. cbn [with_lines] in HK. subst k' f1. cbn [fapp]. split; [exact N1|]. split; [exact N2|]. exists q, cs. split; [exact N3|]. split; [exact N4|]. split; [exact N5|]. split; [exact N6|].
        split; [unfold para_controls; cbn [roots filter]; now rewrite EC|]. split; [exact N8|]. rewrite defined_cons. intros [H|[H|H]]; [|now apply defined_nil in H|now apply N9]. apply sectiondef_ctl in H. destruct H. congruence.
      * assert (HU : is_para x = false /\ is_para_data x = false /\ is_char x = false /\ is_lineseg x = false).
        { destruct HX as [H|H]; [destruct (ctl_unlike x H) as (A & B & C & D & _)|destruct (plain_unlike x H) as [(A & B & C & D & _) _]]; auto. }
        destruct HU as (EP & ED & EH & EL). rewrite EP, ED in HW. subst f1. destruct (KI HX1) as (K1 & K2 & k2 & K3 & K4 & K5 & K6 & K7).
        assert (KF : follow false None (roots k2)) by (rewrite K5; now apply siblings_follow). assert (KB : balanced 0 (marks Inside k2)) by now rewrite K6.
        split; [cbn [everywhere]; split; [intros E; congruence|]; now split|]. split.
        { intros lf Hlf. cbn [fapp para_kids]. right. split; [exact EH|]. split; [now right|]. now apply N2. }
        rewrite others_cons, ctls_cons. unfold node. rewrite EP. destruct (is_ctl x) eqn:EC.
        -- exists q, ((x, k2) :: cs). split; [exact N3|]. split; [cbn [map]; now rewrite <- N4, K3|]. split; [exact N5|]. split; [exact N6|]. split; [unfold para_controls; cbn [map fst roots filter]; rewrite EC; unfold para_controls in N7; now rewrite N7|].
           split; [constructor; [|exact N8]; split; [exact EC|]; now split|]. rewrite defined_cons. intros [H|[H|H]]; [right; constructor; now left|right; constructor; right; now apply K7|]. destruct (N9 H) as [H'|H']; [now left|right; now right].
        -- destruct HX as [H|HX]; [discriminate H|]. exists (FCons x k2 q), cs. rewrite K3, N3. split; [reflexivity|]. split; [exact N4|]. split; [cbn [placed]; rewrite EL; auto|]. split; [cbn [marks]; now rewrite EL|].
           split; [unfold para_controls; cbn [roots filter]; now rewrite EC|]. split; [exact N8|]. rewrite !defined_cons. intros [H|[H|H]]; [left; now left|left; right; left; now apply K7|]. destruct (N9 H) as [H'|H']; [left; right; now right|now right].
Qed.

(** ** The whole pipeline *)
Lemma fields_named : forall f st z, fields_ok st z f -> Forall (fun e => named (item_of e)) (walk f).
Proof.
  induction f as [|x k IHk n IHn]; intros st z H; [constructor|]. cbn [fields_ok] in H. destruct H as [HN H].
  assert (HK : Forall (fun e => named (item_of e)) (walk k) /\ Forall (fun e => named (item_of e)) (walk n)).
  { destruct z as [z|].
    - destruct (is_field x); [destruct H as ((H1 & _) & H2); split; [now apply (IHk _ _ H1)|now apply (IHn _ _ H2)]|].
      destruct (field_end_char x); [destruct H as (H1 & H2); subst; split; [constructor|now apply (IHn _ _ H2)]|].
      destruct H as ((H1 & _) & H2). split; [now apply (IHk _ _ H1)|now apply (IHn _ _ H2)].
    - destruct H as (_ & _ & H1 & H2). split; [now apply (IHk _ _ H1)|now apply (IHn _ _ H2)]. }
  cbn [walk]. constructor; [exact HN|]. apply Forall_app. split; [apply HK|]. constructor; [exact HN|apply HK].
Qed.

Lemma in_starts : forall A (s : A) evs, In s (starts evs) <-> In (EStart s) evs.
Proof.
  intros A s evs. induction evs as [|[x|x] evs IH]; [reflexivity| |]; cbn [starts In].
  - rewrite IH. split; (intros [H|H]; [left; congruence|now right]).
  - rewrite IH. split; [now right|]. intros [H|H]; [discriminate H|exact H].
Qed.
Lemma defined_regroup : forall f, fields_ok [] None f -> defined f -> defined (fst (regroup [] None f)).
Proof.
  intros f HF (s & H1 & H2). exists s. split; [|exact H2]. apply in_starts. apply in_starts in H1.
  destruct (fields_keep_others (walk f) [] Finished (fields_named f _ _ HF) (Forall_nil _)) as [E _].
  change (field_loop [] (walk f) Finished) with (match_field_start_end (walk f, Finished)) in E. rewrite (fields_pass f HF) in E. cbn [fst] in E.
  assert (HI : In (EStart s) (filter not_field_event (walk f))).
  { apply filter_In. split; [exact H1|]. apply sectiondef_ctl in H2. destruct H2 as [HC HN]. unfold not_field_event. cbn [item_of]. rewrite HN. apply ctl_unlike in HC. unfold field_end_char. destruct HC as (_ & _ & -> & _). reflexivity. }
  rewrite <- E in HI. apply filter_In in HI. apply HI.
Qed.

Theorem section_pass : forall sid f, section_ok f ->
  exists g, section_tree sid f g /\ section_events sid (walk f, Finished) = (walk g, Finished).
Proof.
  intros sid f [HP HS HD]. destruct (shaped_items f) as [HI _]. specialize (HI HS).
  destruct (texts_pass f HI (shaped_texts f false HS)) as (f1 & HW & E1).
  destruct (texts_controls f f1 HW) as [HR _]. destruct (HR HS) as (R1 & R2 & f2 & R3 & R4 & R5 & R6 & R7).
  assert (E2 : make_extended_controls_inline (walk f1, Finished) = (walk f2, Finished)).
  { pose proof (inline_pass f1 (conj R1 R2)) as H. now rewrite R3 in H. }
  destruct (fields_fine f2) as (FF & _). destruct (FF R4 [] (Forall_nil _)) as (F1 & F2 & F3 & _).
  pose proof (fields_pass f2 F1) as E3.
  destruct (later_passes sid (fst (regroup [] None f2)) F2) as (s & sk & rest & X1 & X2); [now rewrite F3, R5|apply defined_regroup; [exact F1|]; now apply R7|].
  exists (in_columns (FCons (with_section_id sid s) (fapp sk rest) FNil)). split.
  - exists f1, f2, s, sk, rest. now repeat split.
  - unfold section_events. now rewrite E1, E2, E3.
Qed.

Theorem section_single : forall sid f, section_ok f ->
  exists s k, is_sectiondef s = true /\ section_events sid (walk f, Finished) = (walk (FCons (with_section_id sid s) k FNil), Finished).
Proof.
  intros sid f H. destruct (section_pass sid f H) as (g & (l & c & s & sk & rest & _ & _ & HX & ->) & E). exists s, (in_columns (fapp sk rest)).
  assert (HS : is_sectiondef s = true).
  { revert HX. generalize (tokenized (with_rows (adopt is_tablebody is_tablecell (adopt is_listheader is_para (fst (regroup [] None c)))))). clear. intros h. revert s sk rest.
    induction h as [|x k IHk n IHn]; intros s sk rest H; [discriminate H|]. cbn [extract_section] in H. destruct (is_sectiondef x) eqn:EX; [congruence|].
    destruct (extract_section k) as [[[s1 sk1] k1]|]; [injection H as <- <- <-; now apply (IHk _ _ _ eq_refl)|]. destruct (extract_section n) as [[[s1 sk1] k1]|]; [|discriminate H]. injection H as <- <- <-. now apply (IHn _ _ _ eq_refl). }
  split; [exact HS|]. rewrite E. f_equal. f_equal. cbn [in_columns]. assert (HN : newcol (with_section_id sid s) = false).
  { unfold newcol. assert (EP : is_para (with_section_id sid s) = false) by (destruct s as [m r a]; unfold is_sectiondef, model_is in HS; cbn in HS; apply String.eqb_eq in HS; subst m; destruct sid; reflexivity). now rewrite EP. }
  now rewrite HN.
Qed.
