(** Controls are put in the place of extended control characters. *)
From Coq Require Import ZArith String List Bool Lia Wf_nat Compare_dec.
From Verif Require Import Base BaseFacts Model_Tree Spec_Tree Proof_Tree Model_ParaText Model_Shape Model_Lang Model_Classes Model_XmlModel Spec_XmlModel Proof_XmlModel.
Import ListNotations.
Open Scope string_scope.
Open Scope list_scope.
Open Scope Z_scope.

Notation tree := (item * forest item)%type.
Notation otree := (item * option (forest item))%type.
Notation result := (list (event item) * outcome * list controls)%type.

Definition yieldr (out : list (event item)) (r : result) : result := let '(out', o', st') := r in (out ++ out', o', st').
Definition failedr (r : result) : Prop := exists out e st, r = (out, Failed e, st) /\ (e = AttributeError \/ e = IndexError).

Lemma yieldr_app : forall a b r, yieldr a (yieldr b r) = yieldr (a ++ b) r.
Proof. intros a b [[x y] z]. cbn. now rewrite app_assoc. Qed.
Lemma yieldr_nil : forall r, yieldr [] r = r.
Proof. intros [[x y] z]. reflexivity. Qed.
Lemma failedr_yield : forall out r, failedr r -> failedr (yieldr out r).
Proof. intros out r (a & e & st & -> & H). exists (out ++ a), e, st. now split. Qed.

(** ** One step *)
Section Steps.
  Variables (k : nat) (stack : list controls) (rest : list (event item)) (o : outcome).
  Lemma step_para_start : forall x, is_para x = true ->
    inline_loop (S k) stack (EStart x :: rest) o = yieldr [EStart x] (inline_loop k (None :: stack) rest o).
  Proof. intros x H. unfold is_para in H. cbn [inline_loop]. rewrite H. reflexivity. Qed.
  Lemma step_para_end : forall x c st, is_para x = true -> stack = c :: st ->
    inline_loop (S k) stack (EEnd x :: rest) o = yieldr [EEnd x] (inline_loop k st rest o).
  Proof. intros x c st H ->. unfold is_para in H. cbn [inline_loop]. rewrite H. reflexivity. Qed.
  Lemma step_other_start : forall x, is_para x = false -> is_char x = false -> is_ctl x = false ->
    inline_loop (S k) stack (EStart x :: rest) o = yieldr [EStart x] (inline_loop k stack rest o).
  Proof. intros x H1 H2 H3. unfold is_para in H1. unfold is_char in H2. unfold is_ctl in H3. cbn [inline_loop]. rewrite H1, H2, H3. reflexivity. Qed.
  Lemma step_other_end : forall x, is_para x = false -> is_char x = false ->
    inline_loop (S k) stack (EEnd x :: rest) o = yieldr [EEnd x] (inline_loop k stack rest o).
  Proof. intros x H1 H2. unfold is_para in H1. unfold is_char in H2. cbn [inline_loop]. rewrite H1, H2. reflexivity. Qed.
  Lemma step_char_end : forall x, is_para x = false -> is_char x = true ->
    inline_loop (S k) stack (EEnd x :: rest) o = inline_loop k stack rest o.
  Proof. intros x H1 H2. unfold is_para in H1. unfold is_char in H2. cbn [inline_loop]. rewrite H1, H2. reflexivity. Qed.
  Lemma step_char_start : forall x, is_para x = false -> is_char x = true -> extended x = false -> (exists a, attr_get "kind" (i_attrs x) = Some a) ->
    inline_loop (S k) stack (EStart x :: rest) o = yieldr [EStart x; EEnd x] (inline_loop k stack rest o).
  Proof.
    intros x H1 H2 H3 [a H4]. unfold is_para in H1. unfold extended in H3. rewrite H2 in H3. unfold is_char in H2. cbn [inline_loop]. rewrite H1, H2, H4 in *. cbn in H3.
    destruct a as [| | | |[]| | | | |]; try reflexivity. discriminate.
  Qed.
  Lemma step_extended_start : forall x, is_para x = false -> extended x = true ->
    inline_loop (S k) stack (EStart x :: rest) o =
    match stack with
    | [] => ([], Failed IndexError, stack)
    | None :: _ => ([], Failed AttributeError, stack)
    | Some [] :: _ => ([], Failed IndexError, stack)
    | Some ((x, kids) :: cs) :: st =>
        match inline_loop k (Some cs :: st) (tree_events_multi kids ++ [EEnd x]) Finished with
        | (out, Finished, st') => yieldr (EStart x :: out) (inline_loop k st' rest o)
        | (out, e, st') => (EStart x :: out, e, st')
        end
    end.
  Proof.
    intros x H1 H2. unfold is_para in H1. unfold extended in H2. apply andb_true_iff in H2. destruct H2 as [H2 H3]. unfold is_char in H2. cbn [inline_loop]. rewrite H1, H2.
    destruct (attr_get "kind" (i_attrs x)) as [[| | | |[]| | | | |]|]; try discriminate. reflexivity.
  Qed.
  Lemma step_control : forall x kids rest' c st, is_para x = false -> is_char x = false -> is_ctl x = true -> rest = walk kids ++ EEnd x :: rest' -> stack = c :: st ->
    inline_loop (S k) stack (EStart x :: rest) o = inline_loop k (Some (match c with None => [] | Some l => l end ++ [(x, kids)]) :: st) rest' o.
  Proof.
    intros x kids rest' c st H1 H2 H3 -> ->. unfold is_para in H1. unfold is_char in H2. unfold is_ctl in H3. cbn [inline_loop]. rewrite H1, H2, H3. rewrite build_subtree_walk. reflexivity.
  Qed.
End Steps.

Lemma para_not_char : forall x, is_para x = true -> is_char x = false.
Proof. intros x H. unfold is_para, is_char, model_is in *. apply String.eqb_eq in H. now rewrite H. Qed.
Lemma para_not_ctl : forall x, is_para x = true -> is_ctl x = false.
Proof. intros x H. unfold is_para, is_ctl, model_is, model_sub in *. apply String.eqb_eq in H. rewrite H. reflexivity. Qed.
Lemma ctl_not_para : forall x, is_ctl x = true -> is_para x = false.
Proof. intros x H. destruct (is_para x) eqn:E; [|reflexivity]. apply para_not_ctl in E. congruence. Qed.
Lemma ctl_not_char : forall x, is_ctl x = true -> is_char x = false.
Proof. intros x H. unfold is_char, is_ctl, model_is, model_sub in *. destruct (String.eqb (i_model x) "ControlChar") eqn:E; [|reflexivity]. apply String.eqb_eq in E. rewrite E in H. discriminate. Qed.
Lemma not_char_not_extended : forall x, is_char x = false -> extended x = false.
Proof. intros x H. unfold extended. now rewrite H. Qed.

(** ** Conversion of nodes *)
Definition node (x : item) (k : forest item) : option (forest item) := if is_para x then inline_para (converted k) else inlined k.
Lemma converted_cons : forall x k n, converted (FCons x k n) = (x, node x k) :: converted n.
Proof. reflexivity. Qed.
Lemma inlined_cons : forall x k n, inlined (FCons x k n) = match node x k with Some kk => match inlined n with Some n' => Some (FCons x kk n') | None => None end | None => None end.
Proof. intros. unfold inlined at 1. rewrite converted_cons. cbn [collect]. destruct (node x k); reflexivity. Qed.

Definition ctls (f : forest item) := filter (fun t : item * option (forest item) => is_ctl (fst t)) (converted f).
Definition others (f : forest item) := collect (filter (fun t : item * option (forest item) => negb (is_ctl (fst t))) (converted f)).
Lemma ctls_cons : forall x k n, ctls (FCons x k n) = if is_ctl x then (x, node x k) :: ctls n else ctls n.
Proof. intros. unfold ctls. rewrite converted_cons. reflexivity. Qed.
Lemma others_cons : forall x k n, others (FCons x k n) =
  if is_ctl x then others n else match node x k with Some kk => match others n with Some n' => Some (FCons x kk n') | None => None end | None => None end.
Proof. intros. unfold others. rewrite converted_cons. cbn [filter fst]. destruct (is_ctl x); cbn [negb]; [reflexivity|]. cbn [collect]. destruct (node x k); reflexivity. Qed.
Lemma inline_para_eq : forall f, inline_para (converted f) = match others f with None => None | Some q => match fill (ctls f) q with Some (kk, _) => Some kk | None => None end end.
Proof. reflexivity. Qed.

(** ** After inlining there are no extended control characters *)
Definition noext (f : forest item) : Prop := everywhere (fun x _ => extended x = false) f.
Definition noext_tree (t : otree) : Prop := extended (fst t) = false /\ match snd t with Some k => noext k | None => True end.

Lemma fill_noext : forall f cs, noext f -> fill cs f = Some (f, cs).
Proof.
  induction f as [|x k IHk n IHn]; intros cs H; [reflexivity|]. destruct H as (H1 & H2 & H3). cbn [fill]. rewrite H1, (IHk cs H2), (IHn cs H3). reflexivity.
Qed.
Lemma fill_makes_noext : forall f cs f' cs', fill cs f = Some (f', cs') -> Forall noext_tree cs -> noext f' /\ Forall noext_tree cs'.
Proof.
  induction f as [|x k IHk n IHn]; intros cs f' cs' H HC; cbn [fill] in H.
  - injection H as <- <-. now split.
  - destruct (extended x) eqn:EX.
    + destruct cs as [|[c [ck|]] cs1]; try discriminate. inversion HC as [|? ? HC1 HC2]; subst. destruct (fill cs1 n) as [[n' r]|] eqn:E; [|discriminate]. injection H as <- <-.
      destruct (IHn _ _ _ E HC2) as [H1 H2]. split; [|exact H2]. split; [apply HC1|]. split; [apply HC1|exact H1].
    + destruct (fill cs k) as [[k' cs1]|] eqn:E1; [|discriminate]. destruct (fill cs1 n) as [[n' r]|] eqn:E2; [|discriminate]. injection H as <- <-.
      destruct (IHk _ _ _ E1 HC) as [H1 H2]. destruct (IHn _ _ _ E2 H2) as [H3 H4]. split; [|exact H4]. now repeat split.
Qed.

Lemma inlined_lines : forall f, lines_ok f -> inlined f = Some f /\ ctls f = [] /\ others f = Some f.
Proof.
  induction f as [|x k IHk n IHn]; intros H; [now repeat split|]. destruct H as (H1 & H2 & _ & H3 & H4). destruct (IHk H3) as (A1 & A2 & A3). destruct (IHn H4) as (B1 & B2 & B3).
  rewrite inlined_cons, ctls_cons, others_cons. unfold node. rewrite H1, H2, A1, B1, B2, B3. now repeat split.
Qed.

Lemma inlined_noext : forall f, everywhere inline_node f ->
  (no_char f -> forall f', inlined f = Some f' -> noext f') /\ (para_kids f -> Forall noext_tree (ctls f)).
Proof.
  induction f as [|x k IHk n IHn]; intros HE.
  - split; [intros _ f' H; injection H as <-; exact I|intros _; constructor].
  - destruct HE as (E1 & E2 & E3). destruct (IHk E2) as [K1 K2]. destruct (IHn E3) as [N1 N2].
    assert (HX : is_char x = false -> (is_para x = true \/ no_char k) -> forall kk, node x k = Some kk -> noext kk).
    { intros HC HP kk. unfold node. destruct (is_para x) eqn:EP.
      - rewrite inline_para_eq. destruct (others k) as [q|]; [|discriminate]. destruct (fill _ _) as [[kk' r]|] eqn:EF; [|discriminate]. intros H. injection H as ->.
        apply fill_makes_noext in EF; [apply EF|]. apply K2. now apply E1.
      - intros H. apply K1; [|exact H]. now destruct HP. }
    split.
    + intros (H1 & H2 & H3 & H4) f'. rewrite inlined_cons. destruct (node x k) as [kk|] eqn:EN; [|discriminate]. destruct (inlined n) as [n'|]; [|discriminate]. intros H. injection H as <-.
      split; [now apply not_char_not_extended|]. split; [exact (HX H1 H3 kk eq_refl)|now apply N1].
    + intros [HL|(H1 & H2 & H3)].
      * destruct (inlined_lines _ HL) as (_ & -> & _). constructor.
      * rewrite ctls_cons. destruct (is_ctl x); [|now apply N2]. constructor; [|now apply N2]. split; [now apply not_char_not_extended|]. cbn [snd].
        destruct (node x k) as [kk|] eqn:EN; [|exact I]. exact (HX H1 H2 kk eq_refl).
Qed.

(** ** Fuel *)
Fixpoint fsize (f : forest item) : nat := match f with FNil => 0%nat | FCons _ k n => S (fsize k + fsize n) end.
Fixpoint need (f : forest item) : nat := match f with FNil => 0%nat | FCons _ k n => Nat.max (2 * fsize k + 2 + need k) (need n) end.
Lemma need_bound : forall f, (need f <= 2 * fsize f * fsize f + 2 * fsize f)%nat.
Proof. induction f as [|x k IHk n IHn]; cbn [need fsize]; [lia|]. apply Nat.max_lub; nia. Qed.
Lemma walk_length : forall f, List.length (walk f) = (2 * fsize f)%nat.
Proof. induction f as [|x k IHk n IHn]; cbn [walk fsize List.length]; [reflexivity|]. rewrite app_length. cbn [List.length]. lia. Qed.

(** ** The pass *)

(** A waiting control and the control as it will come out. *)
Definition waits (r : tree) (c : otree) : Prop := fst r = fst c /\ is_ctl (fst r) = true /\ inlined (snd r) = snd c.
Definition frame (fr : controls) : list tree := match fr with None => [] | Some l => l end.
Definition fits (B : nat) (r : tree) : Prop := (2 * fsize (snd r) + 2 + need (snd r) <= B)%nat.

(** No-control context: the events of [f] come out as those of [inlined f]. *)
Definition plain (f : forest item) : Prop :=
  forall B fuel st rest o, (need f <= B)%nat -> (2 * fsize f + B <= fuel)%nat ->
  match inlined f with
  | Some f' => exists fuel', (fuel - 2 * fsize f <= fuel')%nat /\ inline_loop fuel st (walk f ++ rest) o = yieldr (walk f') (inline_loop fuel' st rest o)
  | None => failedr (inline_loop fuel st (walk f ++ rest) o)
  end.

Lemma trans_yield : forall a r1 r2 r3, r1 = r2 -> yieldr a r2 = r3 -> yieldr a r1 = r3.
Proof. intros. now subst. Qed.
Lemma trans_eq : forall (r1 r2 r3 : result), r1 = r2 -> r2 = r3 -> r1 = r3.
Proof. intros. congruence. Qed.
Lemma failed_eq : forall r1 r2, r1 = r2 -> failedr r2 -> failedr r1.
Proof. intros. now subst. Qed.

(** Lines. *)
Lemma inline_lines : forall f, lines_ok f -> forall B fuel fr cs st rest o, Forall2 waits (frame fr) cs -> Forall (fits B) (frame fr) ->
  (forall r, In r (frame fr) -> plain (snd r)) -> (2 * fsize f + B <= fuel)%nat ->
  match fill cs f with
  | Some (f', cs') => exists fuel' fr', (fuel - 2 * fsize f <= fuel')%nat /\ Forall2 waits (frame fr') cs' /\
      inline_loop fuel (fr :: st) (walk f ++ rest) o = yieldr (walk f') (inline_loop fuel' (fr' :: st) rest o) /\
      (forall r, In r (frame fr') -> In r (frame fr))
  | None => failedr (inline_loop fuel (fr :: st) (walk f ++ rest) o)
  end.
Proof.
  induction f as [|x k IHk n IHn]; intros HL B fuel fr cs st rest o HW HB HP HF.
  - cbn [fill walk app fsize] in *. exists fuel, fr. rewrite yieldr_nil. repeat split; try assumption; [lia|tauto].
  - destruct HL as (L1 & L2 & L3 & L4 & L5). cbn [fill]. rewrite walk_app_cons. cbn [fsize] in HF. destruct fuel as [|fuel]; [lia|].
    destruct (extended x) eqn:EX.
    + assert (EC : is_char x = true) by (unfold extended in EX; now apply andb_true_iff in EX).
      destruct (L3 EC) as [-> _]. cbn [fsize walk app] in *. rewrite (step_extended_start fuel (fr :: st) _ o x L1 EX).
      destruct cs as [|[c ck] cs1].
      * inversion HW as [HWe|]; subst. destruct fr as [[|? ?]|]; cbn [frame] in *; try discriminate; eexists; eexists; eexists; split; eauto.
      * destruct fr as [[|[rx rk] rs]|]; cbn [frame] in *; inversion HW as [|? ? ? ? HW1 HW2]; subst.
        destruct HW1 as (W1 & W2 & W5). cbn [fst snd] in *. subst rx. inversion HB as [|? ? HB1 HB2]; subst. unfold fits in HB1. cbn [snd] in HB1.
        rewrite tree_events_multi_walk. pose proof (HP (c, rk) (or_introl eq_refl)) as HPL. cbn [snd] in HPL.
        specialize (HPL (need rk + 2)%nat fuel (Some rs :: st) [EEnd c] Finished ltac:(lia) ltac:(lia)).
        destruct (inlined rk) as [ck|] eqn:EI.
        2:{ destruct HPL as (out & e & st' & -> & HX). exists (EStart c :: out), e, st'. now split. }
        destruct HPL as (fuel' & F1 & F2).
        assert (fuel' >= 2)%nat by lia. destruct fuel' as [|fuel']; [lia|]. rewrite (step_other_end fuel' _ _ _ c (ctl_not_para _ W2) (ctl_not_char _ W2)) in F2.
        destruct fuel' as [|fuel']; [lia|]. cbn [inline_loop yieldr] in F2. rewrite F2.
        destruct fuel as [|fuel]; [lia|]. rewrite (step_char_end fuel _ _ _ x L1 EC).
        specialize (IHn L5 B fuel (Some rs) cs1 st rest o HW2 HB2). cbn [frame] in IHn.
        assert (IHN := IHn (fun r Hr => HP r (or_intror Hr)) ltac:(lia)). clear IHn.
        destruct (fill cs1 n) as [[n' r]|].
        -- destruct IHN as (f2 & fr' & G1 & G2 & G3 & G4). exists f2, fr'. split; [cbn [fsize]; lia|]. split; [exact G2|]. split; [|intros r0 Hr; right; now apply G4].
           eapply trans_yield; [exact G3|]. rewrite yieldr_app. cbn [walk app]. f_equal. rewrite <- !app_assoc. reflexivity.
        -- apply failedr_yield. exact IHN.
    + destruct (is_char x) eqn:EC.
      * destruct (L3 eq_refl) as [-> HK]. cbn [fsize walk app fill] in *. rewrite (step_char_start fuel _ _ o x L1 EC EX HK).
        destruct fuel as [|fuel]; [lia|]. rewrite (step_char_end fuel _ _ _ x L1 EC).
        specialize (IHn L5 B fuel fr cs st rest o HW HB HP ltac:(lia)). destruct (fill cs n) as [[n' r]|].
        -- destruct IHn as (f2 & fr' & G1 & G2 & G3 & G4). exists f2, fr'. split; [cbn [fsize]; lia|]. split; [exact G2|]. split; [|exact G4]. rewrite G3, yieldr_app. reflexivity.
        -- now apply failedr_yield.
      * rewrite (step_other_start fuel _ _ o x L1 EC L2).
        specialize (IHk L4 B fuel fr cs st (EEnd x :: walk n ++ rest) o HW HB HP ltac:(lia)). destruct (fill cs k) as [[k' cs1]|].
        -- destruct IHk as (f1 & fr1 & K1 & K2 & K3 & K4). rewrite K3. destruct f1 as [|f1]; [lia|]. rewrite (step_other_end f1 _ _ _ x L1 EC).
           assert (HB1 : Forall (fits B) (frame fr1)) by (apply Forall_forall; intros r Hr; rewrite Forall_forall in HB; apply HB; now apply K4).
           specialize (IHn L5 B f1 fr1 cs1 st rest o K2 HB1 (fun r Hr => HP r (K4 r Hr)) ltac:(lia)). destruct (fill cs1 n) as [[n' r]|].
           ++ destruct IHn as (f2 & fr' & G1 & G2 & G3 & G4). exists f2, fr'. split; [cbn [fsize]; lia|]. split; [exact G2|]. split; [|intros r0 Hr; apply K4; now apply G4].
              rewrite G3, !yieldr_app. cbn [walk app]. f_equal. rewrite <- !app_assoc. reflexivity.
           ++ rewrite !yieldr_app. now apply failedr_yield.
        -- now apply failedr_yield.
Qed.

(** The children of a paragraph. *)
Definition para_plain (f : forest item) : Prop :=
  forall B fuel fr cs st rest o, (need f <= B)%nat -> Forall2 waits (frame fr) cs -> Forall (fits B) (frame fr) ->
  (forall r, In r (frame fr) -> plain (snd r)) -> (2 * fsize f + B <= fuel)%nat ->
  match (match others f with Some q => fill (cs ++ ctls f) q | None => None end) with
  | Some (kk, _) => exists fuel' fr', (fuel - 2 * fsize f <= fuel')%nat /\ inline_loop fuel (fr :: st) (walk f ++ rest) o = yieldr (walk kk) (inline_loop fuel' (fr' :: st) rest o)
  | None => failedr (inline_loop fuel (fr :: st) (walk f ++ rest) o)
  end.

Lemma inline_walk : forall f, everywhere inline_node f -> (no_char f -> plain f) /\ (para_kids f -> para_plain f).
Proof.
  induction f as [|x k IHk n IHn]; intros HE.
  - split.
    + intros _ B fuel st rest o HB HF. cbn [inlined]. exists fuel. split; [lia|]. cbn [walk app]. now rewrite yieldr_nil.
    + intros _ B fuel fr cs st rest o HB HW HFit HP HF. cbn [others ctls converted filter collect fill]. exists fuel, fr. split; [lia|]. cbn [walk app]. now rewrite yieldr_nil.
  - assert (HE' := HE). destruct HE as (E1 & E2 & E3). destruct (IHk E2) as [KA KP]. destruct (IHn E3) as [NA NP]. clear IHk IHn.
    (* a node that is not a control *)
    assert (NODE : is_char x = false -> is_ctl x = false -> (is_para x = true \/ no_char k) -> forall B fuel st rest o,
              (2 * fsize k + 2 + need k <= B)%nat -> (2 * fsize k + 2 + B <= fuel)%nat ->
              match node x k with
              | Some kk => exists fuel', (fuel - (2 * fsize k + 2) <= fuel')%nat /\ inline_loop fuel st (EStart x :: walk k ++ EEnd x :: rest) o = yieldr (EStart x :: walk kk ++ [EEnd x]) (inline_loop fuel' st rest o)
              | None => failedr (inline_loop fuel st (EStart x :: walk k ++ EEnd x :: rest) o)
              end).
    { intros HC HT HP B fuel st rest o HB HF. destruct fuel as [|fuel]; [lia|]. unfold node. destruct (is_para x) eqn:EP.
      - rewrite (step_para_start fuel st _ o x EP). specialize (KP (E1 EP)). rewrite inline_para_eq.
        specialize (KP B fuel None [] st (EEnd x :: rest) o ltac:(lia) (Forall2_nil _) (Forall_nil _) (fun r (Hr : In r []) => match Hr with end) ltac:(lia)).
        destruct (others k) as [k'|]; [|now apply failedr_yield]. cbn [app] in KP. destruct (fill _ _) as [[kk r]|]; [|now apply failedr_yield].
        destruct KP as (f1 & fr' & F1 & F2). destruct f1 as [|f1]; [lia|]. rewrite (step_para_end f1 (fr' :: st) rest o x fr' st EP eq_refl) in F2.
        exists f1. split; [lia|]. eapply trans_yield; [exact F2|]. rewrite !yieldr_app. f_equal.
      - destruct HP as [HP|HP]; [discriminate|]. rewrite (step_other_start fuel st _ o x EP HC HT). specialize (KA HP B fuel st (EEnd x :: rest) o ltac:(lia) ltac:(lia)).
        destruct (inlined k) as [k'|]; [|now apply failedr_yield].
        destruct KA as (f1 & F1 & F2). rewrite F2. destruct f1 as [|f1]; [lia|]. rewrite (step_other_end f1 st rest o x EP HC).
        exists f1. split; [lia|]. rewrite !yieldr_app. f_equal. }
    split.
    + intros (H1 & H2 & H3 & H4) B fuel st rest o HB HF. cbn [need fsize] in HB, HF. rewrite walk_app_cons.
      specialize (NODE H1 H2 H3 B fuel st (walk n ++ rest) o ltac:(lia) ltac:(lia)). rewrite inlined_cons.
      destruct (node x k) as [kk|]; [|exact NODE].
      assert (HN := fun fu FU => NA H4 B fu st rest o ltac:(lia) FU). destruct NODE as (f1 & F1 & F2). rewrite F2. specialize (HN f1 ltac:(lia)).
      destruct (inlined n) as [n'|].
      * destruct HN as (f2 & G1 & G2). rewrite G2. exists f2. split; [cbn [fsize]; lia|]. rewrite yieldr_app. f_equal. cbn [walk app]. rewrite <- app_assoc. reflexivity.
      * now apply failedr_yield.
    + intros HK. assert (HKO := HK). destruct HK as [HL|(H1 & H2 & H3)].
      * intros B fuel fr cs st rest o HB HW HFit HP HF. destruct (inlined_lines _ HL) as (I1 & I2 & I3). rewrite I2, I3. rewrite app_nil_r.
        pose proof (inline_lines _ HL B fuel fr cs st rest o HW HFit HP ltac:(lia)) as H. destruct (fill cs _) as [[kk r]|]; [|exact H].
        destruct H as (f1 & fr' & G1 & _ & G2 & _). exists f1, fr'. now split.
      * intros B fuel fr cs st rest o HB HW HFit HP HF. cbn [need fsize] in HB, HF. rewrite walk_app_cons. rewrite ctls_cons, others_cons. destruct (is_ctl x) eqn:ET.
        -- (* a control: it waits *)
           pose proof (ctl_not_para _ ET) as EP. rewrite EP in H2. destruct H2 as [H2|H2]; [discriminate|].
           destruct fuel as [|fuel]; [lia|]. rewrite (step_control fuel (fr :: st) _ o x k (walk n ++ rest) fr st EP H1 ET eq_refl eq_refl). fold (frame fr).
           unfold node. rewrite EP.
           specialize (NP H3 B fuel (Some (frame fr ++ [(x, k)])) (cs ++ [(x, inlined k)]) st rest o ltac:(lia)). cbn [frame] in NP.
           assert (HW' : Forall2 waits (frame fr ++ [(x, k)]) (cs ++ [(x, inlined k)])) by (apply Forall2_app; [exact HW|constructor; [now repeat split|constructor]]).
           assert (HF' : Forall (fits B) (frame fr ++ [(x, k)])) by (apply Forall_app; split; [exact HFit|constructor; [unfold fits; cbn [snd]; lia|constructor]]).
           assert (HP' : forall r, In r (frame fr ++ [(x, k)]) -> plain (snd r)) by (intros r Hr; apply in_app_or in Hr; destruct Hr as [Hr|[<-|[]]]; [now apply HP|]; cbn [snd]; now apply KA).
           specialize (NP HW' HF' HP' ltac:(lia)). rewrite <- app_assoc in NP. cbn [app] in NP.
           destruct (others n) as [q|]; [|exact NP]. destruct (fill _ _) as [[kk r]|]; [|exact NP]. destruct NP as (f1 & fr' & G1 & G2). exists f1, fr'. split; [cbn [fsize]; lia|exact G2].
        -- assert (NODE' := NODE H1 eq_refl H2 B fuel (fr :: st) (walk n ++ rest) o ltac:(lia) ltac:(lia)). clear NODE.
           destruct (node x k) as [kk|] eqn:EN; [|exact NODE']. destruct NODE' as (f1 & F1 & F2). rewrite F2.
           specialize (NP H3 B f1 fr cs st rest o ltac:(lia) HW HFit HP ltac:(lia)).
           destruct (others n) as [q|]; [|now apply failedr_yield]. cbn [fill]. rewrite (not_char_not_extended x H1).
           assert (NK : noext kk).
           { destruct (inlined_noext _ E2) as [A1 A2]. unfold node in EN. destruct (is_para x) eqn:EP.
             - rewrite inline_para_eq in EN. destruct (others k) as [q'|]; [|discriminate]. destruct (fill (ctls k) q') as [[kk' r]|] eqn:EF; [|discriminate]. injection EN as ->.
               apply fill_makes_noext in EF; [apply EF|]. apply A2. now apply E1.
             - destruct H2 as [H2|H2]; [discriminate|]. now apply A1. }
           rewrite (fill_noext kk _ NK). destruct (fill (cs ++ ctls n) q) as [[n' r]|]; [|now apply failedr_yield].
           destruct NP as (f2 & fr' & G1 & G2). exists f2, fr'. split; [cbn [fsize]; lia|]. rewrite G2, yieldr_app. f_equal. cbn [walk app]. rewrite <- app_assoc. reflexivity.
Qed.

(** With enough controls the pass yields the tree with the controls in place;
    otherwise it fails. *)
Theorem inline_pass : forall f, inline_ok f ->
  match inlined f with
  | Some f' => make_extended_controls_inline (walk f, Finished) = (walk f', Finished)
  | None => exists out e, make_extended_controls_inline (walk f, Finished) = (out, Failed e) /\ (e = AttributeError \/ e = IndexError)
  end.
Proof.
  intros f [H1 H2]. destruct (inline_walk f H2) as [HP _]. specialize (HP H1). unfold make_extended_controls_inline. cbn [fst snd].
  specialize (HP (need f) (S (2 * List.length (walk f) * S (List.length (walk f)))) [] [] Finished).
  rewrite app_nil_r in HP. rewrite walk_length in *. pose proof (need_bound f) as HB.
  assert (HF : (2 * fsize f + need f < S (2 * (2 * fsize f) * S (2 * fsize f)))%nat) by nia.
  specialize (HP ltac:(lia) ltac:(lia)). destruct (inlined f) as [f'|].
  - destruct HP as (fuel' & F1 & F2). rewrite F2. destruct fuel' as [|fuel']; [lia|]. cbn [inline_loop yieldr]. now rewrite app_nil_r.
  - destruct HP as (out & e & st & -> & HE). exists out, e. now split.
Qed.

(** ** A test for the hypothesis *)
Fixpoint no_charb (f : forest item) : bool :=
  match f with
  | FNil => true
  | FCons x k n => negb (is_char x) && negb (is_ctl x) && (is_para x || no_charb k) && no_charb n
  end.
Definition has_attr (key : string) (x : item) : bool := match attr_get key (i_attrs x) with Some _ => true | None => false end.
Definition isnil {A} (f : forest A) : bool := match f with FNil => true | _ => false end.
Fixpoint lines_okb (f : forest item) : bool :=
  match f with
  | FNil => true
  | FCons x k n => negb (is_para x) && negb (is_ctl x) && (negb (is_char x) || (isnil k && has_attr "kind" x)) && lines_okb k && lines_okb n
  end.
Fixpoint para_kidsb (k : forest item) : bool :=
  lines_okb k ||
  match k with
  | FNil => true
  | FCons x kk n => negb (is_char x) && (is_para x || no_charb kk) && para_kidsb n
  end.
Fixpoint everywhereb {A} (P : A -> forest A -> bool) (f : forest A) : bool :=
  match f with FNil => true | FCons x k n => P x k && everywhereb P k && everywhereb P n end.
Definition inline_okb (f : forest item) : bool := no_charb f && everywhereb (fun x k => negb (is_para x) || para_kidsb k) f.

Ltac bools := repeat match goal with
  | H : _ && _ = true |- _ => apply andb_true_iff in H; destruct H
  | H : _ || _ = true |- _ => apply orb_true_iff in H
  | H : negb _ = true |- _ => apply negb_true_iff in H
  end.
Lemma everywhereb_sound : forall A (P : A -> forest A -> Prop) p, (forall x k, p x k = true -> P x k) -> forall f, everywhereb p f = true -> everywhere P f.
Proof. intros A P p HP. induction f as [|x k IHk n IHn]; intros H; [exact I|]. cbn [no_charb no_char lines_okb lines_ok everywhereb everywhere] in *. bools. repeat split; auto. Qed.
Lemma no_charb_sound : forall f, no_charb f = true -> no_char f.
Proof. induction f as [|x k IHk n IHn]; intros H; [exact I|]. cbn [no_charb no_char lines_okb lines_ok everywhereb everywhere] in *. bools. repeat split; auto. destruct H1; auto. Qed.
Lemma lines_okb_sound : forall f, lines_okb f = true -> lines_ok f.
Proof.
  induction f as [|x k IHk n IHn]; intros H; [exact I|]. cbn [no_charb no_char lines_okb lines_ok everywhereb everywhere] in *. bools. repeat split; auto.
  - destruct H2 as [H2|H2]; bools; [congruence|]. now destruct k.
  - destruct H2 as [H2|H2]; bools; [congruence|]. unfold has_attr in *. destruct (attr_get "kind" (i_attrs x)); [eauto|discriminate].
Qed.
Lemma para_kidsb_sound : forall f, para_kidsb f = true -> para_kids f.
Proof.
  induction f as [|x k IHk n IHn]; intros H; [left; exact I|]. cbn [para_kidsb] in H. bools. destruct H as [H|H]; [left; now apply lines_okb_sound|]. bools. right.
  repeat split; auto. destruct H1; auto using no_charb_sound.
Qed.
Theorem inline_okb_sound : forall f, inline_okb f = true -> inline_ok f.
Proof.
  intros f H. unfold inline_okb in H. bools. split; [now apply no_charb_sound|]. revert H0. apply everywhereb_sound. intros x k H0. bools.
  intros HP. destruct H0 as [H0|H0]; bools; [congruence|]. now apply para_kidsb_sound.
Qed.
