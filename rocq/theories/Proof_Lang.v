(** Proofs about language tokenization. *)
From Coq Require Import ZArith String List Bool Lia.
From Verif Require Import Base BaseFacts Model_Lang Spec_Lang.
Import ListNotations.
Open Scope string_scope.
Open Scope list_scope.
Open Scope Z_scope.

Ltac decide_cmp u :=
  repeat match goal with
  | |- context [?a <=? u] => first [replace (a <=? u) with true by (symmetry; apply Z.leb_le; lia) | replace (a <=? u) with false by (symmetry; apply Z.leb_gt; lia)]; cbn [andb]
  | |- context [u <=? ?a] => first [replace (u <=? a) with true by (symmetry; apply Z.leb_le; lia) | replace (u <=? a) with false by (symmetry; apply Z.leb_gt; lia)]; cbn [andb]
  end.

Lemma lang_is_language : forall u, 0 <= u -> get_unichr_lang u = language u.
Proof.
  intros u Hu. unfold get_unichr_lang, language, lang_blocks. cbn [lookup_block].
  Ltac below u b := destruct (Z_lt_ge_dec u b); [decide_cmp u; reflexivity|].
  below u 0x41. below u 0x250. below u 0x1100. below u 0x1200. below u 0x2E80. below u 0x2FE0. below u 0x3000.
  below u 0x3040. below u 0x3100. below u 0x3130. below u 0x3190. below u 0x3400. below u 0x4DC0. below u 0x4E00.
  below u 0xA000. below u 0xA960. below u 0xA980. below u 0xAC00. below u 0xD800. below u 0xF900. below u 0xFB00.
  decide_cmp u. reflexivity.
Qed.

#[local] Opaque language.

Lemma run_pure : forall t buf bl l rest, Forall (fun u => 0 <= u) t ->
  Forall (fun u => neutral u \/ language u = Some l) t -> (bl = None \/ bl = Some l) ->
  tokenize_loop buf bl (t ++ rest) =
  tokenize_loop (rev t ++ buf) (if existsb (fun u => match language u with None => false | Some _ => true end) t then Some l else bl) rest.
Proof.
  unfold neutral. induction t as [|u t IH]; intros buf bl l rest HP HL HB; [reflexivity|].
  inversion HP as [|? ? HP1 HP2]; subst. inversion HL as [|? ? HL1 HL2]; subst.
  cbn [app tokenize_loop rev existsb]. rewrite lang_is_language by assumption. rewrite <- app_assoc. cbn [app].
  destruct HL1 as [HL1|HL1]; rewrite HL1; cbn [orb].
  - now apply IH.
  - destruct HB as [->| ->].
    + rewrite (IH _ _ l) by auto. destruct (existsb _ t); reflexivity.
    + rewrite String.eqb_refl. rewrite (IH _ _ l) by auto. destruct (existsb _ t); reflexivity.
Qed.

Lemma rest_tokens : forall rest l buf, Forall (fun u => 0 <= u) (concat (map snd rest)) ->
  Forall token_headed rest -> Forall token_pure rest -> langs_alternate ((l, rev buf) :: rest) -> buf <> [] ->
  tokenize_loop buf (Some l) (concat (map snd rest)) = (l, rev buf) :: rest.
Proof.
  induction rest as [|[l2 t2] rest IH]; intros l buf HP HH HPu HA Hb.
  - cbn. destruct buf; [congruence|reflexivity].
  - inversion HH as [|? ? H1 H2]; subst. inversion HPu as [|? ? P1 P2]; subst.
    destruct H1 as (u & t & E & HL). cbn [fst snd] in *. subst t2. cbn [map concat snd app] in *.
    inversion HP as [|? ? HP1 HP2]; subst. apply Forall_app in HP2. destruct HP2 as [HP2 HP3].
    inversion P1 as [|? ? _ P1']; subst. cbn [fst snd] in P1'.
    destruct HA as [HA1 HA2]. cbn [fst] in HA1.
    cbn [tokenize_loop]. rewrite lang_is_language, HL by assumption.
    destruct (String.eqb l l2) eqn:EQ; [apply String.eqb_eq in EQ; congruence|]. f_equal.
    rewrite (run_pure t [u] (Some l2) l2) by auto.
    replace (if existsb _ t then Some l2 else Some l2) with (Some l2) by (destruct (existsb _ t); reflexivity).
    assert (ER : rev (rev t ++ [u]) = u :: t) by (rewrite rev_app_distr, rev_involutive; reflexivity).
    rewrite IH; auto.
    + now rewrite ER.
    + destruct (rev t); discriminate.
Qed.

Lemma existsb_nonneutral : forall t, existsb (fun u => match language u with None => false | Some _ => true end) t = true <-> Exists (fun u => ~ neutral u) t.
Proof.
  unfold neutral. intros t. rewrite existsb_exists, Exists_exists. split; intros (u & Hu & H); exists u; (split; [exact Hu|]); destruct (language u); congruence.
Qed.

Theorem tokens_determined : forall text toks, Forall (fun u => 0 <= u) text -> tokens_of text toks ->
  tokenize_unicode_by_lang text = toks.
Proof.
  intros text toks HP (E & HPu & HA & HM). unfold tokenize_unicode_by_lang. subst text.
  destruct toks as [|[l t] rest]; [reflexivity|]. destruct HM as ((HN & HF) & HH & HX).
  cbn [map concat snd fst] in *. inversion HPu as [|? ? P1 P2]; subst. apply Forall_app in HP. destruct HP as [HP1 HP2].
  rewrite (run_pure t [] None l) by auto. rewrite app_nil_r.
  destruct (existsb _ t) eqn:EX.
  - rewrite rest_tokens; auto; rewrite ?rev_involutive; auto.
    intros HR. apply HN. rewrite <- (rev_involutive t), HR. reflexivity.
  - assert (NE : ~ Exists (fun u => ~ neutral u) t) by (rewrite <- existsb_nonneutral; congruence).
    destruct rest as [|r rest]; [|exfalso; apply NE, HX; discriminate].
    destruct HF as [HF|[-> HF]].
    { exfalso. apply NE. eapply Exists_impl; [|exact HF]. unfold neutral. cbn. intros; congruence. }
    cbn [concat map tokenize_loop]. destruct (rev t) as [|x y] eqn:ER.
    + exfalso. apply HN. rewrite <- (rev_involutive t), ER. reflexivity.
    + rewrite <- ER, rev_involutive. reflexivity.
Qed.

(** What the loop yields is a tokenization. *)
Definition buf_ok (buf : list Z) (bl : option string) : Prop :=
  match bl with
  | None => Forall neutral buf
  | Some l => Forall (fun u => neutral u \/ language u = Some l) buf /\ Exists (fun u => language u = Some l) buf
  end.

Lemma tokenize_loop_ok : forall text buf bl, Forall (fun u => 0 <= u) text -> buf_ok buf bl ->
  let toks := tokenize_loop buf bl text in
  concat (map snd toks) = rev buf ++ text /\ Forall token_pure toks /\ langs_alternate toks /\
  match toks with
  | [] => buf = [] /\ text = []
  | (l0, t0) :: rest =>
      (exists t1, t0 = rev buf ++ t1) /\ (forall l, bl = Some l -> l0 = l) /\ first_token (l0, t0) /\
      Forall token_headed rest /\ (rest <> [] -> Exists (fun u => ~ neutral u) t0)
  end.
Proof.
  induction text as [|u text IH]; intros buf bl HP HB; cbv zeta; cbn [tokenize_loop].
  - destruct buf as [|b buf].
    + cbn. repeat split; constructor.
    + set (B := b :: buf) in *. assert (NB : rev B <> []) by (unfold B; cbn; destruct (rev buf); discriminate).
      clearbody B.
      rewrite !app_nil_r. cbn [map concat snd]. rewrite app_nil_r. split; [reflexivity|].
      split; [|split; [exact I|]].
      * constructor; [|constructor]. unfold token_pure. cbn [fst snd]. apply Forall_rev.
        destruct bl as [l|]; cbn [buf_ok lang_or_ko] in HB |- *; [apply HB|]. eapply Forall_impl; [|exact HB]. auto.
      * split; [exists []; now rewrite app_nil_r|]. split; [intros l ->; reflexivity|].
        split; [|split; [constructor|congruence]]. split; [exact NB|]. cbn [fst snd].
        destruct bl as [l|]; cbn [buf_ok lang_or_ko] in HB |- *.
        -- left. destruct HB as [_ HB]. apply Exists_exists in HB. destruct HB as (x & Hx & Hl).
           apply Exists_exists. exists x. split; [|exact Hl]. now rewrite <- in_rev.
        -- right. split; [reflexivity|]. now apply Forall_rev.
  - inversion HP as [|? ? HP1 HP2]; subst. rewrite lang_is_language by assumption.
    assert (KEEP : forall bl', buf_ok (u :: buf) bl' -> (bl = bl' \/ bl = None) ->
       let toks := tokenize_loop (u :: buf) bl' text in
       concat (map snd toks) = rev buf ++ u :: text /\ Forall token_pure toks /\ langs_alternate toks /\
       match toks with
       | [] => buf = [] /\ u :: text = []
       | (l0, t0) :: rest =>
         (exists t1, t0 = rev buf ++ t1) /\ (forall l, bl = Some l -> l0 = l) /\ first_token (l0, t0) /\
         Forall token_headed rest /\ (rest <> [] -> Exists (fun u => ~ neutral u) t0)
       end).
    { intros bl' HB' HE. destruct (IH (u :: buf) bl' HP2 HB') as (I1 & I2 & I3 & I4). cbv zeta.
      split; [rewrite I1; cbn [rev]; now rewrite <- app_assoc|]. split; [exact I2|]. split; [exact I3|].
      destruct (tokenize_loop (u :: buf) bl' text) as [|[l0 t0] rest]; [destruct I4; discriminate|].
      destruct I4 as ((t1 & Et) & J2 & J3 & J4 & J5). split; [|split; [|auto]].
      - exists (u :: t1). rewrite Et. cbn [rev]. now rewrite <- app_assoc.
      - intros l Hl. destruct HE as [HE|HE]; [|congruence]. apply J2. congruence. }
    destruct (language u) as [lang|] eqn:EL.
    + destruct bl as [bl|].
      * destruct (String.eqb bl lang) eqn:EQ.
        -- apply String.eqb_eq in EQ. subst bl. apply KEEP; [|auto]. destruct HB as [HB1 HB2]. split; [constructor; auto|now constructor 2].
        -- apply String.eqb_neq in EQ. destruct HB as [HB1 HB2].
           destruct (IH [u] (Some lang) HP2) as (I1 & I2 & I3 & I4); [split; [constructor; [auto|constructor]|constructor; assumption]|].
           cbv zeta in *. cbn [map concat snd]. split; [rewrite I1; reflexivity|].
           split; [constructor; [unfold token_pure; cbn; now apply Forall_rev|exact I2]|].
           destruct (tokenize_loop [u] (Some lang) text) as [|[l0 t0] rest]; [destruct I4; discriminate|].
           destruct I4 as ((t1 & Et) & J2 & J3 & J4 & J5). specialize (J2 lang eq_refl). subst l0.
           assert (HXr : Exists (fun u => language u = Some bl) (rev buf)).
           { apply Exists_exists in HB2. destruct HB2 as (x & Hx & Hl). apply Exists_exists. exists x. split; [|exact Hl]. now rewrite <- in_rev. }
           split; [split; [exact EQ|exact I3]|].
           split; [exists []; now rewrite app_nil_r|]. split; [intros l Hl; congruence|].
           split; [|split].
           ++ split; [|left; exact HXr]. cbn. intros HN. rewrite HN in HXr. inversion HXr.
           ++ constructor; [|exact J4]. exists u, t1. split; [exact Et|exact EL].
           ++ intros _. eapply Exists_impl; [|exact HXr]. unfold neutral. cbn. intros; congruence.
      * apply KEEP; [|auto]. cbn in HB. split; [|constructor; assumption]. constructor; [auto|]. eapply Forall_impl; [|exact HB]. auto.
    + apply KEEP; [|auto]. destruct bl as [bl|]; cbn [buf_ok lang_or_ko] in HB |- *.
      * destruct HB as [HB1 HB2]. split; [constructor; auto|now constructor 2].
      * constructor; auto.
Qed.

Theorem tokenize_tokens : forall text, Forall (fun u => 0 <= u) text -> tokens_of text (tokenize_unicode_by_lang text).
Proof.
  intros text HP. unfold tokenize_unicode_by_lang.
  destruct (tokenize_loop_ok text [] None HP (Forall_nil _)) as (I1 & I2 & I3 & I4). cbv zeta in *.
  split; [exact I1|]. split; [exact I2|]. split; [exact I3|].
  destruct (tokenize_loop [] None text) as [|[l0 t0] rest]; [exact I|]. tauto.
Qed.
