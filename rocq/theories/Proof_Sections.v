(** Proofs about section numbers. *)
From Coq Require Import ZArith String List Bool Lia Sorted Permutation.
From Verif Require Import Base BaseFacts Model_Text Model_Storage Model_Filestructure Spec_Filestructure Proof_Filestructure.
Import ListNotations.
Open Scope string_scope.
Open Scope list_scope.
Open Scope Z_scope.

Lemma blank_space : forall c, is_space c = true <-> blank c.
Proof. intros c. unfold is_space, blank. rewrite orb_true_iff, !andb_true_iff, !Z.leb_le. lia. Qed.
Lemma skip_spaces_split : forall l, exists b, l = b ++ skip_spaces l /\ Forall blank b.
Proof.
  induction l as [|c r (b & E & H)]; [exists []; split; [reflexivity|constructor]|]. cbn [skip_spaces]. destruct (is_space c) eqn:ES.
  - exists (c :: b). split; [cbn; now f_equal|]. constructor; [now apply blank_space|exact H].
  - exists []. split; [reflexivity|constructor].
Qed.
Lemma skip_spaces_app : forall b l, Forall blank b -> skip_spaces (b ++ l) = skip_spaces l.
Proof. intros b l H. induction H as [|c b Hc Hb IH]; [reflexivity|]. cbn [app skip_spaces]. apply blank_space in Hc. rewrite Hc. exact IH. Qed.
Lemma skip_spaces_id : forall c l, ~ blank c -> skip_spaces (c :: l) = c :: l.
Proof. intros c l H. cbn [skip_spaces]. destruct (is_space c) eqn:E; [apply blank_space in E; contradiction|reflexivity]. Qed.

Lemma strip_core : forall b c l d a, Forall blank b -> Forall blank a -> ~ blank c -> ~ blank d ->
  c :: l = removelast (c :: l) ++ [d] -> strip (b ++ (c :: l) ++ a) = c :: l.
Proof.
  intros b c l d a Hb Ha Hc Hd E. unfold strip. rewrite skip_spaces_app by assumption. cbn [app]. rewrite skip_spaces_id by assumption.
  change (c :: l ++ a) with ((c :: l) ++ a). rewrite rev_app_distr, skip_spaces_app by now apply Forall_rev.
  rewrite E, rev_app_distr. cbn [rev app]. rewrite skip_spaces_id by assumption. cbn [rev]. rewrite rev_involutive. reflexivity.
Qed.
Lemma strip_split : forall l, exists b a, l = b ++ strip l ++ a /\ Forall blank b /\ Forall blank a.
Proof.
  intros l. destruct (skip_spaces_split l) as (b & E & Hb). destruct (skip_spaces_split (rev (skip_spaces l))) as (a & E2 & Ha).
  exists b, (rev a). split; [|split; [exact Hb|now apply Forall_rev]]. rewrite E at 1. f_equal. unfold strip.
  rewrite <- (rev_involutive (skip_spaces l)) at 1. rewrite E2 at 1. rewrite rev_app_distr. reflexivity.
Qed.

Lemma int_digits_digit : forall b acc d r, 0 <= d <= 9 -> int_digits b acc (48 + d :: r) = int_digits true (10 * acc + d) r.
Proof.
  intros b acc d r Hd. cbn [int_digits]. unfold is_decdigit. destruct ((48 <=? 48 + d) && (48 + d <=? 57)) eqn:E; [|lia].
  f_equal. lia.
Qed.
Lemma int_digits_complete : forall l n, digits_value l n -> forall r, int_digits false 0 (l ++ r) = int_digits true n r.
Proof.
  intros l n H. induction H as [d Hd|l n d H IH Hd|l n d H IH Hd]; intros r.
  - cbn [app]. rewrite int_digits_digit by assumption. f_equal; lia.
  - rewrite <- app_assoc, IH. cbn [app]. apply int_digits_digit. assumption.
  - rewrite <- app_assoc, IH. cbn [app int_digits]. change (is_decdigit 95) with false. cbn [andb Z.eqb Pos.eqb]. apply int_digits_digit. assumption.
Qed.
Lemma int_digits_sound : forall l p n v, digits_value p n ->
  (int_digits true n l = Some v -> digits_value (p ++ l) v) /\ (int_digits false n l = Some v -> digits_value (p ++ 95 :: l) v).
Proof.
  induction l as [|c r IH]; intros p n v HP; cbn [int_digits].
  - split; [intros H; injection H as <-; now rewrite app_nil_r|discriminate].
  - destruct (is_decdigit c) eqn:E.
    + unfold is_decdigit in E. assert (Hc : 0 <= c - 48 <= 9) by lia.
      split; intros H.
      * replace (p ++ c :: r) with ((p ++ [48 + (c - 48)]) ++ r) by (rewrite <- app_assoc; cbn; do 2 f_equal; lia).
        apply (IH (p ++ [48 + (c - 48)]) (10 * n + (c - 48))); [now constructor|]. rewrite <- H. f_equal. lia.
      * replace (p ++ 95 :: c :: r) with ((p ++ [95; 48 + (c - 48)]) ++ r) by (rewrite <- app_assoc; cbn; do 3 f_equal; lia).
        apply (IH (p ++ [95; 48 + (c - 48)]) (10 * n + (c - 48))); [now constructor|]. rewrite <- H. f_equal. lia.
    + split; intros H.
      * destruct (c =? 95) eqn:E2; cbn [andb] in H; [|discriminate]. apply Z.eqb_eq in E2. subst c. apply (IH p n); [assumption|exact H].
      * rewrite andb_false_r in H. discriminate.
Qed.
Lemma int_digits_iff : forall l n, int_digits false 0 l = Some n <-> digits_value l n.
Proof.
  intros l n. split.
  - destruct l as [|c r]; [discriminate|]. cbn [int_digits]. destruct (is_decdigit c) eqn:E.
    + unfold is_decdigit in E. intros H. change (c :: r) with ([c] ++ r). replace [c] with [48 + (c - 48)] by (f_equal; lia).
      apply (int_digits_sound r [48 + (c - 48)] (c - 48)); [constructor; lia|]. rewrite <- H. f_equal.
    + rewrite andb_false_r. discriminate.
  - intros H. rewrite <- (app_nil_r l). rewrite (int_digits_complete l n H []). reflexivity.
Qed.

Definition unsigned_first (l : list Z) : Prop := match l with c :: _ => c <> 43 /\ c <> 45 | [] => True end.
Lemma signed_int_unsigned : forall l, unsigned_first l -> signed_int l = int_digits false 0 l.
Proof.
  intros [|c r] H; [reflexivity|]. cbn in H. destruct H as (H1 & H2). unfold signed_int.
  destruct c as [|p|p]; try reflexivity. do 6 (destruct p as [p|p|]; try reflexivity). all: congruence.
Qed.
Lemma py_int_signed : forall l, py_int l = signed_int (strip l).
Proof. reflexivity. Qed.
Lemma digits_value_ends : forall l n, digits_value l n -> exists c r, l = c :: r /\ 48 <= c <= 57 /\ 48 <= last l 0 <= 57.
Proof.
  intros l n H. induction H as [d Hd|l n d H (c & r & -> & Hc & HL) Hd|l n d H (c & r & -> & Hc & HL) Hd].
  - exists (48 + d), []. cbn. split; [reflexivity|]. lia.
  - exists c, (r ++ [48 + d]). split; [reflexivity|]. split; [exact Hc|]. rewrite last_last. lia.
  - exists c, (r ++ [95; 48 + d]). split; [reflexivity|]. split; [exact Hc|].
    replace ((c :: r) ++ [95; 48 + d]) with (((c :: r) ++ [95]) ++ [48 + d]) by (rewrite <- app_assoc; reflexivity). rewrite last_last. lia.
Qed.
Lemma last_split : forall (c : Z) l, c :: l = removelast (c :: l) ++ [last (c :: l) 0].
Proof. intros c l. apply app_removelast_last. discriminate. Qed.

Theorem py_int_iff : forall l v, py_int l = Some v <-> int_text l v.
Proof.
  intros l v. rewrite py_int_signed. split.
  - destruct (strip_split l) as (b & a & E & Hb & Ha). remember (strip l) as s eqn:ES. clear ES. subst l. intros H.
    destruct (Z.eq_dec (hd 0 s) 43) as [H43|H43]; [|destruct (Z.eq_dec (hd 0 s) 45) as [H45|H45]].
    + destruct s as [|c s]; [discriminate|]. cbn in H43. subst c. cbn [signed_int] in H.
      apply int_digits_iff in H. apply (it_intro b [43] s v a v); auto.
    + destruct s as [|c s]; [discriminate|]. cbn in H45. subst c. cbn [signed_int] in H.
      destruct (int_digits false 0 s) as [n|] eqn:E; [|discriminate]. injection H as <-. apply int_digits_iff in E.
      apply (it_intro b [45] s n a (- n)); auto.
    + rewrite signed_int_unsigned in H by (destruct s; cbn; auto). apply int_digits_iff in H. apply (it_intro b [] s v a v); auto.
  - intros H. destruct H as [b sign l n a v Hb Ha HD HS]. destruct (digits_value_ends l n HD) as (c & r & E & Hc & HL).
    assert (NB : forall x, 43 <= x <= 57 -> ~ blank x) by (intros x Hx [?|?]; lia).
    assert (HP : strip (b ++ sign ++ l ++ a) = sign ++ l).
    { destruct HS as [(-> & _)|[(-> & _)|(-> & _)]]; cbn [app].
      - rewrite E in *. apply (strip_core b c r (last (c :: r) 0) a Hb Ha); [apply NB; lia|apply NB; lia|apply last_split].
      - change (43 :: l ++ a) with ((43 :: l) ++ a). apply (strip_core b 43 l (last (43 :: l) 0) a Hb Ha); [apply NB; lia| |apply last_split].
        rewrite E in *. cbn [last]. apply NB. cbn [last] in HL. lia.
      - change (45 :: l ++ a) with ((45 :: l) ++ a). apply (strip_core b 45 l (last (45 :: l) 0) a Hb Ha); [apply NB; lia| |apply last_split].
        rewrite E in *. cbn [last]. apply NB. cbn [last] in HL. lia. }
    rewrite HP. apply int_digits_iff in HD. destruct HS as [(-> & ->)|[(-> & ->)|(-> & ->)]]; cbn [app].
    + rewrite signed_int_unsigned; [exact HD|]. rewrite E. cbn. lia.
    + exact HD.
    + cbn [signed_int]. rewrite HD. reflexivity.
Qed.

Lemma starts_with_iff : forall p l r, starts_with p l = Some r <-> l = p ++ r.
Proof.
  induction p as [|a p IH]; intros l r; cbn [starts_with app].
  - split; [intros H; injection H as <-; reflexivity|intros ->; reflexivity].
  - destruct l as [|b l]; [split; discriminate|]. destruct (a =? b) eqn:E.
    + apply Z.eqb_eq in E. subst b. rewrite IH. split; [intros ->; reflexivity|intros H; injection H as <-; reflexivity].
    + split; [discriminate|]. intros H. injection H as H1 H2. lia.
Qed.
Lemma section_index_iff : forall n i, section_index n = Some i <-> exists t, n = zs "Section" ++ t /\ int_text t i.
Proof.
  intros n i. unfold section_index. split.
  - destruct (starts_with (zs "Section") n) as [r|] eqn:E; [|discriminate]. intros H. exists r. split; [now apply starts_with_iff|now apply py_int_iff].
  - intros (t & E & H). apply starts_with_iff in E. rewrite E. now apply py_int_iff.
Qed.

Definition parsed (names : list name) : list Z := flat_map (fun n => match section_index n with Some i => [i] | None => [] end) names.
Lemma parsed_numbers : forall names, section_numbers names (parsed names).
Proof.
  induction names as [|n r IH]; [constructor|]. unfold parsed. cbn [flat_map]. fold (parsed r). destruct (section_index n) as [i|] eqn:E.
  - apply section_index_iff in E. destruct E as (t & -> & H). now constructor.
  - constructor; [|exact IH]. intros t i H He. assert (section_index n = Some i) by (apply section_index_iff; eauto). congruence.
Qed.
Lemma section_numbers_parsed : forall names l, section_numbers names l -> l = parsed names.
Proof.
  intros names l H. induction H as [|t i r l Ht H IH|n r l Hn H IH]; [reflexivity| |].
  - unfold parsed. cbn [flat_map]. replace (section_index (zs "Section" ++ t)) with (Some i) by (symmetry; apply section_index_iff; eauto). cbn. now f_equal.
  - unfold parsed. cbn [flat_map]. destruct (section_index n) as [i|] eqn:E; [|exact IH].
    apply section_index_iff in E. destruct E as (t & E & Ht). exfalso. exact (Hn t i Ht E).
Qed.

(** ** Sorting *)
Lemma insert_int_perm : forall x l, Permutation (x :: l) (insert_int x l).
Proof.
  intros x l. induction l as [|y r IH]; [reflexivity|]. cbn [insert_int]. destruct (x <? y); [reflexivity|].
  transitivity (y :: x :: r); [constructor|]. now constructor.
Qed.
Lemma insert_int_sorted : forall x l, StronglySorted Z.le l -> StronglySorted Z.le (insert_int x l).
Proof.
  intros x l H. induction H as [|y r H IH HF]; [constructor; constructor|]. cbn [insert_int]. destruct (x <? y) eqn:E.
  - constructor; [constructor; assumption|]. constructor; [lia|]. eapply Forall_impl; [|exact HF]. cbn; intros; lia.
  - constructor; [exact IH|]. apply (Permutation_Forall (insert_int_perm x r)). constructor; [lia|exact HF].
Qed.
Lemma sort_ints_spec : forall l, Permutation l (sort_ints l) /\ StronglySorted Z.le (sort_ints l).
Proof.
  intros l. unfold sort_ints.
  assert (G : forall l acc, StronglySorted Z.le acc -> Permutation (l ++ acc) (fold_left (fun acc x => insert_int x acc) l acc) /\
                StronglySorted Z.le (fold_left (fun acc x => insert_int x acc) l acc)).
  { clear l. induction l as [|x l IH]; intros acc HA; [split; [reflexivity|exact HA]|]. cbn [fold_left app].
    destruct (IH (insert_int x acc) (insert_int_sorted x acc HA)) as (P & S). split; [|exact S].
    rewrite <- P. rewrite <- insert_int_perm. apply Permutation_middle. }
  destruct (G l [] (SSorted_nil _)) as (P & S). rewrite app_nil_r in P. auto.
Qed.
Lemma strict : forall l, StronglySorted Z.le l -> NoDup l -> StronglySorted Z.lt l.
Proof.
  intros l H. induction H as [|x l H IH HF]; intros HN; [constructor|]. inversion HN as [|? ? HX HN']; subst. constructor; [auto|].
  rewrite Forall_forall in *. intros y Hy. specialize (HF y Hy). assert (x <> y) by (intros ->; contradiction). lia.
Qed.

Theorem sections_sorted : forall x names, iter x = (names, Finished) ->
  exists numbers l, section_numbers names numbers /\ section_indexes x = Ok l /\ Permutation numbers l /\ StronglySorted Z.le l.
Proof.
  intros x names H. exists (parsed names), (sort_ints (parsed names)). split; [apply parsed_numbers|].
  split; [unfold section_indexes; rewrite H; reflexivity|]. apply sort_ints_spec.
Qed.

Lemma numeral_int_text : forall t i, numeral t i -> int_text t i.
Proof.
  intros t i H. assert (D : digits_value t i) by (induction H; [now constructor|now constructor]).
  rewrite <- (app_nil_r t). change (t ++ []) with ([] ++ [] ++ t ++ []). apply (it_intro [] [] t i [] i); auto.
Qed.
Lemma numeral_unique : forall t u i, numeral t i -> numeral u i -> t = u.
Proof. intros t u i H1 H2. rewrite <- (numeral_fmt t i H1). now apply numeral_fmt. Qed.
Lemma int_text_value : forall t i j, int_text t i -> int_text t j -> i = j.
Proof. intros t i j H1 H2. apply py_int_iff in H1, H2. congruence. Qed.

Definition tidy (n : name) : Prop := (exists t i, numeral t i /\ n = zs "Section" ++ t) \/ (forall t i, int_text t i -> n <> zs "Section" ++ t).

Lemma parsed_tidy : forall names, Forall tidy names -> forall i, In i (parsed names) <-> exists t, numeral t i /\ In (zs "Section" ++ t) names.
Proof.
  intros names H i. unfold parsed. rewrite in_flat_map. split.
  - intros (n & Hn & Hi). destruct (section_index n) as [j|] eqn:E; [|contradiction]. destruct Hi as [->|[]].
    rewrite Forall_forall in H. destruct (H n Hn) as [(t & k & HT & ->)|HX].
    + assert (section_index (zs "Section" ++ t) = Some k) by (apply section_index_iff; eauto using numeral_int_text).
      assert (k = i) by congruence. subst k. eauto.
    + apply section_index_iff in E. destruct E as (t & E & HT). exfalso. exact (HX t i HT E).
  - intros (t & HT & HI). exists (zs "Section" ++ t). split; [exact HI|].
    replace (section_index (zs "Section" ++ t)) with (Some i) by (symmetry; apply section_index_iff; eauto using numeral_int_text). now left.
Qed.
Lemma parsed_nodup : forall names, Forall tidy names -> NoDup names -> NoDup (parsed names).
Proof.
  intros names H HN. induction HN as [|n r HX HN IH]; [constructor|]. inversion H as [|? ? HT HR]; subst.
  unfold parsed. cbn [flat_map]. fold (parsed r). destruct (section_index n) as [i|] eqn:E; [|auto]. cbn [app]. constructor; [|auto].
  intros HI. apply (parsed_tidy r HR) in HI. destruct HI as (t & Ht & HI).
  destruct HT as [(u & k & Hu & ->)|HX2].
  - assert (section_index (zs "Section" ++ u) = Some k) by (apply section_index_iff; eauto using numeral_int_text).
    assert (k = i) by congruence. subst k. rewrite (numeral_unique u t i Hu Ht) in HX. contradiction.
  - apply section_index_iff in E. destruct E as (u & E & Hu). exact (HX2 u i Hu E).
Qed.

Theorem canonical_sections : forall x names, iter x = (names, Finished) -> NoDup names -> Forall tidy names ->
  exists l, section_indexes x = Ok l /\ StronglySorted Z.lt l /\
    (forall i, In i l <-> exists t, numeral t i /\ In (zs "Section" ++ t) names).
Proof.
  intros x names HI HN HT. exists (sort_ints (parsed names)). split; [unfold section_indexes; rewrite HI; reflexivity|].
  destruct (sort_ints_spec (parsed names)) as (P & S). split.
  - apply strict; [exact S|]. apply (Permutation_NoDup P). now apply parsed_nodup.
  - intros i. rewrite <- (parsed_tidy names HT i). split; apply Permutation_in; [now apply Permutation_sym|exact P].
Qed.
Theorem canonical_openable : forall x names, iter x = (names, Finished) -> NoDup names -> Forall tidy names ->
  (forall n, In n names -> exists y, get x n = Ok y) ->
  exists l ys, section_indexes x = Ok l /\ all_sections x = Ok ys /\
    Forall2 (fun i y => exists t, numeral t i /\ In (zs "Section" ++ t) names /\ get x (zs "Section" ++ t) = Ok y) l ys.
Proof.
  intros x names HI HN HT HG. destruct (canonical_sections x names HI HN HT) as (l & E & S & HL). exists l.
  assert (G : forall k, (forall i, In i k -> In i l) -> exists ys, all_ok (map (section x) k) = Ok ys /\
     Forall2 (fun i y => exists t, numeral t i /\ In (zs "Section" ++ t) names /\ get x (zs "Section" ++ t) = Ok y) k ys).
  { induction k as [|i k IH]; intros Hk; [exists []; split; [reflexivity|constructor]|].
    destruct (IH (fun j Hj => Hk j (or_intror Hj))) as (ys & E2 & F). destruct (HL i) as (HL1 & _). destruct (HL1 (Hk i (or_introl eq_refl))) as (t & Ht & Hn).
    destruct (HG _ Hn) as (y & Hy). exists (y :: ys). split.
    - cbn [map all_ok]. unfold section at 1. rewrite (numeral_fmt t i Ht), Hy. cbn [bind]. rewrite E2. reflexivity.
    - constructor; [|exact F]. eauto. }
  destruct (G l (fun i H => H)) as (ys & E2 & F). exists ys. split; [exact E|]. split; [|exact F]. unfold all_sections. rewrite E. exact E2.
Qed.
