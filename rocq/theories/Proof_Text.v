(** Lemmas about number formatting and joins. *)
From Coq Require Import ZArith List Bool Lia.
From Verif Require Import Base BaseFacts Model_Text.
Import ListNotations.
Open Scope Z_scope.

(** Value of a digit list, most significant first. *)
Definition of_digits (b : Z) (l : list Z) : Z := fold_left (fun a d => a * b + d) l 0.

Lemma fold_digits_acc : forall b l a,
  fold_left (fun a d => a * b + d) l a = a * b ^ zlen l + of_digits b l.
Proof.
  intros b l. unfold of_digits. induction l as [|d l IH]; intros a; cbn [fold_left].
  - cbn. lia.
  - rewrite IH, (IH (0 * b + d)), zlen_cons, Z.pow_add_r, Z.pow_1_r by (pose proof (zlen_nonneg _ l); lia).
    ring.
Qed.

Lemma of_digits_cons : forall b d l, of_digits b (d :: l) = d * b ^ zlen l + of_digits b l.
Proof. intros. unfold of_digits at 1. cbn [fold_left]. rewrite fold_digits_acc. ring. Qed.

Lemma of_digits_app : forall b l1 l2, of_digits b (l1 ++ l2) = of_digits b l1 * b ^ zlen l2 + of_digits b l2.
Proof. intros. unfold of_digits at 1. rewrite fold_left_app, fold_digits_acc. reflexivity. Qed.

Definition is_digit (b d : Z) : Prop := 0 <= d < b.

Lemma log2_div_lt : forall b n, 2 <= b -> b <= n -> Z.log2 (n / b) < Z.log2 n.
Proof.
  intros b n Hb Hn.
  assert (Hq : 0 < n / b) by (apply Z.div_str_pos; lia).
  apply Z.log2_lt_pow2; [lia|].
  apply Z.div_lt_upper_bound; [lia|].
  destruct (Z.log2_spec n) as [_ H]; [lia|].
  rewrite Z.pow_succ_r in H by apply Z.log2_nonneg.
  assert (0 < 2 ^ Z.log2 n) by (apply Z.pow_pos_nonneg; [lia|apply Z.log2_nonneg]).
  nia.
Qed.

Lemma digits_fuel_spec : forall b, 2 <= b -> forall fuel n acc,
  0 <= n -> Z.log2 n < Z.of_nat fuel ->
  exists ds, digits_fuel fuel b n acc = ds ++ acc /\ of_digits b ds = n /\
             Forall (is_digit b) ds /\ ds <> [] /\
             (0 < n -> hd 0 ds <> 0).
Proof.
  intros b Hb. induction fuel as [|k IH]; intros n acc Hn Hf.
  - pose proof (Z.log2_nonneg n). lia.
  - cbn [digits_fuel]. destruct (n <? b) eqn:E.
    + exists [n]. repeat split; try reflexivity.
      * constructor; [unfold is_digit; lia|constructor].
      * discriminate.
      * cbn; lia.
    + assert (Hlt : Z.log2 (n / b) < Z.log2 n) by (apply log2_div_lt; lia).
      assert (Hp : 0 < n / b) by (apply Z.div_str_pos; lia).
      destruct (IH (n / b) (n mod b :: acc)) as (ds & E1 & E2 & E3 & E4 & E5); [lia| |].
      { rewrite Nat2Z.inj_succ in Hf. lia. }
      exists (ds ++ [n mod b]). repeat split.
      * rewrite E1, <- app_assoc. reflexivity.
      * rewrite of_digits_app, E2. unfold of_digits; cbn [fold_left]. change (zlen [n mod b]) with 1.
        rewrite Z.pow_1_r. pose proof (Z.div_mod n b). lia.
      * apply Forall_app; split; [exact E3|]. constructor; [|constructor].
        unfold is_digit. apply Z.mod_pos_bound. lia.
      * destruct ds; discriminate.
      * intros _. destruct ds as [|d ds]; [congruence|]. cbn. apply E5. lia.
Qed.

Lemma digits_spec : forall b n, 2 <= b -> 0 <= n ->
  of_digits b (digits b n) = n /\ Forall (is_digit b) (digits b n) /\ digits b n <> [] /\
  (0 < n -> hd 0 (digits b n) <> 0).
Proof.
  intros b n Hb Hn. unfold digits.
  destruct (digits_fuel_spec b Hb (S (Z.to_nat (Z.log2 n))) n []) as (ds & E1 & E2 & E3 & E4 & E5).
  - lia.
  - pose proof (Z.log2_nonneg n). lia.
  - rewrite E1, app_nil_r. auto.
Qed.

Lemma of_digits_range : forall b l, 2 <= b -> Forall (is_digit b) l -> 0 <= of_digits b l < b ^ zlen l.
Proof.
  intros b l Hb H. induction H as [|d l Hd Hl IH].
  - cbn. lia.
  - rewrite of_digits_cons, zlen_cons, Z.pow_add_r, Z.pow_1_r by (pose proof (zlen_nonneg _ l); lia).
    unfold is_digit in Hd. nia.
Qed.

(** Same length, same value: same digits. *)
Lemma of_digits_inj_len : forall b l1 l2, 2 <= b -> Forall (is_digit b) l1 -> Forall (is_digit b) l2 ->
  zlen l1 = zlen l2 -> of_digits b l1 = of_digits b l2 -> l1 = l2.
Proof.
  intros b l1 l2 Hb H1. revert l2. induction H1 as [|d l Hd Hl IH]; intros l2 H2 HL HE.
  - destruct l2; [reflexivity|]. rewrite zlen_cons, zlen_nil in HL. pose proof (zlen_nonneg _ l2). lia.
  - destruct H2 as [|d2 l2 Hd2 Hl2].
    + rewrite zlen_cons, zlen_nil in HL. pose proof (zlen_nonneg _ l). lia.
    + rewrite !zlen_cons in HL. assert (HL' : zlen l = zlen l2) by lia.
      rewrite !of_digits_cons, HL' in HE.
      pose proof (of_digits_range b l Hb Hl) as R1. pose proof (of_digits_range b l2 Hb Hl2) as R2.
      rewrite HL' in R1. unfold is_digit in *.
      assert (d = d2) by nia. subst d2.
      f_equal. apply IH; auto. lia.
Qed.

Lemma digits_length : forall b n k, 2 <= b -> 0 < k -> 0 <= n < b ^ k -> zlen (digits b n) <= k.
Proof.
  intros b n k Hb Hk Hn. destruct (digits_spec b n Hb) as (E1 & E2 & E3 & E4); [lia|].
  destruct (digits b n) as [|d ds] eqn:E; [congruence|].
  rewrite zlen_cons. destruct (Z_le_gt_dec (1 + zlen ds) k) as [|G]; [assumption|].
  rewrite of_digits_cons in E1.
  pose proof (Forall_inv E2) as Hd. pose proof (Forall_inv_tail E2) as Hds.
  pose proof (of_digits_range b ds Hb Hds) as R.
  assert (b ^ k <= b ^ zlen ds) by (apply Z.pow_le_mono_r; lia).
  assert (0 < n \/ n = 0) as [P|P] by lia.
  - specialize (E4 ltac:(lia)). cbn in E4. unfold is_digit in Hd. nia.
  - rewrite P in E. cbn in E. assert (2 <= b) by lia.
    destruct (0 <? b) eqn:EB; [|lia]. inversion E; subst. rewrite zlen_nil in *. lia.
Qed.

Lemma digits_inj : forall b n m, 2 <= b -> 0 <= n -> 0 <= m -> digits b n = digits b m -> n = m.
Proof.
  intros b n m Hb Hn Hm E.
  destruct (digits_spec b n Hb Hn) as (E1 & _). destruct (digits_spec b m Hb Hm) as (E2 & _).
  congruence.
Qed.

Lemma map_inj : forall A B (f : A -> B) (P : A -> Prop),
  (forall x y, P x -> P y -> f x = f y -> x = y) ->
  forall l1 l2, Forall P l1 -> Forall P l2 -> map f l1 = map f l2 -> l1 = l2.
Proof.
  intros A B f P Hf l1. induction l1 as [|x l1 IH]; intros [|y l2] H1 H2 E; try discriminate; auto.
  cbn in E. inversion E. inversion H1; subst. inversion H2; subst.
  f_equal; auto.
Qed.

Lemma decdigit_range : forall d, is_digit 10 d -> 48 <= decdigit d <= 57.
Proof. unfold is_digit, decdigit. lia. Qed.

Lemma fmt_d_inj : forall n m, fmt_d n = fmt_d m -> n = m.
Proof.
  intros n m. unfold fmt_d.
  assert (HX : forall k, 0 <= k -> Forall (fun c => 48 <= c) (map decdigit (digits 10 k)) /\ map decdigit (digits 10 k) <> []).
  { intros k Hk. destruct (digits_spec 10 k) as (_ & E2 & E3 & _); [lia|lia|].
    split.
    - apply Forall_map. eapply Forall_impl; [|exact E2]. intros d Hd. apply decdigit_range in Hd. lia.
    - destruct (digits 10 k); [congruence|discriminate]. }
  assert (HI : forall a b, 0 <= a -> 0 <= b -> map decdigit (digits 10 a) = map decdigit (digits 10 b) -> a = b).
  { intros a b Ha Hb E. apply (digits_inj 10); try lia.
    eapply (map_inj _ _ decdigit (fun _ => True)); [|apply Forall_forall; auto|apply Forall_forall; auto|exact E].
    unfold decdigit. intros; lia. }
  destruct (n <? 0) eqn:En; destruct (m <? 0) eqn:Em; intros E.
  - inversion E as [E']. apply HI in E'; lia.
  - destruct (HX m) as [F N]; [lia|]. rewrite <- E in F. inversion F; subst. lia.
  - destruct (HX n) as [F N]; [lia|]. rewrite E in F. inversion F; subst. lia.
  - apply HI in E; lia.
Qed.

Lemma zlen_repeat_z : forall c n, zlen (repeat_z c n) = Z.max 0 n.
Proof. intros. unfold repeat_z, zlen. rewrite repeat_length. lia. Qed.

Lemma zlen_zero_pad : forall w l, zlen (zero_pad w l) = Z.max w (zlen l).
Proof. intros. unfold zero_pad. rewrite zlen_app, zlen_repeat_z. lia. Qed.

Lemma hexdigit_lower_0 : hexdigit_lower 0 = 48. Proof. reflexivity. Qed.

Lemma repeat_z_map : forall (f : Z -> Z) c n, repeat_z (f c) n = map f (repeat_z c n).
Proof. intros. unfold repeat_z. induction (Z.to_nat n); cbn; congruence. Qed.

(** A padded number is the digit map of a padded digit list with the same value. *)
Lemma of_digits_zeros : forall b k l, of_digits b (repeat_z 0 k ++ l) = of_digits b l.
Proof.
  intros b k l. unfold repeat_z. induction (Z.to_nat k); cbn [repeat app]; [reflexivity|].
  rewrite of_digits_cons. lia.
Qed.

Lemma zero_digits : forall b k, 2 <= b -> Forall (is_digit b) (repeat_z 0 k).
Proof.
  intros. unfold repeat_z. induction (Z.to_nat k); cbn; constructor; auto. unfold is_digit; lia.
Qed.

Lemma fmt_x_digits : forall w n, 0 <= n ->
  exists ds, fmt_x w n = map hexdigit_lower ds /\ of_digits 16 ds = n /\ Forall (is_digit 16) ds /\
             zlen ds = Z.max w (zlen (digits 16 n)).
Proof.
  intros w n Hn. destruct (digits_spec 16 n) as (E1 & E2 & E3 & _); [lia|lia|].
  exists (repeat_z 0 (w - zlen (digits 16 n)) ++ digits 16 n).
  unfold fmt_x, zero_pad. rewrite zlen_map, map_app, <- (repeat_z_map hexdigit_lower).
  split; [reflexivity|]. split; [now rewrite of_digits_zeros|]. split.
  - apply Forall_app. split; [apply zero_digits; lia|exact E2].
  - rewrite zlen_app, zlen_repeat_z. lia.
Qed.

Lemma join_cons2 : forall A (sep p q : list A) r, join sep (p :: q :: r) = p ++ sep ++ join sep (q :: r).
Proof. reflexivity. Qed.
