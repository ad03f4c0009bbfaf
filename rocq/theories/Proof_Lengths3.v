(** A way to write numbers that is right: fifteen digits. *)
From Coq Require Import ZArith QArith Qabs Qround String List Bool Lia Lqa Qfield.
From Verif Require Import Base Model_Text Model_XmlText Model_Plaintext Model_Html Model_Lengths Spec_Lengths Proof_Html Proof_Lengths.
Import ListNotations.
Open Scope list_scope.
Open Scope Z_scope.

Fixpoint pad (k : nat) (m : Z) : list Z := match k with O => [] | S k' => pad k' (m / 10) ++ [48 + m mod 10] end.
Fixpoint dec_text (k : nat) (n : Z) : list Z :=
  match k with
  | O => fmt_d n
  | S k' => if n mod 10 =? 0 then dec_text k' (n / 10) else fmt_d (n / 10 ^ Z.of_nat k) ++ [46] ++ pad k (n mod 10 ^ Z.of_nat k)
  end.
Fixpoint places (fuel : nat) (x : Q) : nat :=
  match fuel with O => O | S f => if Qle_bool 100000000000000 x then O else S (places f (10 * x)) end.
Definition show15 (x : Q) : list Z :=
  let k := places 19 (Qabs x) in
  let n := Qfloor (Qabs x * inject_Z (10 ^ Z.of_nat k) + (1 # 2)) in
  if Qnum x <? 0 then 45 :: dec_text k n else dec_text k n.

Lemma digits_natural : forall t acc, digits_of acc t = natural acc t.
Proof. induction t as [|c t IH]; intros acc; [reflexivity|]. cbn [digits_of natural]. rewrite IH. replace (10 * acc) with (acc * 10) by lia. reflexivity. Qed.
Lemma digits_fmt : forall n, 0 <= n -> digits_of 0 (fmt_d n) = Some n.
Proof. intros n H. rewrite digits_natural. destruct (fmt_digits n H) as (D & N & E). rewrite number_digits in E by assumption. exact E. Qed.
Lemma digits_app : forall a b acc n, digits_of acc a = Some n -> digits_of acc (a ++ b) = digits_of n b.
Proof.
  induction a as [|c a IH]; intros b acc n H; cbn [digits_of app] in *; [injection H as ->; reflexivity|].
  destruct ((48 <=? c) && (c <=? 57)); [|discriminate]. exact (IH b _ n H).
Qed.
Lemma pad_digits : forall k m, 0 <= m < 10 ^ Z.of_nat k -> digits_of 0 (pad k m) = Some m /\ List.length (pad k m) = k.
Proof.
  induction k as [|k IH]; intros m H; [cbn in *; split; [f_equal; lia|reflexivity]|]. rewrite Nat2Z.inj_succ, Z.pow_succ_r in H by lia. cbn [pad].
  pose proof (Z.div_mod m 10 ltac:(lia)) as E. pose proof (Z.mod_pos_bound m 10 ltac:(lia)) as B.
  destruct (IH (m / 10) ltac:(lia)) as (D & L). split.
  - rewrite (digits_app _ _ _ _ D). cbn [digits_of]. replace ((48 <=? 48 + m mod 10) && (48 + m mod 10 <=? 57)) with true by lia. f_equal. lia.
  - rewrite app_length, L. cbn. lia.
Qed.
Lemma point_digits : forall a b, Forall digit a -> at_point (a ++ 46 :: b) = (a, Some b) /\ at_point a = (a, None).
Proof.
  induction a as [|c a IH]; intros b F; [split; reflexivity|]. inversion F as [|? ? C F']; subst. destruct (IH b F') as (E & E'). cbn [app at_point].
  unfold digit in C. replace (c =? 46) with false by lia. rewrite E, E'. split; reflexivity.
Qed.
Lemma dec_text_reads : forall k n, 0 <= n -> exists c r v, dec_text k n = c :: r /\ digit c /\ unsigned (dec_text k n) = Some v /\ (v == inject_Z n / inject_Z (10 ^ Z.of_nat k))%Q.
Proof.
  induction k as [|k IH]; intros n H; cbn [dec_text].
  - destruct (fmt_digits n H) as (D & N & _). destruct (fmt_d n) as [|c r] eqn:E; [congruence|]. exists c, r, (inject_Z n). split; [reflexivity|]. split; [inversion D; assumption|].
    unfold unsigned. rewrite (proj2 (point_digits _ [] D)). rewrite <- E, digits_fmt by exact H. split; [reflexivity|]. change (inject_Z (10 ^ Z.of_nat 0)) with 1%Q. field.
  - destruct (n mod 10 =? 0) eqn:M.
    + apply Z.eqb_eq in M. pose proof (Z.div_mod n 10 ltac:(lia)) as E. destruct (IH (n / 10) ltac:(apply Z.div_pos; lia)) as (c & r & v & T & D & U & V).
      exists c, r, v. split; [exact T|]. split; [exact D|]. split; [exact U|]. rewrite V. rewrite Nat2Z.inj_succ, Z.pow_succ_r by lia.
      assert (P : 0 < 10 ^ Z.of_nat k) by (apply Z.pow_pos_nonneg; lia). rewrite E at 2. rewrite M, Z.add_0_r, !inject_Z_mult. field.
      change 0%Q with (inject_Z 0). rewrite inject_Z_injective. lia.
    + set (p := 10 ^ Z.of_nat (S k)). assert (P : 0 < p) by (apply Z.pow_pos_nonneg; lia). pose proof (Z.div_mod n p ltac:(lia)) as E. pose proof (Z.mod_pos_bound n p P) as B.
      assert (H' : 0 <= n / p) by (apply Z.div_pos; lia). destruct (fmt_digits (n / p) H') as (D & N & _). destruct (pad_digits (S k) (n mod p) B) as (Dp & Lp).
      destruct (fmt_d (n / p)) as [|c r] eqn:F; [congruence|]. eexists c, _, _. split; [reflexivity|]. split; [inversion D; assumption|].
      unfold unsigned. cbn [app]. rewrite (proj1 (point_digits (c :: r) (pad (S k) (n mod p)) D) : at_point (c :: r ++ 46 :: pad (S k) (n mod p)) = _).
      cbv beta iota. rewrite <- F, digits_fmt, Dp, Lp by exact H'. cbv beta iota. split; [reflexivity|]. fold p. rewrite E at 3. rewrite inject_Z_plus, inject_Z_mult. field.
      change 0%Q with (inject_Z 0). rewrite inject_Z_injective. lia.
Qed.
Lemma decimal_digit : forall c r, digit c -> decimal (c :: r) = unsigned (c :: r).
Proof.
  intros c r D. unfold digit in D. assert (E : c = 48 \/ c = 49 \/ c = 50 \/ c = 51 \/ c = 52 \/ c = 53 \/ c = 54 \/ c = 55 \/ c = 56 \/ c = 57) by lia.
  repeat (destruct E as [->|E]; [reflexivity|]). subst c. reflexivity.
Qed.
Open Scope Q_scope.
Lemma places_enough : forall fuel x, 100000000000000 <= x * inject_Z (10 ^ Z.of_nat fuel) -> 100000000000000 <= x * inject_Z (10 ^ Z.of_nat (places fuel x)).
Proof.
  induction fuel as [|f IH]; intros x H; [exact H|]. cbn [places]. destruct (Qle_bool 100000000000000 x) eqn:E.
  - apply Qle_bool_iff in E. change (inject_Z (10 ^ Z.of_nat 0)) with 1. lra.
  - rewrite Nat2Z.inj_succ, Z.pow_succ_r, inject_Z_mult in H |- * by lia. change (inject_Z 10) with 10 in *.
    specialize (IH (10 * x)). assert (X : 10 * x * inject_Z (10 ^ Z.of_nat f) == x * (10 * inject_Z (10 ^ Z.of_nat f))) by ring. rewrite X in IH. specialize (IH H).
    assert (Y : 10 * x * inject_Z (10 ^ Z.of_nat (places f (10 * x))) == x * (10 * inject_Z (10 ^ Z.of_nat (places f (10 * x))))) by ring. rewrite Y in IH. exact IH.
Qed.
Lemma show15_prints : prints show15.
Proof.
  intros x R. unfold show15. set (k := places 19 (Qabs x)). set (t := inject_Z (10 ^ Z.of_nat k)).
  assert (T : 0 < t) by (unfold t; change 0 with (inject_Z 0); rewrite <- Zlt_Qlt; apply Z.pow_pos_nonneg; lia). pose proof (Qabs_nonneg x) as X0.
  set (n := Qfloor (Qabs x * t + (1 # 2))).
  assert (N : (0 <= n)%Z).
  { assert (L : 0 <= Qabs x * t + (1 # 2)) by nra. apply Qfloor_resp_le in L. exact L. }
  destruct (dec_text_reads k n N) as (c & r & v & E & D & U & V). fold t in V.
  assert (F : Qabs (inject_Z n - Qabs x * t) <= (1 # 2) + 0).
  { apply floor_near. assert (Z1 : Qabs x * t + (1 # 2) - (Qabs x * t + (1 # 2)) == 0) by ring. rewrite Z1. discriminate. }
  assert (B : Qabs (v - Qabs x) <= Qabs x * (1 # 100000000000000)).
  { rewrite V. assert (E1 : inject_Z n / t - Qabs x == (inject_Z n - Qabs x * t) / t) by (field; lra). rewrite E1. unfold Qdiv. rewrite Qabs_Qmult, (Qabs_pos (/ t)) by (apply Qlt_le_weak, Qinv_lt_0_compat; exact T).
    destruct R as [R|[R _]].
    - assert (X1 : Qabs x == 0) by (rewrite R; reflexivity). assert (N0 : n = 0%Z).
      { unfold n. assert (Y : Qabs x * t + (1 # 2) == 1 # 2) by (rewrite X1; ring). rewrite (Qfloor_comp _ _ Y). reflexivity. }
      rewrite N0, X1. assert (Y : Qabs (inject_Z 0 - 0 * t) == 0) by (assert (Y' : inject_Z 0 - 0 * t == 0) by ring; rewrite Y'; reflexivity). rewrite Y. lra.
    - assert (G : 100000000000000 <= Qabs x * t) by (apply places_enough; change (inject_Z (10 ^ Z.of_nat 19)) with (10000000000000000000 # 1); lra).
      apply Qle_trans with ((1 # 2) * / t); [apply Qmult_le_compat_r; [lra|apply Qlt_le_weak, Qinv_lt_0_compat; exact T]|].
      apply Qmult_le_r with t; [exact T|]. assert (Y : (1 # 2) * / t * t == 1 # 2) by (field; lra). rewrite Y. nra. }
  destruct (Qnum x <? 0)%Z eqn:G.
  - apply Z.ltb_lt in G. exists (- v). split; [cbn [decimal]; change (option_map Qopp (unsigned (dec_text k n)) = Some (- v)); rewrite U; reflexivity|].
    assert (A : Qabs x == - x) by (apply Qabs_neg; unfold Qle; cbn; lia). rewrite A in B at 1. assert (Y : - v - x == - (v - - x)) by ring. rewrite Y, Qabs_opp. exact B.
  - apply Z.ltb_ge in G. exists v. split; [rewrite E in U |- *; rewrite decimal_digit by exact D; exact U|].
    assert (A : Qabs x == x) by (apply Qabs_pos; unfold Qle; cbn; lia). rewrite A in B at 1. exact B.
Qed.
