(** Errors of floating point numbers in the lengths of Model_Lengths. *)
From Coq Require Import ZArith QArith Qabs Qround String List Bool Lia Lqa Qfield.
From Verif Require Import Base Model_Text Model_XmlText Model_Plaintext Model_Html Model_Lengths Spec_Lengths Proof_Html.
Import ListNotations.
Open Scope Z_scope.

(** ** Rounding to 53 bits *)

Lemma half_even_near : forall n d, 0 < d -> - d <= 2 * (half_even n d * d - n) <= d.
Proof.
  intros n d D. unfold half_even. pose proof (Z.div_mod n d ltac:(lia)) as E. pose proof (Z.mod_pos_bound n d D) as B.
  destruct (2 * (n mod d) <? d) eqn:A; [apply Z.ltb_lt in A; nia|]. apply Z.ltb_ge in A.
  destruct (d <? 2 * (n mod d)) eqn:A'; [apply Z.ltb_lt in A'; nia|]. apply Z.ltb_ge in A'.
  destruct (Z.even (n / d)); nia.
Qed.
Lemma pow_pos : forall e, 0 <= e -> 0 < 2 ^ e.
Proof. intros e H. apply Z.pow_pos_nonneg; lia. Qed.
Lemma shift : forall e k, Z.abs e <= k -> 2 ^ Z.max 0 e * 2 ^ k = 2 ^ Z.max 0 (- e) * 2 ^ (k + e).
Proof. intros e k H. rewrite <- (Z.pow_add_r 2 (Z.max 0 e) k), <- (Z.pow_add_r 2 (Z.max 0 (- e)) (k + e)) by lia. f_equal. lia. Qed.
Lemma scaled_le : forall a d e c k, Z.abs e <= k -> 0 <= c ->
  (c * d * 2 ^ Z.max 0 e <= a * 2 ^ Z.max 0 (- e) <-> c * d * 2 ^ (k + e) <= a * 2 ^ k).
Proof.
  intros a d e c k H C. pose proof (shift e k H) as E. pose proof (pow_pos (Z.max 0 (- e)) ltac:(lia)) as T. pose proof (pow_pos k ltac:(lia)) as K.
  set (s := 2 ^ Z.max 0 e) in *. set (t := 2 ^ Z.max 0 (- e)) in *. set (u := 2 ^ k) in *. set (v := 2 ^ (k + e)) in *.
  split; intros L.
  - apply (Z.mul_le_mono_pos_l _ _ t T). replace (t * (c * d * v)) with (c * d * (t * v)) by ring. rewrite <- E.
    replace (c * d * (s * u)) with (c * d * s * u) by ring. replace (t * (a * u)) with (a * t * u) by ring. apply Z.mul_le_mono_nonneg_r; lia.
  - apply (Z.mul_le_mono_pos_r _ _ u K). replace (c * d * s * u) with (c * d * (s * u)) by ring. rewrite E.
    replace (c * d * (t * v)) with (t * (c * d * v)) by ring. replace (a * t * u) with (t * (a * u)) by ring. apply Z.mul_le_mono_nonneg_l; lia.
Qed.
Lemma normal : forall n d e0 e, n <> 0 -> 0 < d -> e0 = Z.log2 (Z.abs n) - Z.log2 d ->
  e = (if d * 2 ^ Z.max 0 e0 <=? Z.abs n * 2 ^ Z.max 0 (- e0) then e0 - 52 else e0 - 53) ->
  2 ^ 52 * (d * 2 ^ Z.max 0 e) <= Z.abs n * 2 ^ Z.max 0 (- e).
Proof.
  intros n d e0 e N D E0 E. set (k := Z.abs e0 + Z.abs e + 100).
  replace (2 ^ 52 * (d * 2 ^ Z.max 0 e)) with (2 ^ 52 * d * 2 ^ Z.max 0 e) by ring. apply (scaled_le _ _ _ _ k); [lia|lia|].
  destruct (d * 2 ^ Z.max 0 e0 <=? Z.abs n * 2 ^ Z.max 0 (- e0)) eqn:L.
  - apply Z.leb_le in L. pose proof (proj1 (scaled_le (Z.abs n) d e0 1 k ltac:(lia) ltac:(lia)) ltac:(lia)) as L'.
    replace (k + e0) with (52 + (k + e)) in L' by lia. rewrite (Z.pow_add_r 2 52 (k + e)) in L' by lia. lia.
  - destruct (Z.log2_spec (Z.abs n) ltac:(lia)) as [A _]. destruct (Z.log2_spec d D) as [_ B].
    pose proof (Z.log2_nonneg (Z.abs n)) as A0. pose proof (Z.log2_nonneg d) as B0.
    pose proof (pow_pos (k + e) ltac:(lia)) as K. pose proof (pow_pos k ltac:(lia)) as K'.
    apply (Z.le_trans _ (2 ^ Z.log2 (Z.abs n) * 2 ^ k)); [|apply Z.mul_le_mono_nonneg_r; lia].
    replace (2 ^ Z.log2 (Z.abs n) * 2 ^ k) with (2 ^ 52 * 2 ^ Z.succ (Z.log2 d) * 2 ^ (k + e)).
    + apply Z.mul_le_mono_nonneg_r; [lia|]. apply Z.mul_le_mono_nonneg_l; lia.
    + rewrite <- (Z.pow_add_r 2 52), <- (Z.pow_add_r 2 (52 + _)), <- (Z.pow_add_r 2 _ k) by lia. f_equal. lia.
Qed.

Open Scope Q_scope.
Lemma double_near : forall x, Qabs (double x - x) <= Qabs x * (1 # 9007199254740992).
Proof.
  intros [n d]. unfold double. cbn [Qnum Qden]. set (e0 := (Z.log2 (Z.abs n) - Z.log2 (Zpos d))%Z).
  set (e := if (_ <=? _)%Z then (e0 - 52)%Z else (e0 - 53)%Z). destruct (n =? 0)%Z eqn:N.
  { apply Z.eqb_eq in N. subst n. cbn. unfold Qle. cbn. lia. }
  apply Z.eqb_neq in N. pose proof (normal n (Zpos d) e0 e N ltac:(lia) eq_refl eq_refl) as L.
  pose proof (half_even_near (n * 2 ^ Z.max 0 (- e)) (Zpos d * 2 ^ Z.max 0 e) ltac:(pose proof (pow_pos (Z.max 0 e) ltac:(lia)); lia)) as H.
  pose proof (pow_pos (Z.max 0 (- e)) ltac:(lia)) as T. pose proof (pow_pos (Z.max 0 e) ltac:(lia)) as P.
  set (m := half_even _ _) in *. set (s := (2 ^ Z.max 0 e)%Z) in *. set (t := (2 ^ Z.max 0 (- e))%Z) in *. clearbody m s t. clear e e0.
  unfold Qminus, Qplus, Qopp, Qabs, Qmult, Qle. cbn [Qnum Qden]. rewrite !Pos2Z.inj_mul, Z2Pos.id by lia.
  change (2 ^ 52)%Z with 4503599627370496%Z in L. set (D := Zpos d) in *. assert (D0 : (0 < D)%Z) by (unfold D; lia). clearbody D.
  replace (m * s * D + - n * t)%Z with (m * (D * s) - n * t)%Z by ring.
  assert (A : (2 * Z.abs (m * (D * s) - n * t) <= D * s)%Z) by lia.
  assert (B : (Z.abs (m * (D * s) - n * t) * 9007199254740992 <= Z.abs n * t)%Z) by lia.
  rewrite Z.mul_1_r. replace (Z.abs (m * (D * s) - n * t) * (D * 9007199254740992))%Z with (D * (Z.abs (m * (D * s) - n * t) * 9007199254740992))%Z by ring.
  replace (Z.abs n * (t * D))%Z with (D * (Z.abs n * t))%Z by ring. apply Z.mul_le_mono_nonneg_l; lia.
Qed.

(** ** Errors *)

Definition unit : Q := 1 # 4503599627370496.
(** [x] is [y] up to [k] of the smallest part *)
Definition near (k : Z) (x y : Q) : Prop := Qabs (x - y) <= Qabs y * (inject_Z k * unit).

Lemma abs_le : forall x y, Qabs x <= y <-> - y <= x /\ x <= y.
Proof. intros x y. apply Qabs_Qle_condition. Qed.
Lemma near_refl : forall x, near 0 x x.
Proof. intros x. unfold near. assert (E : x - x == 0) by ring. rewrite E. change (Qabs 0) with 0. pose proof (Qabs_nonneg x). unfold inject_Z. nra. Qed.
Lemma near_double : forall k x y, (0 <= k <= 100)%Z -> near k x y -> near (k + 1) (double x) y.
Proof.
  intros k x y K H. unfold near in *. assert (E : double x - y == (double x - x) + (x - y)) by ring. rewrite E.
  eapply Qle_trans; [apply Qabs_triangle|]. pose proof (double_near x) as D.
  assert (X : Qabs x <= Qabs y + Qabs (x - y)) by (assert (E' : x == y + (x - y)) by ring; rewrite E' at 1; apply Qabs_triangle).
  pose proof (Qabs_nonneg y) as Y. pose proof (Qabs_nonneg (x - y)) as Z. rewrite inject_Z_plus.
  assert (K0 : 0 <= inject_Z k) by (change 0 with (inject_Z 0); rewrite <- Zle_Qle; lia).
  assert (K1 : inject_Z k <= 100) by (change 100 with (inject_Z 100); rewrite <- Zle_Qle; lia).
  unfold unit in *. change (inject_Z 1) with 1. set (q := inject_Z k) in *. clearbody q. set (a := Qabs y) in *. set (b := Qabs (x - y)) in *. clearbody a b.
  set (c := Qabs x) in *. clearbody c. set (f := Qabs (double x - x)) in *. clearbody f. clear E.
  assert (B : b <= a * (100 * (1 # 4503599627370496))) by nra. nra.
Qed.
Lemma near_weaken : forall j k x y, (j <= k)%Z -> near j x y -> near k x y.
Proof.
  intros j k x y L H. unfold near in *. eapply Qle_trans; [exact H|]. pose proof (Qabs_nonneg y). rewrite Zle_Qle in L. unfold unit. nra.
Qed.
Lemma near_mul : forall j k a A b B, (0 <= j <= 100)%Z -> (0 <= k <= 100)%Z -> near j a A -> near k b B -> near (j + k + 1) (a * b) (A * B).
Proof.
  intros j k a A b B J K HA HB. unfold near in *. rewrite Qabs_Qmult. assert (E : a * b - A * B == (a - A) * (b - B) + ((a - A) * B + A * (b - B))) by ring. rewrite E.
  eapply Qle_trans; [apply Qabs_triangle|]. rewrite Qabs_Qmult. assert (T := Qabs_triangle ((a - A) * B) (A * (b - B))). rewrite !Qabs_Qmult in T.
  rewrite !inject_Z_plus. change (inject_Z 1) with 1.
  assert (J0 : 0 <= inject_Z j) by (change 0 with (inject_Z 0); rewrite <- Zle_Qle; lia).
  assert (J1 : inject_Z j <= 100) by (change 100 with (inject_Z 100); rewrite <- Zle_Qle; lia).
  assert (K0 : 0 <= inject_Z k) by (change 0 with (inject_Z 0); rewrite <- Zle_Qle; lia).
  assert (K1 : inject_Z k <= 100) by (change 100 with (inject_Z 100); rewrite <- Zle_Qle; lia).
  pose proof (Qabs_nonneg A) as PA. pose proof (Qabs_nonneg B) as PB. pose proof (Qabs_nonneg (a - A)) as Pa. pose proof (Qabs_nonneg (b - B)) as Pb.
  set (p := Qabs A) in *. set (q := Qabs B) in *. set (r := Qabs (a - A)) in *. set (s := Qabs (b - B)) in *. set (w := Qabs ((a - A) * B + A * (b - B))) in *.
  set (x := inject_Z j) in *. set (y := inject_Z k) in *. clearbody p q r s w x y. clear E. unfold unit in *.
  assert (R1 : r * q <= p * q * (x * (1 # 4503599627370496))) by nra.
  assert (S1 : p * s <= p * q * (y * (1 # 4503599627370496))) by nra.
  assert (PQ : 0 <= p * q) by nra.
  assert (RS : r * s <= p * q * (1 # 4503599627370496)).
  { assert (S2 : s <= q * (100 * (1 # 4503599627370496))) by nra. assert (R2 : r <= p * (100 * (1 # 4503599627370496))) by nra.
    apply Qle_trans with (r * (q * (100 * (1 # 4503599627370496)))); [rewrite (Qmult_comm r s), (Qmult_comm r); apply Qmult_le_compat_r; assumption|].
    apply Qle_trans with (p * (100 * (1 # 4503599627370496)) * (q * (100 * (1 # 4503599627370496)))); [apply Qmult_le_compat_r; [assumption|nra]|]. nra. }
  nra.
Qed.
Lemma near_div : forall k a A c, ~ c == 0 -> near k a A -> near k (a / c) (A / c).
Proof.
  intros k a A c C H. unfold near in *. assert (E : a / c - A / c == (a - A) * / c) by (field; exact C). rewrite E. unfold Qdiv. rewrite !Qabs_Qmult.
  pose proof (Qabs_nonneg (/ c)). nra.
Qed.
Lemma near_eq : forall k x y x' y', x == x' -> y == y' -> near k x y -> near k x' y'.
Proof. intros k x y x' y' E E' H. unfold near in *. rewrite <- E, <- E'. exact H. Qed.
Lemma near_abs : forall k x y e, near k x y -> Qabs y * (inject_Z k * unit) <= e -> Qabs (x - y) <= e.
Proof. intros k x y e H B. eapply Qle_trans; [exact H|exact B]. Qed.

(** ** XPath numbers *)

(** The number is [y] up to [k] of the smallest part. *)
Definition is_near (k : Z) (a : option Q) (y : Q) : Prop := exists x, a = Some x /\ near k x y.

Lemma lit_near : forall x, is_near 1 (lit x) x.
Proof. intros x. exists (double x). split; [reflexivity|]. apply (near_double 0); [lia|apply near_refl]. Qed.
Lemma lit_is : forall x, Qeq_bool (double x) x = true -> is_near 0 (lit x) x.
Proof. intros x H. exists (double x). split; [reflexivity|]. apply (near_eq 0 x x); [symmetry; apply Qeq_bool_eq; exact H|reflexivity|apply near_refl]. Qed.
Lemma number_fmt_d : forall n, number (fmt_d n) = Some n.
Proof.
  intros n. destruct (Z.lt_ge_cases n 0) as [L|L]; [|apply fmt_digits; exact L].
  destruct (fmt_digits (- n)%Z ltac:(lia)) as (D & N & E). unfold fmt_d in *. replace (n <? 0)%Z with true by lia. replace (- n <? 0)%Z with false in * by lia.
  destruct (map decdigit (digits 10 (- n))) as [|c r] eqn:M; [congruence|]. cbn [number]. rewrite number_digits in E by (assumption || discriminate).
  cbv beta iota. change (option_map Z.opp (natural 0 (c :: r)) = Some n). rewrite E. cbn. f_equal. lia.
Qed.
Lemma at_near : forall b s x n, int_attr b s x n -> is_near 1 (at_ s x) (inject_Z n).
Proof.
  intros b s x n [A _]. exists (double (inject_Z n)). split.
  - unfold at_, number_of. rewrite A, number_fmt_d. reflexivity.
  - apply (near_double 0); [lia|apply near_refl].
Qed.
Lemma at_child_near : forall b c s x n, int_below b c s x n -> is_near 1 (at_child c s x) (inject_Z n).
Proof. intros b c s x n (y & C & A). unfold at_child. rewrite C. exact (at_near b s y n A). Qed.
Lemma xmul_near : forall j k a A b B, (0 <= j <= 40)%Z -> (0 <= k <= 40)%Z -> is_near j a A -> is_near k b B -> is_near (j + k + 2) (xmul a b) (A * B).
Proof.
  intros j k a A b B J K (x & -> & H) (y & -> & H'). eexists. split; [reflexivity|]. replace (j + k + 2)%Z with (j + k + 1 + 1)%Z by lia.
  apply near_double; [lia|]. apply near_mul; (assumption || lia).
Qed.
(** Division by a number that is written as it is *)
Lemma xdiv_near : forall k a A c, (0 <= k <= 40)%Z -> ~ c == 0 -> Qeq_bool (double c) c = true -> is_near k a A -> is_near (k + 1) (xdiv a (lit c)) (A / c).
Proof.
  intros k a A c K C E (x & -> & H). eexists. split; [reflexivity|]. apply near_double; [lia|]. apply Qeq_bool_eq in E.
  apply (near_eq k (x / c) (A / c)); [rewrite E; reflexivity|reflexivity|]. apply near_div; assumption.
Qed.
Lemma is_near_eq : forall k a y y', y == y' -> is_near k a y -> is_near k a y'.
Proof. intros k a y y' E (x & A & H). exists x. split; [exact A|]. exact (near_eq k x y x y' (Qeq_refl x) E H). Qed.
Lemma is_near_weaken : forall j k a y, (j <= k)%Z -> is_near j a y -> is_near k a y.
Proof. intros j k a y L (x & A & H). exists x. split; [exact A|]. exact (near_weaken j k x y L H). Qed.

(** ** What is written *)

Definition writable (y : Q) : Prop := y == 0 \/ (1 # 10000) <= Qabs y /\ Qabs y <= 500000000.

Lemma written_near : forall show u k a y tol, prints show -> (0 <= k <= 40)%Z -> is_near k a y -> writable y ->
  Qabs y * (2 # 100000000000000) <= tol -> says_length (in_unit show u a) u y tol.
Proof.
  intros show u k a y tol P K (x & -> & H) W T. unfold near in H. unfold in_unit, value_of_number.
  assert (K0 : 0 <= inject_Z k) by (change 0 with (inject_Z 0); rewrite <- Zle_Qle; lia).
  assert (K1 : inject_Z k <= 40) by (change 40 with (inject_Z 40); rewrite <- Zle_Qle; lia).
  pose proof (Qabs_nonneg y) as Y. unfold unit in H.
  assert (B : Qabs (x - y) <= Qabs y * (1 # 110000000000000)) by nra.
  assert (X1 : Qabs x <= Qabs y + Qabs (x - y)) by (assert (E' : x == y + (x - y)) by ring; rewrite E' at 1; apply Qabs_triangle).
  assert (X2 : Qabs y <= Qabs x + Qabs (x - y)).
  { assert (E' : y == x + - (x - y)) by ring. rewrite E' at 1. eapply Qle_trans; [apply Qabs_triangle|]. rewrite Qabs_opp. lra. }
  destruct (P x) as (v & D & V).
  { destruct W as [W|[W1 W2]]; [left|right; lra]. rewrite W in B. change (Qabs 0) with 0 in B. assert (Z0 : Qabs (x - 0) <= 0) by lra. apply abs_le in Z0. lra. }
  exists (show x), v. split; [reflexivity|]. split; [exact D|].
  assert (E : v - y == (v - x) + (x - y)) by ring. rewrite E. eapply Qle_trans; [apply Qabs_triangle|]. lra.
Qed.
Lemma floor_near : forall z w d, Qabs (z - (w + (1 # 2))) <= d -> Qabs (inject_Z (Qfloor z) - w) <= (1 # 2) + d.
Proof.
  intros z w d H. apply abs_le in H. pose proof (Qfloor_le z) as L. pose proof (Qlt_floor z) as U. rewrite inject_Z_plus in U. change (inject_Z 1) with 1 in U.
  apply abs_le. lra.
Qed.
Lemma hundredths_written : forall show u n w d tol, prints show -> Qabs (inject_Z n - w) <= (1 # 2) + d -> d <= 1 -> Qabs w <= 2000000000 ->
  (5 # 1000) + d / 100 + (1 # 1000000) <= tol -> says_length (in_unit show u (xdiv (Some (inject_Z n)) (lit 100))) u (w / 100) tol.
Proof.
  intros show u n w d tol P H D W T.
  assert (N : Qabs (inject_Z n) <= 2000000002).
  { assert (E : inject_Z n == w + (inject_Z n - w)) by ring. rewrite E. eapply Qle_trans; [apply Qabs_triangle|]. lra. }
  assert (NN : is_near 1 (xdiv (Some (inject_Z n)) (lit 100)) (inject_Z n / 100)).
  { apply (xdiv_near 0); [lia|discriminate|reflexivity|]. exists (inject_Z n). split; [reflexivity|apply near_refl]. }
  assert (A : Qabs (inject_Z n / 100) == Qabs (inject_Z n) * (1 # 100)).
  { unfold Qdiv. rewrite Qabs_Qmult. reflexivity. }
  destruct (written_near show u 1 _ _ (1 # 1000000) P ltac:(lia) NN) as (t & v & E & V & B).
  - destruct (Z.eq_dec n 0) as [->|Z0]; [left; reflexivity|]. right. rewrite A.
    assert (1 <= Qabs (inject_Z n)) by (unfold inject_Z, Qabs, Qle; cbn; lia). lra.
  - rewrite A. lra.
  - exists t, v. split; [exact E|]. split; [exact V|].
    assert (E' : v - w / 100 == (v - inject_Z n / 100) + (inject_Z n - w) / 100) by field. rewrite E'. eapply Qle_trans; [apply Qabs_triangle|].
    assert (A' : Qabs ((inject_Z n - w) / 100) == Qabs (inject_Z n - w) * (1 # 100)) by (unfold Qdiv; rewrite Qabs_Qmult; reflexivity).
    rewrite A'. assert (D' : d / 100 == d * (1 # 100)) by reflexivity. lra.
Qed.
Lemma same_length : forall t u y y' tol, y == y' -> says_length t u y tol -> says_length t u y' tol.
Proof. intros t u y y' tol E (n & v & T & D & B). exists n, v. split; [exact T|]. split; [exact D|]. rewrite <- E. exact B. Qed.
Lemma looser : forall t u y tol tol', tol <= tol' -> says_length t u y tol -> says_length t u y tol'.
Proof. intros t u y tol tol' L (n & v & T & D & B). exists n, v. split; [exact T|]. split; [exact D|]. eapply Qle_trans; eassumption. Qed.

Lemma abs_int : forall n b, (- b < n < b)%Z -> Qabs (inject_Z n) <= inject_Z b.
Proof. intros n b H. unfold inject_Z, Qabs, Qle. cbn. lia. Qed.
Lemma writable_int : forall n m : Z, forall c : Q, (- m < n < m)%Z -> (1 # 10000) <= c -> inject_Z m * c <= 500000000 -> writable (inject_Z n * c).
Proof.
  intros n m c H C M. destruct (Z.eq_dec n 0) as [->|Z0]; [left; ring|]. right. rewrite Qabs_Qmult.
  assert (A : Qabs c == c) by (apply Qabs_pos; lra). rewrite A. pose proof (abs_int n m H) as B.
  assert (L : 1 <= Qabs (inject_Z n)) by (unfold inject_Z, Qabs, Qle; cbn; lia). assert (C0 : 0 <= c) by lra. split.
  - pose proof (Qmult_le_compat_r _ _ c L C0). lra.
  - pose proof (Qmult_le_compat_r _ _ c B C0). lra.
Qed.

(** Rounded to hundredths: [w] is the number of hundredths. *)
Lemma rounded_written : forall show u k a w, prints show -> (0 <= k <= 40)%Z -> is_near k a w -> Qabs w <= 2000000000 ->
  says_length (in_unit show u (xdiv (xround a) (lit 100))) u (w / 100) hundredth.
Proof.
  intros show u k a w P K (x & -> & H) W. unfold near in H. cbn [xround option_map].
  assert (K0 : 0 <= inject_Z k) by (change 0 with (inject_Z 0); rewrite <- Zle_Qle; lia).
  assert (K1 : inject_Z k <= 40) by (change 40 with (inject_Z 40); rewrite <- Zle_Qle; lia).
  pose proof (Qabs_nonneg w) as Y. unfold unit in H.
  assert (B : Qabs (x - w) <= 1 # 10000) by nra.
  apply (hundredths_written show u _ w (1 # 10000)); [exact P| |lra|exact W|vm_compute; discriminate].
  apply floor_near. assert (E : x + (1 # 2) - (w + (1 # 2)) == x - w) by ring. rewrite E. exact B.
Qed.

Lemma odt_cm_says : forall show s x n, prints show -> int_attr 32 s x n -> says_length (odt_cm show s x) "cm" (centimetres (inject_Z n)) hundredth.
Proof.
  intros show s x n P A. pose proof (abs_int n _ (proj2 A)) as B. change (inject_Z (2 ^ 32)) with (4294967296 # 1) in B.
  apply (same_length _ _ (inject_Z n * (254 # 7200) / 100)); [unfold centimetres, inches; field|]. apply (rounded_written show "cm" 10); [exact P|lia| |].
  - apply is_near_eq with (inject_Z n / 7200 * (254 # 100) * 100); [field|]. apply is_near_weaken with (2 + 1 + 2 + 0 + 2)%Z; [lia|].
    apply xmul_near; [lia|lia| |apply lit_is; reflexivity]. apply xmul_near; [lia|lia| |apply lit_near].
    apply (xdiv_near 1); [lia|discriminate|reflexivity|]. exact (at_near 32 s x n A).
  - rewrite Qabs_Qmult. change (Qabs (254 # 7200)) with (254 # 7200). lra.
Qed.
Lemma odt_mm_says : forall show s x n, prints show -> int_attr 32 s x n -> says_length (odt_mm show s x) "mm" (millimetres (inject_Z n)) hundredth.
Proof.
  intros show s x n P A. pose proof (abs_int n _ (proj2 A)) as B. change (inject_Z (2 ^ 32)) with (4294967296 # 1) in B.
  apply (same_length _ _ (inject_Z n * (2540 # 7200) / 100)); [unfold millimetres, inches; field|]. apply (rounded_written show "mm" 10); [exact P|lia| |].
  - apply is_near_eq with (inject_Z n / 7200 * (254 # 100) * 10 * 100); [field|]. apply is_near_weaken with (2 + 1 + 2 + 0 + 2 + 0 + 2)%Z; [lia|].
    apply xmul_near; [lia|lia| |apply lit_is; reflexivity]. apply xmul_near; [lia|lia| |apply lit_is; reflexivity]. apply xmul_near; [lia|lia| |apply lit_near].
    apply (xdiv_near 1); [lia|discriminate|reflexivity|]. exact (at_near 32 s x n A).
  - rewrite Qabs_Qmult. change (Qabs (2540 # 7200)) with (2540 # 7200). lra.
Qed.
Lemma odt_mm'_says : forall show s x n, prints show -> int_attr 32 s x n -> says_length (odt_mm' show s x) "mm" (millimetres (inject_Z n)) hundredth.
Proof.
  intros show s x n P A. pose proof (abs_int n _ (proj2 A)) as B. change (inject_Z (2 ^ 32)) with (4294967296 # 1) in B.
  apply (same_length _ _ (inject_Z n * (2540 # 7200) / 100)); [unfold millimetres, inches; field|]. apply (rounded_written show "mm" 10); [exact P|lia| |].
  - apply is_near_eq with (inject_Z n / 7200 * (254 # 10) * 100); [field|]. apply is_near_weaken with (2 + 1 + 2 + 0 + 2)%Z; [lia|].
    apply xmul_near; [lia|lia| |apply lit_is; reflexivity]. apply xmul_near; [lia|lia| |apply lit_near].
    apply (xdiv_near 1); [lia|discriminate|reflexivity|]. exact (at_near 32 s x n A).
  - rewrite Qabs_Qmult. change (Qabs (2540 # 7200)) with (2540 # 7200). lra.
Qed.
(** An integer times a number, not rounded *)
Lemma scaled_written : forall show u k a n m c tol, prints show -> (0 <= k <= 40)%Z -> is_near k a (inject_Z n * c) -> (- m < n < m)%Z -> (1 # 10000) <= c ->
  inject_Z m * c <= 500000000 -> inject_Z m * c * (2 # 100000000000000) <= tol -> says_length (in_unit show u a) u (inject_Z n * c) tol.
Proof.
  intros show u k a n m c tol P K H B C M T. apply (written_near show u k); [exact P|exact K|exact H|exact (writable_int n m c B C M)|].
  rewrite Qabs_Qmult. assert (A : Qabs c == c) by (apply Qabs_pos; lra). rewrite A. pose proof (abs_int n m B) as B'. assert (C0 : 0 <= c) by lra. pose proof (Qmult_le_compat_r _ _ c B' C0). lra.
Qed.
Lemma odt_pt_says : forall show s x n, prints show -> int_attr 32 s x n -> says_length (odt_pt show s x) "pt" (points (half n)) exactly.
Proof.
  intros show s x n P A. apply (same_length _ _ (inject_Z n * (1 # 200))); [unfold points, inches, half; field|].
  apply (scaled_written show "pt" 2 _ n (2 ^ 32)); [exact P|lia| |exact (proj2 A)|lra|vm_compute; discriminate|vm_compute; discriminate].
  apply is_near_eq with (inject_Z n / 200); [field|]. apply (xdiv_near 1); [lia|discriminate|reflexivity|]. exact (at_near 32 s x n A).
Qed.
Lemma double_int : forall n, (- 2 ^ 52 < n < 2 ^ 52)%Z -> double (inject_Z n) == inject_Z n.
Proof.
  intros n H. unfold double. cbn [Qnum Qden inject_Z]. destruct (n =? 0)%Z eqn:N; [apply Z.eqb_eq in N; subst n; reflexivity|]. apply Z.eqb_neq in N.
  change (Z.log2 1) with 0%Z. rewrite Z.sub_0_r. pose proof (Z.log2_nonneg (Z.abs n)) as L0. destruct (Z.log2_spec (Z.abs n) ltac:(lia)) as [L1 _].
  replace (Z.max 0 (- Z.log2 (Z.abs n)))%Z with 0%Z by lia. replace (Z.max 0 (Z.log2 (Z.abs n)))%Z with (Z.log2 (Z.abs n)) by lia. rewrite Z.mul_1_l.
  replace (2 ^ Z.log2 (Z.abs n) <=? Z.abs n * 2 ^ 0)%Z with true by (symmetry; apply Z.leb_le; lia).
  assert (L2 : (Z.log2 (Z.abs n) < 52)%Z) by (apply Z.log2_lt_pow2; lia). set (e := (Z.log2 (Z.abs n) - 52)%Z). replace (Z.max 0 e) with 0%Z by lia.
  replace (Z.max 0 (- e)) with (- e)%Z by lia. assert (T : (0 < 2 ^ (- e))%Z) by (apply pow_pos; lia). set (t := (2 ^ (- e))%Z) in *. clearbody t.
  unfold half_even. change (1 * 2 ^ 0)%Z with 1%Z. rewrite Z.div_1_r, Z.mod_1_r. change (2 * 0 <? 1)%Z with true. cbv iota. change (2 ^ 0)%Z with 1%Z.
  unfold Qeq, inject_Z. cbn [Qnum Qden]. rewrite Z2Pos.id by lia. lia.
Qed.
Lemma at_is : forall s x n, int_attr 32 s x n -> is_near 0 (at_ s x) (inject_Z n).
Proof.
  intros s x n [A B]. exists (double (inject_Z n)). split.
  - unfold at_, number_of. rewrite A, number_fmt_d. reflexivity.
  - apply (near_eq 0 (inject_Z n) (inject_Z n)); [symmetry; apply double_int; lia|reflexivity|apply near_refl].
Qed.
Lemma xminus_near : forall a b m n, is_near 0 a (inject_Z m) -> is_near 0 b (inject_Z n) -> is_near 1 (xminus a b) (inject_Z (m - n)).
Proof.
  intros a b m n (x & -> & H) (y & -> & H'). eexists. split; [reflexivity|]. apply (near_double 0); [lia|].
  unfold near in *. assert (Z1 : forall q, q * (inject_Z 0 * unit) == 0) by (intros q; ring). rewrite Z1 in *. apply abs_le in H, H'. apply abs_le.
  unfold Zminus. rewrite inject_Z_plus, inject_Z_opp. lra.
Qed.
Lemma negative_indent : forall b x n, int_attr b "indent" x n -> compares (fun n => (n <? 0)%Z) "indent" x = (n <? 0)%Z.
Proof. intros b x n [A _]. unfold compares, number_of. rewrite A, number_fmt_d. reflexivity. Qed.
(** With a negative indent the other lines are moved by it. *)
Lemma odt_margin_left_says : forall show x m n, prints show -> int_attr 32 "doubled-margin-left" x m -> int_attr 32 "indent" x n ->
  says_length (odt_margin_left show x) "pt" (points (half (m - Z.min 0 n))) exactly.
Proof.
  intros show x m n P M N. unfold odt_margin_left. rewrite (negative_indent 32 x n N). destruct (n <? 0)%Z eqn:L.
  - apply Z.ltb_lt in L. replace (Z.min 0 n) with n by lia. apply (same_length _ _ (inject_Z (m - n) * (1 # 200))); [unfold points, inches, half; field|].
    apply (scaled_written show "pt" 2 _ _ (2 ^ 33)); [exact P|lia| |destruct M, N; lia|lra|vm_compute; discriminate|vm_compute; discriminate].
    apply is_near_eq with (inject_Z (m - n) / 200); [field|]. apply (xdiv_near 1); [lia|discriminate|reflexivity|]. apply xminus_near; apply at_is; assumption.
  - apply Z.ltb_ge in L. replace (m - Z.min 0 n)%Z with m by lia. exact (odt_pt_says show "doubled-margin-left" x m P M).
Qed.
Lemma odt_space_says : forall show s x n, prints show -> int_attr 32 s x n ->
  says_length (in_unit show "pt" (xdiv (xdiv (at_ s x) (lit 200)) (lit 2))) "pt" (points (half n) / 2) exactly.
Proof.
  intros show s x n P A. apply (same_length _ _ (inject_Z n * (1 # 400))); [unfold points, inches, half; field|].
  apply (scaled_written show "pt" 3 _ n (2 ^ 32)); [exact P|lia| |exact (proj2 A)|lra|vm_compute; discriminate|vm_compute; discriminate].
  apply is_near_eq with (inject_Z n / 200 / 2); [field|]. apply (xdiv_near 2); [lia|discriminate|reflexivity|]. apply (xdiv_near 1); [lia|discriminate|reflexivity|].
  exact (at_near 32 s x n A).
Qed.
Lemma number_says : forall show u s x n, prints show -> int_attr 28 s x n -> says_length (in_unit show u (at_ s x)) u (inject_Z n) (6 # 1000000).
Proof.
  intros show u s x n P A. apply (same_length _ _ (inject_Z n * 1)); [ring|].
  apply (scaled_written show u 1 _ n (2 ^ 28)); [exact P|lia| |exact (proj2 A)|lra|vm_compute; discriminate|vm_compute; discriminate].
  apply is_near_eq with (inject_Z n); [ring|]. exact (at_near 28 s x n A).
Qed.
Lemma part_says : forall show u s x n, prints show -> int_attr 32 s x n -> says_length (in_unit show u (xdiv (at_ s x) (lit 100))) u (inject_Z n / 100) exactly.
Proof.
  intros show u s x n P A. apply (same_length _ _ (inject_Z n * (1 # 100))); [field|].
  apply (scaled_written show u 2 _ n (2 ^ 32)); [exact P|lia| |exact (proj2 A)|lra|vm_compute; discriminate|vm_compute; discriminate].
  apply is_near_eq with (inject_Z n / 100); [field|]. apply (xdiv_near 1); [lia|discriminate|reflexivity|]. exact (at_near 32 s x n A).
Qed.
(** Sizes of texts: the base size times the relative size, in percent *)
Lemma size_near : forall lang x b r, int_attr 31 "basesize" x b -> int_below 8 "RelativeSize" lang x r ->
  is_near 6 (xdiv (xdiv (xmul (at_ "basesize" x) (at_child "RelativeSize" lang x)) (lit 100)) (lit 100)) (inject_Z (b * r) * (1 # 10000)).
Proof.
  intros lang x b r B R. apply is_near_eq with (inject_Z b * inject_Z r / 100 / 100); [rewrite inject_Z_mult; field|].
  apply (xdiv_near 5); [lia|discriminate|reflexivity|]. apply (xdiv_near 4); [lia|discriminate|reflexivity|].
  apply (xmul_near 1 1); [lia|lia|exact (at_near _ _ _ _ B)|exact (at_child_near _ _ _ _ _ R)].
Qed.
Lemma size_says : forall show lang x b r, prints show -> int_attr 31 "basesize" x b -> int_below 8 "RelativeSize" lang x r ->
  says_length (in_unit show "pt" (xdiv (xdiv (xmul (at_ "basesize" x) (at_child "RelativeSize" lang x)) (lit 100)) (lit 100))) "pt"
    (points (percent (inject_Z r) (inject_Z b))) (2 # 1000000).
Proof.
  intros show lang x b r P B R. apply (same_length _ _ (inject_Z (b * r) * (1 # 10000))); [unfold points, inches, percent; rewrite inject_Z_mult; field|].
  apply (scaled_written show "pt" 6 _ _ (2 ^ 31 * 2 ^ 8)); [exact P|lia|exact (size_near lang x b r B R)| |lra|vm_compute; discriminate|vm_compute; discriminate].
  destruct B as [_ B], R as (c & _ & _ & R). nia.
Qed.

Lemma css_half_says : forall show s x n, prints show -> int_attr 32 s x n -> says_length (css_half show s x) "pt" (points (half n)) exactly.
Proof.
  intros show s x n P A. apply (same_length _ _ (inject_Z n * (1 # 200))); [unfold points, inches, half; field|].
  apply (scaled_written show "pt" 3 _ n (2 ^ 32)); [exact P|lia| |exact (proj2 A)|lra|vm_compute; discriminate|vm_compute; discriminate].
  apply is_near_eq with (inject_Z n / 2 / 100); [field|]. apply (xdiv_near 2); [lia|discriminate|reflexivity|]. apply (xdiv_near 1); [lia|discriminate|reflexivity|].
  exact (at_near 32 s x n A).
Qed.
Lemma css_padding_says : forall show x n, prints show -> int_attr 32 "indent" x n ->
  says_length (css_pt show (xmul (xdiv (at_ "indent" x) (lit 2)) (lit (-1)))) "pt" (points (half (- n))) exactly.
Proof.
  intros show x n P A. apply (same_length _ _ (inject_Z (- n) * (1 # 200))); [unfold points, inches, half; field|].
  apply (scaled_written show "pt" 5 _ _ (2 ^ 32)); [exact P|lia| |destruct A; lia|lra|vm_compute; discriminate|vm_compute; discriminate].
  apply is_near_eq with (inject_Z n / 2 * (-1) / 100); [rewrite inject_Z_opp; field|]. apply (xdiv_near 4); [lia|discriminate|reflexivity|].
  apply (xmul_near 2 0); [lia|lia| |apply lit_is; reflexivity]. apply (xdiv_near 1); [lia|discriminate|reflexivity|]. exact (at_near 32 _ x n A).
Qed.
(** The number of millimetres in a point that is used has nine digits. *)
Lemma css_mm_says : forall show a n, prints show -> is_near 1 a (inject_Z n) -> (- 2 ^ 24 < n < 2 ^ 24)%Z ->
  says_length (css_mm show a) "mm" (millimetres (inject_Z n)) css_hundredth.
Proof.
  intros show a n P A R. pose proof (abs_int n _ R) as B. change (inject_Z (2 ^ 24)) with (16777216 # 1) in B.
  assert (H : is_near 7 (xmul (xmul (xdiv a (lit 100)) (lit (352777778 # 1000000000))) (lit 100)) (inject_Z n * (352777778 # 1000000000))).
  { apply is_near_eq with (inject_Z n / 100 * (352777778 # 1000000000) * 100); [field|].
    apply (xmul_near 5 0); [lia|lia| |apply lit_is; reflexivity]. apply (xmul_near 2 1); [lia|lia| |apply lit_near].
    apply (xdiv_near 1); [lia|discriminate|reflexivity|exact A]. }
  unfold css_mm. destruct H as (x & -> & H). change (lit (1 # 2)) with (Some (double (1 # 2))).
  assert (E2 : double (1 # 2) == (1 # 2)) by reflexivity. cbn [xplus xop xfloor option_map]. set (z := double (x + double (1 # 2))).
  pose proof (double_near (x + double (1 # 2))) as D. fold z in D. clearbody z. rewrite E2 in D. unfold near in H.
  set (w := inject_Z n * (352777778 # 1000000000)) in *.
  assert (W : Qabs w <= 6000000) by (unfold w; rewrite Qabs_Qmult; change (Qabs (352777778 # 1000000000)) with (352777778 # 1000000000); lra).
  pose proof (Qabs_nonneg w) as W0. change (inject_Z 7) with 7 in H. unfold unit in H.
  assert (X : Qabs (x - w) <= 1 # 10000000) by lra.
  assert (X' : Qabs x <= 6000001) by (assert (E : x == w + (x - w)) by ring; rewrite E; eapply Qle_trans; [apply Qabs_triangle|]; lra).
  assert (X'' : Qabs (x + (1 # 2)) <= 6000002) by (eapply Qle_trans; [apply Qabs_triangle|]; change (Qabs (1 # 2)) with (1 # 2); lra).
  assert (Z1 : Qabs (z - (inject_Z n * (127 # 360) + (1 # 2))) <= 5 # 1000).
  { assert (E : z - (inject_Z n * (127 # 360) + (1 # 2)) == (z - (x + (1 # 2))) + ((x - w) + inject_Z n * (8 # 36000000000))) by (unfold w; field).
    rewrite E. eapply Qle_trans; [apply Qabs_triangle|]. pose proof (Qabs_triangle (x - w) (inject_Z n * (8 # 36000000000))) as T.
    rewrite Qabs_Qmult in T. change (Qabs (8 # 36000000000)) with (8 # 36000000000) in T. lra. }
  apply (same_length _ _ (inject_Z n * (127 # 360) / 100)); [unfold millimetres, inches; field|].
  apply (hundredths_written show "mm" _ _ (5 # 1000)); [exact P|exact (floor_near _ _ _ Z1)|lra| |vm_compute; discriminate].
  rewrite Qabs_Qmult. change (Qabs (127 # 360)) with (127 # 360). lra.
Qed.
