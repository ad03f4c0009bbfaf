(** General lemmas about [Base]. *)
From Coq Require Import ZArith List Bool Lia.
From Coq Require Import ZifyBool ZifyNat.
From Verif Require Import Base.
Import ListNotations.
Open Scope Z_scope.

#[global] Arguments Z.mul : simpl never.
#[global] Arguments Z.add : simpl never.
#[global] Arguments Z.sub : simpl never.
#[global] Arguments Z.div : simpl never.
#[global] Arguments Z.modulo : simpl never.
#[global] Arguments Z.pow : simpl never.
#[global] Arguments Z.of_nat : simpl nomatch.

Ltac Zify.zify_post_hook ::= Z.to_euclidean_division_equations.

Lemma zlen_nil : forall A, zlen (@nil A) = 0.
Proof. reflexivity. Qed.

Lemma zlen_cons : forall A (x : A) l, zlen (x :: l) = 1 + zlen l.
Proof. intros; unfold zlen; cbn [List.length]; lia. Qed.

Lemma zlen_app : forall A (l1 l2 : list A), zlen (l1 ++ l2) = zlen l1 + zlen l2.
Proof. intros; unfold zlen; rewrite app_length; lia. Qed.

Lemma zlen_nonneg : forall A (l : list A), 0 <= zlen l.
Proof. intros; unfold zlen; lia. Qed.

Lemma zlen_zero : forall A (l : list A), zlen l = 0 -> l = [].
Proof. intros A [|x l] H; [reflexivity|]. rewrite zlen_cons in H. pose proof (zlen_nonneg A l). lia. Qed.

Lemma zlen_map : forall A B (f : A -> B) l, zlen (map f l) = zlen l.
Proof. intros; unfold zlen; rewrite map_length; reflexivity. Qed.

Lemma zlen_rev : forall A (l : list A), zlen (rev l) = zlen l.
Proof. intros; unfold zlen; rewrite rev_length; reflexivity. Qed.

Lemma ztake_nonpos : forall A n (l : list A), n <= 0 -> ztake n l = [].
Proof. intros A n [|x l] H; cbn; [reflexivity|]. destruct (n <=? 0) eqn:E; [reflexivity|lia]. Qed.

Lemma zdrop_nonpos : forall A n (l : list A), n <= 0 -> zdrop n l = l.
Proof. intros A n [|x l] H; cbn; [reflexivity|]. destruct (n <=? 0) eqn:E; [reflexivity|lia]. Qed.

Lemma ztake_firstn : forall A (l : list A) n, ztake n l = firstn (Z.to_nat n) l.
Proof.
  induction l as [|x l IH]; intros n; cbn [ztake].
  - destruct (Z.to_nat n); reflexivity.
  - destruct (n <=? 0) eqn:E.
    + replace (Z.to_nat n) with O by lia. reflexivity.
    + replace (Z.to_nat n) with (S (Z.to_nat (n - 1))) by lia. cbn. now rewrite IH.
Qed.

Lemma zdrop_skipn : forall A (l : list A) n, zdrop n l = skipn (Z.to_nat n) l.
Proof.
  induction l as [|x l IH]; intros n; cbn [zdrop].
  - destruct (Z.to_nat n); reflexivity.
  - destruct (n <=? 0) eqn:E.
    + replace (Z.to_nat n) with O by lia. reflexivity.
    + replace (Z.to_nat n) with (S (Z.to_nat (n - 1))) by lia. cbn. now rewrite IH.
Qed.

Lemma ztake_zdrop : forall A n (l : list A), ztake n l ++ zdrop n l = l.
Proof. intros; rewrite ztake_firstn, zdrop_skipn; apply firstn_skipn. Qed.

Lemma ztake_app_exact : forall A (l1 l2 : list A), ztake (zlen l1) (l1 ++ l2) = l1.
Proof.
  intros. rewrite ztake_firstn. unfold zlen. rewrite Nat2Z.id.
  rewrite firstn_app, Nat.sub_diag, firstn_all, firstn_O. apply app_nil_r.
Qed.

Lemma zdrop_app_exact : forall A (l1 l2 : list A), zdrop (zlen l1) (l1 ++ l2) = l2.
Proof.
  intros. rewrite zdrop_skipn. unfold zlen. rewrite Nat2Z.id.
  rewrite skipn_app, Nat.sub_diag, skipn_all. reflexivity.
Qed.

Lemma ztake_app_eq : forall A n (l1 l2 : list A), n = zlen l1 -> ztake n (l1 ++ l2) = l1.
Proof. intros; subst; apply ztake_app_exact. Qed.

Lemma zdrop_app_eq : forall A n (l1 l2 : list A), n = zlen l1 -> zdrop n (l1 ++ l2) = l2.
Proof. intros; subst; apply zdrop_app_exact. Qed.

Lemma ztake_all : forall A n (l : list A), zlen l <= n -> ztake n l = l.
Proof. intros. rewrite ztake_firstn. apply firstn_all2. unfold zlen in H. lia. Qed.

Lemma zdrop_all : forall A n (l : list A), zlen l <= n -> zdrop n l = [].
Proof. intros. rewrite zdrop_skipn. apply skipn_all2. unfold zlen in H. lia. Qed.

Lemma zlen_ztake : forall A n (l : list A), zlen (ztake n l) = Z.max 0 (Z.min n (zlen l)).
Proof. intros. rewrite ztake_firstn. unfold zlen. rewrite firstn_length. lia. Qed.

Lemma zlen_zdrop : forall A n (l : list A), zlen (zdrop n l) = Z.max 0 (zlen l - Z.max 0 n).
Proof. intros. rewrite zdrop_skipn. unfold zlen. rewrite skipn_length. lia. Qed.

Lemma zdrop_zdrop : forall A a b (l : list A), 0 <= a -> 0 <= b -> zdrop a (zdrop b l) = zdrop (a + b) l.
Proof.
  intros. rewrite !zdrop_skipn. replace (Z.to_nat (a + b)) with (Z.to_nat b + Z.to_nat a)%nat by lia.
  revert l. induction (Z.to_nat b) as [|k IH]; intros l; [reflexivity|].
  destruct l; cbn; [now rewrite skipn_nil|apply IH].
Qed.

Lemma ztake_ztake : forall A a b (l : list A), ztake a (ztake b l) = ztake (Z.min a b) l.
Proof.
  intros. rewrite !ztake_firstn. rewrite firstn_firstn. f_equal. lia.
Qed.

Lemma znth_nth_error : forall A (l : list A) n, 0 <= n -> znth n l = nth_error l (Z.to_nat n).
Proof.
  induction l as [|x l IH]; intros n Hn; cbn [znth].
  - destruct (Z.to_nat n); reflexivity.
  - destruct (n <=? 0) eqn:E.
    + replace n with 0 by lia. reflexivity.
    + rewrite IH by lia. replace (Z.to_nat n) with (S (Z.to_nat (n - 1))) by lia. reflexivity.
Qed.

Lemma all_bytes_app : forall l1 l2, all_bytes (l1 ++ l2) <-> all_bytes l1 /\ all_bytes l2.
Proof. intros; apply Forall_app. Qed.

Lemma all_bytes_ztake : forall n l, all_bytes l -> all_bytes (ztake n l).
Proof.
  intros n l H. rewrite <- (ztake_zdrop _ n l) in H. apply all_bytes_app in H. tauto.
Qed.

Lemma all_bytes_zdrop : forall n l, all_bytes l -> all_bytes (zdrop n l).
Proof.
  intros n l H. rewrite <- (ztake_zdrop _ n l) in H. apply all_bytes_app in H. tauto.
Qed.

(** ** little-endian *)

Lemma le_encode_length : forall n v, List.length (le_encode n v) = n.
Proof. induction n; intros; cbn; congruence. Qed.

Lemma zlen_le_encode : forall n v, zlen (le_encode n v) = Z.of_nat n.
Proof. intros; unfold zlen; now rewrite le_encode_length. Qed.

Lemma le_encode_bytes : forall n v, all_bytes (le_encode n v).
Proof.
  induction n; intros; cbn; constructor; [|apply IHn].
  unfold is_byte. apply Z.mod_pos_bound. lia.
Qed.

Lemma le_decode_encode : forall n v, 0 <= v < 256 ^ Z.of_nat n -> le_decode (le_encode n v) = v.
Proof.
  induction n; intros v H.
  - cbn in *. lia.
  - cbn [le_encode le_decode]. rewrite Nat2Z.inj_succ, Z.pow_succ_r in H by lia.
    rewrite IHn by (split; [apply Z.div_pos; lia | apply Z.div_lt_upper_bound; lia]).
    pose proof (Z.div_mod v 256). lia.
Qed.

Lemma le_decode_range : forall l, all_bytes l -> 0 <= le_decode l < 256 ^ zlen l.
Proof.
  induction 1 as [|b l Hb Hl IH].
  - cbn. lia.
  - cbn [le_decode]. rewrite zlen_cons, Z.pow_add_r, Z.pow_1_r by (pose proof (zlen_nonneg _ l); lia).
    unfold is_byte in Hb. nia.
Qed.

Lemma le_encode_decode : forall l, all_bytes l -> le_encode (List.length l) (le_decode l) = l.
Proof.
  induction 1 as [|b l Hb Hl IH]; [reflexivity|].
  cbn [List.length le_decode le_encode]. unfold is_byte in Hb.
  replace ((b + 256 * le_decode l) mod 256) with b by lia.
  replace ((b + 256 * le_decode l) / 256) with (le_decode l) by lia.
  now rewrite IH.
Qed.

Lemma le_decode_inj : forall l1 l2, all_bytes l1 -> all_bytes l2 ->
  List.length l1 = List.length l2 -> le_decode l1 = le_decode l2 -> l1 = l2.
Proof.
  intros l1 l2 H1 H2 HL HD.
  rewrite <- (le_encode_decode l1 H1), <- (le_encode_decode l2 H2). congruence.
Qed.
