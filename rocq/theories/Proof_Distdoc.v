From Coq Require Import ZArith List Bool Lia.
From Verif Require Import Base BaseFacts Model_Text Model_Dataio Model_Record Model_Distdoc Spec_Distdoc Spec_Record Proof_Record.
Import ListNotations.
Open Scope Z_scope.

Lemma land_ones_mod : forall a m n, 0 <= n -> m = Z.ones n -> Z.land a m = a mod 2 ^ n.
Proof. intros. subst. now apply Z.land_ones. Qed.

Lemma rand_spec : forall seed k, rand (lcg_state seed k) = (lcg_out seed (S k), lcg_state seed (S k)).
Proof.
  intros seed k. unfold rand, lcg_out. cbn [lcg_state].
  rewrite (land_ones_mod _ 0xffffffff 32) by (lia || reflexivity). change (2 ^ 32) with 4294967296.
  rewrite (land_ones_mod _ 0x7fff 15) by (lia || reflexivity). rewrite Z.shiftr_div_pow2 by lia. reflexivity.
Qed.

Lemma run_len_pos : forall seed j, 1 <= run_len seed j <= 16.
Proof. intros. unfold run_len. pose proof (Z.mod_pos_bound (lcg_out seed (2 * j + 2)) 16). lia. Qed.

Lemma run_start_mono : forall seed j k, (j <= k)%nat -> run_start seed j <= run_start seed k.
Proof. intros seed j k H. induction H; [lia|]. cbn [run_start]. pose proof (run_len_pos seed m). lia. Qed.

Lemma in_run_unique : forall seed i j k, in_run seed j i -> in_run seed k i -> j = k.
Proof.
  intros seed i j k Hj Hk. unfold in_run in *. destruct (Nat.lt_trichotomy j k) as [L|[E|L]]; [|exact E|].
  - pose proof (run_start_mono seed (S j) k L). lia.
  - pose proof (run_start_mono seed (S k) j L). lia.
Qed.

Lemma in_run_exists : forall seed i, 0 <= i -> exists j, in_run seed j i.
Proof.
  intros seed i Hi. pattern i. apply natlike_ind; [| |exact Hi].
  - exists O. unfold in_run. cbn [run_start]. pose proof (run_len_pos seed 0). lia.
  - intros x Hx [j Hj]. unfold in_run in *. destruct (Z_lt_le_dec (Z.succ x) (run_start seed (S j))) as [L|L].
    + exists j. lia.
    + exists (S j). cbn [run_start] in *. pose proof (run_len_pos seed (S j)). lia.
Qed.

Lemma znth_cons_0 : forall A (x : A) l, znth 0 (x :: l) = Some x.
Proof. reflexivity. Qed.

Lemma znth_cons_S : forall A (x : A) l k, 0 < k -> znth k (x :: l) = znth (k - 1) l.
Proof.
  intros A x l k H. cbn [znth]. replace (k <=? 0) with false by lia. reflexivity.
Qed.

Lemma xor_loop_nth : forall seed data i n key m, 0 <= n -> i + n = run_start seed m ->
  (0 < n -> exists m', m = S m' /\ key = run_key seed m' /\ run_start seed m' <= i) ->
  forall k j, 0 <= k < zlen data -> in_run seed j (i + k) ->
  znth k (xor_loop data i n key (lcg_state seed (2 * m))) =
  match znth k data with Some d => Some (if 4 <=? i + k then Z.lxor d (run_key seed j) else d) | None => None end.
Proof.
  intros seed data. induction data as [|d data IH]; intros i n key m Hn Hm HR k j Hk Hj; [cbn in Hk; lia|].
  rewrite zlen_cons in Hk. cbn [xor_loop].
  set (m1 := if n =? 0 then S m else m).
  assert (E : exists key' n', (if n =? 0 then let (r1, seed0) := rand (lcg_state seed (2 * m)) in let (r2, seed1) := rand seed0 in
      (Z.land r1 255, Z.land r2 15 + 1, seed1) else (key, n, lcg_state seed (2 * m))) = (key', n', lcg_state seed (2 * m1)) /\
      1 <= n' /\ i + n' = run_start seed m1 /\ exists m', m1 = S m' /\ key' = run_key seed m' /\ run_start seed m' <= i).
  { subst m1. destruct (n =? 0) eqn:En.
    - rewrite !rand_spec. rewrite (land_ones_mod _ 255 8), (land_ones_mod _ 15 4) by (lia || reflexivity).
      exists (run_key seed m), (run_len seed m). split.
      + unfold run_key, run_len. replace (2 * m + 1)%nat with (S (2 * m)) by lia. replace (2 * m + 2)%nat with (S (S (2 * m))) by lia.
        replace (2 * S m)%nat with (S (S (2 * m))) by lia. reflexivity.
      + pose proof (run_len_pos seed m). cbn [run_start]. repeat split; try lia. exists m. repeat split. lia.
    - exists key, n. repeat split; try lia. apply HR. lia. }
  destruct E as (key' & n' & E & Hn' & Hm' & m' & Em & Ek & Es).
  rewrite E. cbv beta iota. destruct (Z.eq_dec k 0) as [->|NZ].
  - rewrite !znth_cons_0. rewrite Z.add_0_r in *. assert (j = m'); [|subst; reflexivity].
    apply (in_run_unique seed i); [exact Hj|]. unfold in_run. rewrite <- Em. lia.
  - rewrite !znth_cons_S by lia. rewrite (IH (i + 1) (n' - 1) key' m1) with (j := j); try lia.
    + replace (i + 1 + (k - 1)) with (i + k) by lia. reflexivity.
    + intros _. exists m'. repeat split; auto; lia.
    + replace (i + 1 + (k - 1)) with (i + k) by lia. exact Hj.
Qed.

Lemma xor_loop_cons : forall d rest i n key seed, exists key' n' seed',
  xor_loop (d :: rest) i n key seed = (if 4 <=? i then Z.lxor d key' else d) :: xor_loop rest (i + 1) n' key' seed'.
Proof.
  intros. cbn [xor_loop]. destruct (n =? 0).
  - destruct (rand seed) as [r1 s1]. destruct (rand s1) as [r2 s2]. do 3 eexists. reflexivity.
  - do 3 eexists. reflexivity.
Qed.

Lemma xor_loop_len : forall data i n key seed, zlen (xor_loop data i n key seed) = zlen data.
Proof.
  induction data as [|d data IH]; intros; [reflexivity|].
  destruct (xor_loop_cons d data i n key seed) as (k' & n' & s' & ->). rewrite !zlen_cons, IH. reflexivity.
Qed.

Lemma head_seed_is : forall head, all_bytes head -> head_seed head = seed_of head.
Proof.
  intros [|d0 [|d1 [|d2 [|d3 r]]]] H; try reflexivity. unfold head_seed, seed_of.
  inversion H as [|? ? B0 H0]; subst. inversion H0 as [|? ? B1 H1]; subst. inversion H1 as [|? ? B2 H2]; subst. inversion H2 as [|? ? B3 H3]; subst.
  unfold is_byte in *.
  assert (L : forall a b n, 0 <= n -> 0 <= b < 2 ^ n -> Z.lor (Z.shiftl a n) b = a * 2 ^ n + b).
  { intros a b n Hn Hb. rewrite lor_shiftl_add by assumption. lia. }
  assert (E1 : Z.lor (Z.shiftl d3 24) (Z.shiftl d2 16) = Z.shiftl (d3 * 256 + d2) 16).
  { rewrite (L d3 (Z.shiftl d2 16) 24); rewrite ?Z.shiftl_mul_pow2 by lia; change (2 ^ 24) with 16777216; change (2 ^ 16) with 65536; lia. }
  rewrite E1. 
  assert (E2 : Z.lor (Z.shiftl (d3 * 256 + d2) 16) (Z.shiftl d1 8) = Z.shiftl ((d3 * 256 + d2) * 256 + d1) 8).
  { rewrite (L (d3 * 256 + d2) (Z.shiftl d1 8) 16); rewrite ?Z.shiftl_mul_pow2 by lia; change (2 ^ 8) with 256; change (2 ^ 16) with 65536; lia. }
  rewrite E2, (L _ d0 8) by (change (2 ^ 8) with 256; lia). change (2 ^ 8) with 256. lia.
Qed.

Theorem decode_head_spec : forall head i j, all_bytes head -> 0 <= i < zlen head -> in_run (seed_of head) j i ->
  znth i (decode_head head) =
  match znth i head with Some d => Some (if i <? 4 then d else Z.lxor d (run_key (seed_of head) j)) | None => None end.
Proof.
  intros head i j HB Hi Hj. unfold decode_head. rewrite head_seed_is by exact HB.
  change (seed_of head) with (lcg_state (seed_of head) (2 * 0)) at 1.
  rewrite (xor_loop_nth (seed_of head) head 0 0 0 0) with (j := j); try lia; auto.
  destruct (znth i head); [|reflexivity]. rewrite Z.add_0_l. destruct (4 <=? i) eqn:E, (i <? 4) eqn:E'; try lia; reflexivity.
Qed.

Lemma decode_head_len : forall head, zlen (decode_head head) = zlen head.
Proof. intros. apply xor_loop_len. Qed.

Lemma znth_ext : forall A (a b : list A), zlen a = zlen b -> (forall i, 0 <= i < zlen a -> znth i a = znth i b) -> a = b.
Proof.
  intros A a. induction a as [|x a IH]; intros b HL H.
  - symmetry. apply zlen_zero. rewrite <- HL. reflexivity.
  - destruct b as [|y b]; [apply zlen_zero in HL; discriminate|]. rewrite !zlen_cons in HL. rewrite zlen_cons in H. pose proof (zlen_nonneg _ a).
    pose proof (H 0 ltac:(lia)) as HX. rewrite !znth_cons_0 in HX. injection HX as ->. f_equal. apply IH; [lia|].
    intros i Hi. specialize (H (i + 1) ltac:(lia)). rewrite !znth_cons_S in H by lia. now replace (i + 1 - 1) with i in H by lia.
Qed.

Lemma lxor_byte : forall a b, is_byte a -> 0 <= b < 256 -> is_byte (Z.lxor a b).
Proof.
  unfold is_byte. intros a b Ha Hb. assert (0 <= Z.lxor a b) by (apply Z.lxor_nonneg; lia).
  assert (T : Z.lxor a b < 2 ^ 8).
  { destruct (Z.eq_dec (Z.lxor a b) 0) as [->|]; [lia|]. apply Z.log2_lt_pow2; [lia|].
    pose proof (Z.log2_lxor a b ltac:(lia) ltac:(lia)).
    assert (forall x, 0 <= x < 256 -> Z.log2 x < 8).
    { intros x Hx. destruct (Z.eq_dec x 0) as [->|]; [cbn; lia|]. apply Z.log2_lt_pow2; lia. }
    pose proof (H1 a ltac:(lia)). pose proof (H1 b ltac:(lia)). lia. }
  change (2 ^ 8) with 256 in T. lia.
Qed.

Lemma decode_head_first : forall d0 d1 d2 d3 r, exists r', decode_head (d0 :: d1 :: d2 :: d3 :: r) = d0 :: d1 :: d2 :: d3 :: r'.
Proof.
  intros. unfold decode_head. generalize (head_seed (d0 :: d1 :: d2 :: d3 :: r)). intros seed.
  destruct (xor_loop_cons d0 (d1 :: d2 :: d3 :: r) 0 0 0 seed) as (k1 & n1 & s1 & ->).
  destruct (xor_loop_cons d1 (d2 :: d3 :: r) (0 + 1) n1 k1 s1) as (k2 & n2 & s2 & ->).
  destruct (xor_loop_cons d2 (d3 :: r) (0 + 1 + 1) n2 k2 s2) as (k3 & n3 & s3 & ->).
  destruct (xor_loop_cons d3 r (0 + 1 + 1 + 1) n3 k3 s3) as (k4 & n4 & s4 & ->).
  eexists. reflexivity.
Qed.

Lemma seed_of_decoded : forall head, seed_of (decode_head head) = seed_of head.
Proof.
  assert (S : forall l, zlen l < 4 -> seed_of l = 0).
  { intros [|? [|? [|? [|? l]]]] H; try reflexivity. rewrite !zlen_cons in H. pose proof (zlen_nonneg _ l). lia. }
  intros head. destruct (Z_lt_le_dec (zlen head) 4) as [L|L].
  - rewrite !S; rewrite ?decode_head_len; lia.
  - destruct head as [|d0 [|d1 [|d2 [|d3 r]]]]; try (rewrite ?zlen_cons, zlen_nil in L; lia).
    destruct (decode_head_first d0 d1 d2 d3 r) as [r' ->]. reflexivity.
Qed.

Lemma znth_some : forall A (l : list A) i, 0 <= i < zlen l -> exists x, znth i l = Some x /\ In x l.
Proof.
  intros A l i H. rewrite znth_nth_error by lia. unfold zlen in H.
  destruct (nth_error l (Z.to_nat i)) as [x|] eqn:E; [exists x; split; [reflexivity|eapply nth_error_In; eassumption]|].
  apply nth_error_None in E. lia.
Qed.

Lemma znth_all_bytes : forall l i x, all_bytes l -> 0 <= i -> znth i l = Some x -> is_byte x.
Proof.
  intros l i x HB Hi H. rewrite znth_nth_error in H by lia. apply nth_error_In in H.
  unfold all_bytes in HB. rewrite Forall_forall in HB. auto.
Qed.

Lemma run_key_byte : forall seed j, 0 <= run_key seed j < 256.
Proof. intros. unfold run_key. apply Z.mod_pos_bound. lia. Qed.

Lemma decode_head_bytes : forall head, all_bytes head -> all_bytes (decode_head head).
Proof.
  intros head HB. apply Forall_forall. intros x Hx. apply In_nth_error in Hx. destruct Hx as [k Hk].
  assert (L : (k < List.length (decode_head head))%nat) by (apply nth_error_Some; congruence).
  pose proof (decode_head_len head) as HL. unfold zlen in HL.
  destruct (in_run_exists (seed_of head) (Z.of_nat k) ltac:(lia)) as [j Hj].
  pose proof (decode_head_spec head (Z.of_nat k) j HB ltac:(unfold zlen; lia) Hj) as E.
  destruct (znth_some _ head (Z.of_nat k) ltac:(unfold zlen; lia)) as [d [Ed _]]. rewrite Ed in E.
  rewrite znth_nth_error, Nat2Z.id, Hk in E by lia. injection E as ->.
  apply znth_all_bytes in Ed; [|exact HB|lia]. destruct (Z.of_nat k <? 4); [exact Ed|]. apply lxor_byte; [exact Ed|apply run_key_byte].
Qed.

Theorem decode_head_involutive : forall head, all_bytes head -> decode_head (decode_head head) = head.
Proof.
  intros head HB. apply znth_ext; [now rewrite !decode_head_len|].
  rewrite !decode_head_len. intros i Hi.
  destruct (in_run_exists (seed_of head) i ltac:(lia)) as [j Hj].
  rewrite (decode_head_spec _ i j).
  - rewrite (decode_head_spec head i j) by assumption. rewrite seed_of_decoded.
    destruct (znth i head) as [d|]; [|reflexivity]. destruct (i <? 4); [reflexivity|].
    rewrite Z.lxor_assoc, Z.lxor_nilpotent, Z.lxor_0_r. reflexivity.
  - apply decode_head_bytes; exact HB.
  - rewrite decode_head_len. exact Hi.
  - rewrite seed_of_decoded. exact Hj.
Qed.

Theorem digest_spec : forall head, all_bytes head -> zlen head = 256 ->
  exists digest, decode_head_to_sha1 head = Ok digest /\ zlen digest = 80 /\
    exists before after, decode_head head = before ++ digest ++ after /\ zlen before = 4 + seed_of head mod 16.
Proof.
  intros head HB HL. unfold decode_head_to_sha1. rewrite HL. cbn [Z.eqb Pos.eqb]. rewrite head_seed_is by exact HB.
  rewrite (land_ones_mod _ 0xf 4) by (lia || reflexivity). change (2 ^ 4) with 16.
  pose proof (Z.mod_pos_bound (seed_of head) 16 ltac:(lia)) as HM. set (m := seed_of head mod 16) in *.
  eexists. split; [reflexivity|]. pose proof (decode_head_len head) as HD. rewrite HL in HD. unfold zslice.
  split.
  - rewrite zlen_ztake, zlen_zdrop. lia.
  - exists (ztake (4 + m) (decode_head head)), (zdrop (4 + m + 80) (decode_head head)). split; [|rewrite zlen_ztake; lia].
    replace (4 + m + 80 - (4 + m)) with 80 by lia.
    assert (E : zdrop (4 + m + 80) (decode_head head) = zdrop 80 (zdrop (4 + m) (decode_head head))).
    { rewrite zdrop_zdrop by lia. f_equal. lia. }
    rewrite E, ztake_zdrop, ztake_zdrop. reflexivity.
Qed.

Theorem digest_wrong_length : forall head, zlen head <> 256 -> decode_head_to_sha1 head = Raise ValueError /\ decode_head_to_key head = Raise ValueError.
Proof.
  intros head H. unfold decode_head_to_key, decode_head_to_sha1. replace (zlen head =? 256) with false by lia. split; reflexivity.
Qed.

Theorem key_spec : forall head key, all_bytes head -> decode_head_to_key head = Ok key ->
  exists digest rest, decode_head_to_sha1 head = Ok digest /\ digest = key ++ rest /\ zlen key = 16.
Proof.
  intros head key HB H. destruct (Z.eq_dec (zlen head) 256) as [E|E].
  - destruct (digest_spec head HB E) as (digest & E1 & E2 & _). exists digest, (zdrop 16 digest). split; [exact E1|].
    unfold decode_head_to_key in H. rewrite E1 in H. cbn in H. injection H as <-. split; [now rewrite ztake_zdrop|]. rewrite zlen_ztake. lia.
  - destruct (digest_wrong_length head E) as [_ E2]. congruence.
Qed.

Section Decode.
  Variable decrypt : list Z -> list Z -> res (list Z).

  Lemma read_first : forall h t l n p rest, header_says h t l n -> 0 < n -> zlen p = n ->
    read_record (open_bytes (h ++ p ++ rest)) 0 = (Ok (Some (record_of 0 t l n p)), mkStream rest (zlen h + n)).
  Proof.
    intros h t l n p rest Hh Hn Hp. unfold open_bytes. rewrite (read_record_says h t l n) by assumption.
    rewrite (readn_app n p rest) by assumption. rewrite Z.add_0_l. reflexivity.
  Qed.

  Theorem decode_is : forall h l n p rest, header_says h 28 l n -> 0 < n -> zlen p = n ->
    distdoc_decode decrypt (open_bytes (h ++ p ++ rest)) =
    match decode_head_to_key p with Ok key => decrypt key rest | Raise e => Raise e end.
  Proof.
    intros h l n p rest Hh Hn Hp. unfold distdoc_decode. rewrite (read_first h 28 l n p rest) by assumption.
    cbn. destruct (decode_head_to_key p); reflexivity.
  Qed.

  Theorem decode_other_tag : forall h t l n p rest, header_says h t l n -> 0 < n -> zlen p = n -> t <> 28 ->
    distdoc_decode decrypt (open_bytes (h ++ p ++ rest)) = Raise IOError.
  Proof.
    intros h t l n p rest Hh Hn Hp Ht. unfold distdoc_decode. rewrite (read_first h t l n p rest) by assumption.
    unfold record_of, HWPTAG_DISTRIBUTE_DOC_DATA, HWPTAG_BEGIN. cbn [r_tagid]. replace (t =? 16 + 12) with false by lia. reflexivity.
  Qed.

  Theorem decode_empty : distdoc_decode decrypt (open_bytes []) = Raise TypeError.
  Proof. reflexivity. Qed.

  Theorem wrapper_parts : forall t l p rest, header_says (short_header t l 256) t l 256 -> zlen p = 256 ->
    distdoc_head (short_header t l 256 ++ p ++ rest) = Ok p /\
    distdoc_head_sha1 (short_header t l 256 ++ p ++ rest) = decode_head_to_sha1 p /\
    distdoc_head_key (short_header t l 256 ++ p ++ rest) = decode_head_to_key p /\
    distdoc_tail (short_header t l 256 ++ p ++ rest) = Ok rest /\
    distdoc_tail_decrypted decrypt (short_header t l 256 ++ p ++ rest) =
      match decode_head_to_key p with Ok key => decrypt key rest | Raise e => Raise e end.
  Proof.
    intros t l p rest Hh Hp. pose proof (read_first _ t l 256 p rest Hh ltac:(lia) Hp) as E.
    assert (EH : distdoc_head (short_header t l 256 ++ p ++ rest) = Ok p) by (unfold distdoc_head; rewrite E; reflexivity).
    assert (ET : distdoc_tail (short_header t l 256 ++ p ++ rest) = Ok rest) by (unfold distdoc_tail; rewrite E; reflexivity).
    assert (EK : distdoc_head_key (short_header t l 256 ++ p ++ rest) = decode_head_to_key p) by (unfold distdoc_head_key; rewrite EH; reflexivity).
    split; [exact EH|]. split; [unfold distdoc_head_sha1; rewrite EH; reflexivity|]. split; [exact EK|]. split; [exact ET|].
    unfold distdoc_tail_decrypted. rewrite EK, ET. destruct (decode_head_to_key p); reflexivity.
  Qed.
End Decode.
