(** UTF-16 decoding inverts encoding, and accepts nothing else. *)
From Coq Require Import ZArith List Bool Lia.
From Verif Require Import Base BaseFacts Model_Text Model_Dataio Spec_Text Spec_Dataio Proof_Dataio.
Import ListNotations.
Open Scope Z_scope.

Lemma units_of_le16 : forall us rest, Forall (fun u => 0 <= u < 65536) us ->
  units_of_bytes (concat (map le16 us) ++ rest) =
  match units_of_bytes rest with Some r => Some (us ++ r) | None => None end.
Proof.
  intros us rest H. induction H as [|u us Hu Hus IH]; cbn [map concat app].
  - destruct (units_of_bytes rest); reflexivity.
  - unfold le16 at 1. cbn [app units_of_bytes]. rewrite IH. destruct (units_of_bytes rest); [|reflexivity].
    do 2 f_equal. lia.
Qed.

Lemma units_of_bytes_inv : forall b us, all_bytes b -> units_of_bytes b = Some us ->
  b = concat (map le16 us) /\ Forall (fun u => 0 <= u < 65536) us.
Proof.
  intros b. remember (List.length b) as n eqn:En. revert b En.
  induction n as [n IH] using lt_wf_ind. intros b En us Hb H.
  destruct b as [|lo [|hi t]]; cbn [units_of_bytes] in H.
  - inversion H; subst. split; [reflexivity|constructor].
  - discriminate.
  - destruct (units_of_bytes t) as [us'|] eqn:E; [|discriminate]. injection H as <-.
    inversion Hb as [|? ? Hlo Hb1]; subst. inversion Hb1 as [|? ? Hhi Hb2]; subst.
    destruct (IH (List.length t)) with (b := t) (us := us') as [E1 E2]; [cbn [List.length]; lia|reflexivity|assumption|assumption|].
    unfold is_byte in *. split.
    + cbn [map concat le16 app]. rewrite <- E1. f_equal; [lia|]. f_equal. lia.
    + constructor; [lia|exact E2].
Qed.

Lemma units_bound : forall cs, Forall scalar cs -> Forall (fun u => 0 <= u < 65536) (utf16_units cs).
Proof.
  intros cs H. unfold utf16_units. induction H as [|c cs Hc Hcs IH]; cbn; [constructor|].
  apply Forall_app. split; [|exact IH]. unfold utf16_units_of, scalar in *.
  destruct (c <? 0x10000) eqn:E; repeat constructor; lia.
Qed.

Lemma decode_units_app : forall c us, scalar c ->
  utf16_decode_units (utf16_units_of c ++ us) =
  match utf16_decode_units us with Some cs => Some (c :: cs) | None => None end.
Proof.
  intros c us Hc. unfold utf16_units_of, scalar in *. destruct (c <? 0x10000) eqn:E; cbn [app utf16_decode_units].
  - unfold is_high_surrogate, is_low_surrogate.
    replace ((0xD800 <=? c) && (c <=? 0xDBFF)) with false by lia.
    replace ((0xDC00 <=? c) && (c <=? 0xDFFF)) with false by lia. reflexivity.
  - set (h := 0xD800 + (c - 0x10000) / 0x400). set (l := 0xDC00 + (c - 0x10000) mod 0x400).
    assert (Hh : 0xD800 <= h <= 0xDBFF) by (unfold h; lia).
    assert (Hl : 0xDC00 <= l <= 0xDFFF) by (unfold l; lia).
    unfold is_high_surrogate, is_low_surrogate.
    replace ((0xD800 <=? h) && (h <=? 0xDBFF)) with true by lia.
    replace ((0xDC00 <=? l) && (l <=? 0xDFFF)) with true by lia.
    destruct (utf16_decode_units us); [|reflexivity]. do 2 f_equal. unfold h, l. lia.
Qed.

Lemma decode_units_ok : forall cs, Forall scalar cs -> utf16_decode_units (utf16_units cs) = Some cs.
Proof.
  intros cs H. unfold utf16_units. induction H as [|c cs Hc Hcs IH]; [reflexivity|].
  cbn [map concat]. rewrite decode_units_app by assumption. now rewrite IH.
Qed.

Lemma decode_units_inv : forall us cs, Forall (fun u => 0 <= u < 65536) us ->
  utf16_decode_units us = Some cs -> us = utf16_units cs /\ Forall scalar cs.
Proof.
  intros us. remember (List.length us) as n eqn:En. revert us En.
  induction n as [n IH] using lt_wf_ind. intros us En cs HU H.
  destruct us as [|u rest].
  - inversion H; subst. split; [reflexivity|constructor].
  - cbn [utf16_decode_units] in H. inversion HU as [|? ? Hu HU']; subst.
    destruct (is_high_surrogate u) eqn:EH.
    + destruct rest as [|v rest']; [discriminate|]. destruct (is_low_surrogate v) eqn:EL; [|discriminate].
      destruct (utf16_decode_units rest') as [cs'|] eqn:E; [|discriminate]. injection H as <-.
      inversion HU' as [|? ? Hv HU'']; subst.
      destruct (IH (List.length rest')) with (us := rest') (cs := cs') as [E1 E2]; [cbn [List.length]; lia|reflexivity|assumption|assumption|].
      unfold is_high_surrogate, is_low_surrogate in *. split.
      * unfold utf16_units. cbn [map concat]. fold (utf16_units cs'). rewrite <- E1.
        unfold utf16_units_of.
        replace (0x10000 + (u - 0xD800) * 0x400 + (v - 0xDC00) <? 0x10000) with false by lia.
        cbn [app]. f_equal; [lia|]. f_equal. lia.
      * constructor; [unfold scalar; lia|exact E2].
    + destruct (is_low_surrogate u) eqn:EL; [discriminate|].
      destruct (utf16_decode_units rest) as [cs'|] eqn:E; [|discriminate]. injection H as <-.
      destruct (IH (List.length rest)) with (us := rest) (cs := cs') as [E1 E2]; [cbn [List.length]; lia|reflexivity|assumption|assumption|].
      unfold is_high_surrogate, is_low_surrogate in *. split.
      * unfold utf16_units. cbn [map concat]. fold (utf16_units cs'). rewrite <- E1.
        unfold utf16_units_of. replace (u <? 0x10000) with true by lia. reflexivity.
      * constructor; [unfold scalar; lia|exact E2].
Qed.

Theorem utf16le_decode_iff : forall b cs, all_bytes b ->
  utf16le_decode b = Ok cs <-> (b = utf16le_bytes cs /\ Forall scalar cs).
Proof.
  intros b cs Hb. unfold utf16le_decode, utf16le_bytes. split.
  - destruct (units_of_bytes b) as [us|] eqn:E; [|discriminate].
    destruct (units_of_bytes_inv b us Hb E) as [E1 E2].
    destruct (utf16_decode_units us) as [cs'|] eqn:E3; [|discriminate].
    intros H; inversion H; subst cs'. destruct (decode_units_inv us cs E2 E3) as [E4 E5].
    split; [congruence|exact E5].
  - intros [-> HS]. pose proof (units_of_le16 (utf16_units cs) [] (units_bound cs HS)) as E.
    rewrite app_nil_r in E. rewrite E. cbn. rewrite app_nil_r, decode_units_ok by assumption. reflexivity.
Qed.

Theorem utf16le_decode_error : forall b e, utf16le_decode b = Raise e -> e = UnicodeDecodeError.
Proof.
  intros b e. unfold utf16le_decode. destruct (units_of_bytes b) as [us|]; [|congruence].
  destruct (utf16_decode_units us); congruence.
Qed.

Lemma zlen_utf16le : forall cs, zlen (utf16le_bytes cs) = 2 * zlen (utf16_units cs).
Proof.
  intros. unfold utf16le_bytes. induction (utf16_units cs) as [|u us IH]; [reflexivity|].
  cbn [map concat]. rewrite zlen_app, IH, zlen_cons. change (zlen (le16 u)) with 2. lia.
Qed.

Theorem bstr_roundtrip : forall cs rest pos, Forall scalar cs -> zlen (utf16_units cs) < 65536 ->
  bstr_read (mkStream (number_bytes 2 (zlen (utf16_units cs)) ++ utf16le_bytes cs ++ rest) pos) =
  (Ok cs, mkStream rest (pos + 2 + zlen (utf16le_bytes cs))).
Proof.
  intros cs rest pos HS HL. unfold bstr_read. pose proof (zlen_nonneg _ (utf16_units cs)) as H0.
  change 2%nat with (fmt_width UINT16).
  rewrite (prim_read_of_number UINT16) by (cbn; lia).
  destruct (zlen (utf16_units cs) =? 0) eqn:E.
  - apply Z.eqb_eq in E. pose proof E as E'. apply zlen_zero in E.
    assert (cs = []).
    { destruct cs as [|c cs]; [reflexivity|]. unfold utf16_units in E. cbn in E. unfold utf16_units_of in E.
      destruct (c <? 0x10000); discriminate. }
    subst cs. cbn. do 2 f_equal. lia.
  - assert (EB : zlen (utf16le_bytes cs) = 2 * zlen (utf16_units cs)) by apply zlen_utf16le.
    unfold readn, stream_read. cbn [s_rest s_pos].
    rewrite ztake_app_eq, zdrop_app_eq by lia. replace (zlen (utf16le_bytes cs) =? 0) with false by lia.
    f_equal. apply utf16le_decode_iff; [|auto].
    unfold utf16le_bytes. pose proof (units_bound cs HS) as HB. clear - HB.
    induction HB as [|u us Hu HB IH]; [constructor|]. cbn [map concat]. apply all_bytes_app. split; [|exact IH].
    unfold le16. repeat constructor; unfold is_byte; lia.
Qed.

(** A string cut by the end of the stream is decoded from what is there. *)
Theorem bstr_cut_silently : forall n b pos, 0 < n < 65536 -> 0 < zlen b < 2 * n ->
  bstr_read (mkStream (number_bytes 2 n ++ b) pos) = (utf16le_decode b, mkStream [] (pos + 2 + zlen b)).
Proof.
  intros n b pos Hn Hb. unfold bstr_read. change 2%nat with (fmt_width UINT16).
  rewrite (prim_read_of_number UINT16) by (cbn; lia). replace (n =? 0) with false by lia.
  unfold readn, stream_read. cbn [s_rest s_pos]. rewrite ztake_all, zdrop_all by lia.
  replace (zlen b =? 0) with false by lia. reflexivity.
Qed.
