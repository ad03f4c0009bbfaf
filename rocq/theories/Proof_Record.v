(** Proofs about the record stream. *)
From Coq Require Import ZArith String List Bool Lia.
From Verif Require Import Base BaseFacts Model_Text Model_Dataio Model_Record Spec_Record Proof_Text.
Import ListNotations.
Open Scope Z_scope.

(** ** Bit arithmetic *)

Lemma lor_shiftl_add : forall a b k, 0 <= k -> 0 <= b < 2 ^ k ->
  Z.lor (Z.shiftl a k) b = a * 2 ^ k + b.
Proof.
  intros a b k Hk Hb.
  assert (HL : Z.land (Z.shiftl a k) b = 0).
  { apply Z.bits_inj'. intros i Hi. rewrite Z.land_spec, Z.bits_0, Z.shiftl_spec by lia.
    destruct (Z_lt_ge_dec i k).
    - rewrite Z.testbit_neg_r by lia. reflexivity.
    - replace b with (b mod 2 ^ k) by (apply Z.mod_small; lia).
      rewrite Z.mod_pow2_bits_high by lia. apply andb_false_r. }
  rewrite <- (Z.lxor_lor _ _ HL), <- (Z.add_nocarry_lxor _ _ HL), Z.shiftl_mul_pow2 by lia. reflexivity.
Qed.

Lemma land_ones_10 : forall w, Z.land w 0x3ff = w mod 1024.
Proof. intros. change 0x3ff with (Z.ones 10). rewrite Z.land_ones by lia. reflexivity. Qed.
Lemma land_ones_12 : forall w, Z.land w 0xfff = w mod 4096.
Proof. intros. change 0xfff with (Z.ones 12). rewrite Z.land_ones by lia. reflexivity. Qed.
Lemma shiftr_10 : forall w, Z.shiftr w 10 = w / 1024.
Proof. intros. rewrite Z.shiftr_div_pow2 by lia. reflexivity. Qed.
Lemma shiftr_20 : forall w, Z.shiftr w 20 = w / 1048576.
Proof. intros. rewrite Z.shiftr_div_pow2 by lia. reflexivity. Qed.

Lemma header_word : forall s l t, tag_ok t -> tag_ok l ->
  Z.lor (Z.lor (Z.shiftl s 20) (Z.shiftl l 10)) t = t + 1024 * l + 1048576 * s.
Proof.
  unfold tag_ok. intros s l t Ht Hl. rewrite <- Z.lor_assoc.
  rewrite (lor_shiftl_add l t 10) by (change (2 ^ 10) with 1024; lia).
  rewrite lor_shiftl_add by (change (2 ^ 10) with 1024; change (2 ^ 20) with 1048576; lia).
  change (2 ^ 10) with 1024; change (2 ^ 20) with 1048576. lia.
Qed.

(** ** le32 *)

Lemma le32_encode : forall v, le32 v = le_encode 4 v.
Proof.
  intros v. unfold le32. cbn [le_encode]. rewrite !Z.div_div by lia. reflexivity.
Qed.
Lemma zlen_le32 : forall v, zlen (le32 v) = 4.
Proof. reflexivity. Qed.
Lemma le_decode_le32 : forall v, 0 <= v < 4294967296 -> le_decode (le32 v) = v.
Proof. intros. rewrite le32_encode. apply le_decode_encode. exact H. Qed.
Lemma le32_of_decode : forall b, all_bytes b -> zlen b = 4 -> b = le32 (le_decode b) /\ 0 <= le_decode b < 4294967296.
Proof.
  intros b Hb HL. split.
  - rewrite le32_encode. replace 4%nat with (List.length b) by (unfold zlen in HL; lia).
    symmetry. apply le_encode_decode. exact Hb.
  - pose proof (le_decode_range b Hb) as R. rewrite HL in R. exact R.
Qed.

(** ** Primitive reads *)

Lemma readn_app : forall n d rest pos, zlen d = n -> 0 < n ->
  readn n (mkStream (d ++ rest) pos) = (Ok d, mkStream rest (pos + n)).
Proof.
  intros n d rest pos HL Hn. unfold readn, stream_read. cbn [s_rest s_pos].
  rewrite (ztake_app_eq _ n d rest) by lia. rewrite (zdrop_app_eq _ n d rest) by lia.
  replace (zlen d =? 0) with false by lia. rewrite HL. reflexivity.
Qed.

Lemma readn_short : forall n rest pos, 0 < zlen rest <= n ->
  readn n (mkStream rest pos) = (Ok rest, mkStream [] (pos + zlen rest)).
Proof.
  intros n rest pos H. unfold readn, stream_read. cbn [s_rest s_pos].
  rewrite ztake_all, zdrop_all by lia. replace (zlen rest =? 0) with false by lia. reflexivity.
Qed.

Lemma readn_nil : forall n pos, readn n (mkStream [] pos) = (Raise (Eof pos), mkStream [] pos).
Proof. intros. unfold readn, stream_read. cbn. rewrite Z.add_0_r. reflexivity. Qed.

Lemma readn_zero : forall rest pos, readn 0 (mkStream rest pos) = (Raise (Eof pos), mkStream rest pos).
Proof.
  intros. unfold readn, stream_read. cbn [s_rest s_pos].
  rewrite ztake_nonpos, zdrop_nonpos by lia. cbn. rewrite Z.add_0_r. reflexivity.
Qed.

Lemma read_u32_ok : forall v rest pos, 0 <= v < 4294967296 ->
  prim_read UINT32 (mkStream (le32 v ++ rest) pos) = (Ok v, mkStream rest (pos + 4)).
Proof.
  intros v rest pos Hv. unfold prim_read. change (calcsize UINT32) with 4.
  rewrite readn_app by (try reflexivity; lia). unfold struct_unpack, UINT32.
  change (zlen (le32 v) =? calcsize (FmtUInt 4)) with true. cbv iota.
  rewrite le_decode_le32 by assumption. reflexivity.
Qed.

Lemma read_u32_nil : forall pos,
  prim_read UINT32 (mkStream [] pos) = (Raise (Eof pos), mkStream [] pos).
Proof. intros. unfold prim_read. rewrite readn_nil. reflexivity. Qed.

Lemma read_u32_short : forall b pos, 1 <= zlen b <= 3 ->
  prim_read UINT32 (mkStream b pos) = (Raise StructError, mkStream [] (pos + zlen b)).
Proof.
  intros. unfold prim_read. change (calcsize UINT32) with 4. rewrite readn_short by lia.
  unfold struct_unpack. change (calcsize UINT32) with 4. replace (zlen b =? 4) with false by lia. reflexivity.
Qed.

(** ** Header decoding *)

Lemma decode_word_fields : forall t l n, tag_ok t -> tag_ok l -> 0 <= n < 4096 ->
  let w := t + 1024 * l + 1048576 * n in
  0 <= w < 4294967296 /\ Z.land w 0x3ff = t /\ Z.land (Z.shiftr w 10) 0x3ff = l /\
  Z.land (Z.shiftr w 20) 0xfff = n.
Proof.
  intros t l n Ht Hl Hn w. unfold tag_ok in *.
  rewrite !land_ones_10, land_ones_12, shiftr_10, shiftr_20. subst w. lia.
Qed.

Lemma decode_short : forall t l n rest pos, tag_ok t -> tag_ok l -> 0 <= n < 4095 ->
  decode_record_header (mkStream (short_header t l n ++ rest) pos) =
  (Ok (Some (t, l, n)), mkStream rest (pos + 4)).
Proof.
  intros t l n rest pos Ht Hl Hn.
  destruct (decode_word_fields t l n Ht Hl ltac:(lia)) as (R & E1 & E2 & E3).
  unfold decode_record_header, short_header. rewrite read_u32_ok by assumption.
  cbv zeta. rewrite E1, E2, E3. replace (n =? 0xfff) with false by lia. reflexivity.
Qed.

Lemma decode_ext : forall t l rest pos, tag_ok t -> tag_ok l ->
  decode_record_header (mkStream (short_header t l 4095 ++ rest) pos) =
  match prim_read UINT32 (mkStream rest (pos + 4)) with
  | (Raise (Eof _), s2) => (Ok None, s2)
  | (Raise e, s2) => (Raise e, s2)
  | (Ok size', s2) => (Ok (Some (t, l, size')), s2)
  end.
Proof.
  intros t l rest pos Ht Hl.
  destruct (decode_word_fields t l 4095 Ht Hl ltac:(lia)) as (R & E1 & E2 & E3).
  unfold decode_record_header, short_header. rewrite read_u32_ok by assumption.
  cbv zeta. rewrite E1, E2, E3. reflexivity.
Qed.

Lemma long_header_app : forall t l n, long_header t l n = short_header t l 4095 ++ le32 n.
Proof. reflexivity. Qed.

Lemma decode_says : forall h t l n rest pos, header_says h t l n ->
  decode_record_header (mkStream (h ++ rest) pos) =
  (Ok (Some (t, l, n)), mkStream rest (pos + zlen h)).
Proof.
  intros h t l n rest pos H. destruct H as [t l n Ht Hl Hn|t l n Ht Hl Hn].
  - rewrite decode_short by assumption. reflexivity.
  - rewrite long_header_app, <- app_assoc, decode_ext by assumption.
    rewrite read_u32_ok by assumption. rewrite <- Z.add_assoc. reflexivity.
Qed.

Lemma decode_nil : forall pos, decode_record_header (mkStream [] pos) = (Ok None, mkStream [] pos).
Proof. intros. unfold decode_record_header. rewrite read_u32_nil. reflexivity. Qed.

Lemma decode_partial : forall b pos, 1 <= zlen b <= 3 ->
  decode_record_header (mkStream b pos) = (Raise StructError, mkStream [] (pos + zlen b)).
Proof. intros. unfold decode_record_header. rewrite read_u32_short by assumption. reflexivity. Qed.

(** Every byte string starts in exactly one of these ways. *)
Lemma split_word : forall b, all_bytes b -> 4 <= zlen b ->
  exists t l n rest, tag_ok t /\ tag_ok l /\ 0 <= n < 4096 /\ b = short_header t l n ++ rest /\
                     all_bytes rest.
Proof.
  intros b Hb HL.
  pose proof (ztake_zdrop _ 4 b) as E.
  assert (H4 : all_bytes (ztake 4 b)) by now apply all_bytes_ztake.
  assert (L4 : zlen (ztake 4 b) = 4) by (rewrite zlen_ztake; lia).
  destruct (le32_of_decode _ H4 L4) as [E4 R].
  set (w := le_decode (ztake 4 b)) in *.
  exists (w mod 1024), (w / 1024 mod 1024), (w / 1048576), (zdrop 4 b).
  unfold tag_ok. repeat split; try lia.
  - unfold short_header.
    replace (w mod 1024 + 1024 * (w / 1024 mod 1024) + 1048576 * (w / 1048576)) with w by lia.
    rewrite <- E4. symmetry. exact E.
  - now apply all_bytes_zdrop.
Qed.

Inductive stream_head : list Z -> Prop :=
| sh_nil : stream_head []
| sh_partial : forall b, 1 <= zlen b <= 3 -> stream_head b
| sh_bare : forall h, header_word_ext h -> stream_head h
| sh_short_ext : forall h b, header_word_ext h -> 1 <= zlen b <= 3 -> stream_head (h ++ b)
| sh_says : forall h t l n b, header_says h t l n -> all_bytes b -> stream_head (h ++ b).

Lemma stream_head_total : forall b, all_bytes b -> stream_head b.
Proof.
  intros b Hb. pose proof (zlen_nonneg _ b).
  destruct (Z_lt_ge_dec (zlen b) 4) as [L|L].
  - destruct (Z.eq_dec (zlen b) 0) as [Z0|NZ].
    + apply zlen_zero in Z0. subst. constructor.
    + apply sh_partial. lia.
  - destruct (split_word b Hb ltac:(lia)) as (t & l & n & rest & Ht & Hl & Hn & -> & Hr).
    destruct (Z.eq_dec n 4095) as [->|NE].
    + pose proof (zlen_nonneg _ rest).
      destruct (Z_lt_ge_dec (zlen rest) 4) as [L2|L2].
      * destruct (Z.eq_dec (zlen rest) 0) as [Z0|NZ].
        -- apply zlen_zero in Z0. subst. rewrite app_nil_r. apply sh_bare. now constructor.
        -- apply sh_short_ext; [now constructor|lia].
      * pose proof (ztake_zdrop _ 4 rest) as E.
        assert (H4 : all_bytes (ztake 4 rest)) by now apply all_bytes_ztake.
        assert (L4 : zlen (ztake 4 rest) = 4) by (rewrite zlen_ztake; lia).
        destruct (le32_of_decode _ H4 L4) as [E4 R].
        rewrite <- E, E4, app_assoc, <- long_header_app.
        eapply sh_says; [apply says_long; assumption|]. now apply all_bytes_zdrop.
    + eapply sh_says; [apply says_short; try assumption; lia|assumption].
Qed.

Lemma header_says_len : forall h t l n, header_says h t l n -> 4 <= zlen h.
Proof. intros h t l n []; cbn; lia. Qed.
Lemma header_says_size : forall h t l n, header_says h t l n -> 0 <= n.
Proof. intros h t l n []; lia. Qed.

(** ** read_records follows the grammar *)

Lemma read_record_says : forall h t l n rest pos sq, header_says h t l n ->
  read_record (mkStream (h ++ rest) pos) sq =
  match readn n (mkStream rest (pos + zlen h)) with
  | (Raise e, s2) => (Raise e, s2)
  | (Ok payload, s2) => (Ok (Some (record_of sq t l n payload)), s2)
  end.
Proof.
  intros. unfold read_record. rewrite (decode_says h t l n) by assumption. reflexivity.
Qed.

Theorem grammar_reader : forall off sq b rs o,
  record_stream off sq b rs o ->
  forall fuel, (List.length b < fuel)%nat ->
  read_records_loop fuel (mkStream b off) sq = (rs, o).
Proof.
  induction 1 as [off sq|off sq b HB|off sq h Hh|off sq h b Hh HB|off sq h t l b Hh
                 |off sq h t l n Hh Hn|off sq h t l n p Hh Hp|off sq h t l n p b rs o Hh Hn Hp _ IH];
    intros fuel Hf; (destruct fuel as [|k]; [lia|]); cbn [read_records_loop].
  - unfold read_record. rewrite decode_nil. reflexivity.
  - unfold read_record. rewrite decode_partial by assumption. reflexivity.
  - destruct Hh as [t l Ht Hl]. unfold read_record.
    rewrite <- (app_nil_r (short_header t l 4095)), decode_ext, read_u32_nil by assumption. reflexivity.
  - destruct Hh as [t l Ht Hl]. unfold read_record.
    rewrite decode_ext, read_u32_short by assumption. reflexivity.
  - rewrite (read_record_says h t l 0) by assumption. rewrite readn_zero. reflexivity.
  - rewrite <- (app_nil_r h). rewrite (read_record_says h t l n) by assumption.
    rewrite readn_nil, app_nil_r. reflexivity.
  - rewrite (read_record_says h t l n) by assumption. rewrite readn_short by lia.
    pose proof (header_says_len _ _ _ _ Hh) as HL. unfold zlen in HL.
    destruct k as [|k]; [rewrite app_length in Hf; lia|].
    cbn [read_records_loop]. unfold read_record. rewrite decode_nil. reflexivity.
  - rewrite (read_record_says h t l n) by assumption. rewrite (readn_app n p b) by assumption.
    rewrite IH; [reflexivity|]. rewrite !app_length in Hf.
    pose proof (header_says_len _ _ _ _ Hh) as HL. unfold zlen in HL. lia.
Qed.

Theorem grammar_total : forall b off sq, all_bytes b -> exists rs o, record_stream off sq b rs o.
Proof.
  intros b. remember (List.length b) as m eqn:Em. revert b Em.
  induction m as [m IH] using lt_wf_ind. intros b Em off sq Hb.
  destruct (stream_head_total b Hb) as [|b HB|h Hh|h b Hh HB|h t l n b Hh Hbb].
  - do 2 eexists; constructor.
  - do 2 eexists; now apply rs_short_header.
  - do 2 eexists; now apply rs_bare_extended.
  - do 2 eexists; now apply rs_short_extended.
  - pose proof (header_says_size _ _ _ _ Hh) as Hn0.
    destruct (Z.eq_dec n 0) as [->|Hn].
    + do 2 eexists. eapply rs_size_zero. exact Hh.
    + pose proof (zlen_nonneg _ b) as Hlb. destruct (Z.eq_dec (zlen b) 0) as [Z0|NZ].
      * apply zlen_zero in Z0. subst b. rewrite app_nil_r. do 2 eexists. eapply rs_no_payload; [exact Hh|lia].
      * destruct (Z_lt_ge_dec (zlen b) n) as [L|L].
        -- do 2 eexists. eapply rs_truncated; [exact Hh|lia].
        -- rewrite <- (ztake_zdrop _ n b).
           destruct (IH (List.length (zdrop n b))) with (b := zdrop n b) (off := off + zlen h + n) (sq := sq + 1)
             as (rs & o & HS).
           ++ pose proof (header_says_len _ _ _ _ Hh) as HL.
              pose proof (zlen_zdrop _ n b) as HD. subst m. rewrite app_length. unfold zlen in *. lia.
           ++ reflexivity.
           ++ now apply all_bytes_zdrop.
           ++ do 2 eexists. eapply rs_record; [exact Hh|lia| |exact HS].
              rewrite zlen_ztake. lia.
Qed.

Theorem read_records_grammar : forall b rs o, all_bytes b ->
  read_records (open_bytes b) = (rs, o) <-> record_stream 0 0 b rs o.
Proof.
  intros b rs o Hb. split.
  - intros E. destruct (grammar_total b 0 0 Hb) as (rs' & o' & HS).
    pose proof (grammar_reader _ _ _ _ _ HS (S (List.length b)) ltac:(lia)) as E'.
    unfold read_records, open_bytes in E. cbn [s_rest] in E. rewrite E' in E.
    inversion E; subst. exact HS.
  - intros HS. unfold read_records, open_bytes. cbn [s_rest]. eapply grammar_reader; [exact HS|lia].
Qed.

(** ** Encoding *)

Lemma pack_I_ok : forall v, 0 <= v < 4294967296 -> pack_I v = Ok (le32 v).
Proof.
  intros v Hv. unfold pack_I. change (2 ^ 32) with 4294967296.
  replace ((0 <=? v) && (v <? 4294967296)) with true by lia. now rewrite le32_encode.
Qed.

Theorem encode_header_wire : forall t l p, tag_ok t -> tag_ok l -> zlen p < 4294967296 ->
  encode_record_header t l p = Ok (wire_header t l (zlen p)).
Proof.
  intros t l p Ht Hl Hp. unfold encode_record_header, wire_header. cbv zeta.
  pose proof (zlen_nonneg _ p) as H0. change 0xfff with 4095.
  unfold tag_ok in *.
  destruct (zlen p <? 4095) eqn:E.
  - rewrite header_word by assumption. rewrite pack_I_ok by lia. reflexivity.
  - rewrite header_word by assumption. rewrite pack_I_ok by lia. cbn [bind].
    rewrite pack_I_ok by lia. reflexivity.
Qed.

Lemma wire_header_says : forall t l n, tag_ok t -> tag_ok l -> 0 <= n < 4294967296 ->
  header_says (wire_header t l n) t l n.
Proof.
  intros t l n Ht Hl Hn. unfold wire_header. destruct (n <? 4095) eqn:E.
  - apply says_short; try assumption; lia.
  - apply says_long; assumption.
Qed.

Theorem header_roundtrip : forall t l p rest pos, tag_ok t -> tag_ok l -> zlen p < 4294967296 ->
  exists h, encode_record_header t l p = Ok h /\
    decode_record_header (mkStream (h ++ rest) pos) =
      (Ok (Some (t, l, zlen p)), mkStream rest (pos + zlen h)) /\
    (zlen h = 4 <-> zlen p < 4095) /\ (zlen h = 8 <-> 4095 <= zlen p).
Proof.
  intros t l p rest pos Ht Hl Hp. pose proof (zlen_nonneg _ p) as H0.
  exists (wire_header t l (zlen p)). split; [now apply encode_header_wire|]. split.
  - apply decode_says. apply wire_header_says; try assumption. lia.
  - unfold wire_header. destruct (zlen p <? 4095) eqn:E; [change (zlen (short_header t l (zlen p))) with 4|change (zlen (long_header t l (zlen p))) with 8]; lia.
Qed.

Lemma dump_record_wire : forall r, raw_ok r ->
  dump_record (to_record r) = Ok (match r with (t, l, p) => wire t l p end).
Proof.
  intros [[t l] p] (Ht & Hl & Hp). unfold dump_record. cbn [to_record r_tagid r_level r_payload make_record].
  rewrite encode_header_wire by assumption. reflexivity.
Qed.

Lemma dump_records_wire : forall rs, Forall raw_ok rs ->
  dump_records (map to_record rs) = Ok (wire_all rs).
Proof.
  induction 1 as [|r rs Hr Hrs IH]; [reflexivity|].
  cbn [map dump_records]. rewrite dump_record_wire by assumption. cbn [bind].
  rewrite IH. reflexivity.
Qed.

Lemma wire_all_cons : forall t l p rs,
  wire_all ((t, l, p) :: rs) = wire_header t l (zlen p) ++ p ++ wire_all rs.
Proof. intros. unfold wire_all. cbn [map concat]. unfold wire. now rewrite <- app_assoc. Qed.

Lemma wire_grammar : forall rs, Forall raw_ok rs -> Forall raw_nonempty rs ->
  forall off sq, record_stream off sq (wire_all rs) (expected sq rs) Finished.
Proof.
  induction 1 as [|[[t l] p] rs (Ht & Hl & Hp) Hrs IH]; intros HN off sq.
  - constructor.
  - inversion HN as [|? ? Hne HN']; subst. cbn [expected]. rewrite wire_all_cons.
    unfold raw_nonempty in Hne. cbn in Hne.
    assert (0 < zlen p).
    { pose proof (zlen_nonneg _ p). destruct (Z.eq_dec (zlen p) 0) as [Z0|]; [|lia].
      apply zlen_zero in Z0. congruence. }
    eapply rs_record.
    + apply wire_header_says; try assumption. lia.
    + assumption.
    + reflexivity.
    + apply IH; assumption.
Qed.

Theorem records_roundtrip : forall rs, Forall raw_ok rs -> Forall raw_nonempty rs ->
  exists b, dump_records (map to_record rs) = Ok b /\
            read_records (open_bytes b) = (expected 0 rs, Finished).
Proof.
  intros rs Hok Hne. exists (wire_all rs). split; [now apply dump_records_wire|].
  unfold read_records, open_bytes. cbn [s_rest].
  eapply grammar_reader; [now apply wire_grammar|lia].
Qed.

(** Any empty payload makes reading fail with Eof at that record. *)
Lemma wire_grammar_empty : forall rs1, Forall raw_ok rs1 -> Forall raw_nonempty rs1 ->
  forall t l rest off sq, tag_ok t -> tag_ok l ->
  record_stream off sq (wire_all rs1 ++ wire t l [] ++ rest) (expected sq rs1)
                (Failed (Eof (off + zlen (wire_all rs1) + 4))).
Proof.
  induction 1 as [|[[t1 l1] p] rs (Ht & Hl & Hp) Hrs IH]; intros HN t l rest off sq Ht' Hl'.
  - change (wire_all []) with (@nil Z). rewrite zlen_nil, Z.add_0_r. cbn [app expected].
    unfold wire. rewrite app_nil_r. change 4 with (zlen (wire_header t l 0)).
    change (zlen (@nil Z)) with 0. eapply rs_size_zero. apply wire_header_says; try assumption. lia.
  - inversion HN as [|? ? Hne HN']; subst. cbn [expected].
    rewrite wire_all_cons, <- !app_assoc.
    unfold raw_nonempty in Hne. cbn in Hne.
    assert (0 < zlen p).
    { pose proof (zlen_nonneg _ p). destruct (Z.eq_dec (zlen p) 0) as [Z0|]; [|lia].
      apply zlen_zero in Z0. congruence. }
    eapply rs_record.
    + apply wire_header_says; try assumption. lia.
    + assumption.
    + reflexivity.
    + rewrite !zlen_app, !Z.add_assoc. apply IH; assumption.
Qed.

(** ** Accounting *)

Lemma grammar_accounts : forall off sq b rs o, record_stream off sq b rs o -> o = Finished ->
  exists parts tail, b = concat parts ++ tail /\ Forall2 accounts rs parts /\
    (tail = [] \/ header_word_ext tail) /\
    map r_seqno rs = map (fun i => Some (sq + Z.of_nat i)) (seq 0 (List.length rs)) /\
    (forall i r, nth_error rs i = Some r -> 0 < zlen (r_payload r) <= r_size r /\
       (zlen (r_payload r) = r_size r \/ S i = List.length rs /\ tail = [])).
Proof.
  induction 1 as [off sq|off sq b HB|off sq h Hh|off sq h b Hh HB|off sq h t l b Hh
                 |off sq h t l n Hh Hn|off sq h t l n p Hh Hp|off sq h t l n p b rs o Hh Hn Hp _ IH];
    intros Eo; try discriminate.
  - exists [], []. repeat split; auto; destruct i; discriminate.
  - exists [], h. repeat split; auto; destruct i; discriminate.
  - exists [h ++ p], []. split; [cbn; now rewrite !app_nil_r|]. split.
    { constructor; [|constructor]. exists h. split; [exact Hh|reflexivity]. }
    split; [now left|]. split.
    { cbn. now rewrite Z.add_0_r. }
    intros [|i] r E; [|destruct i; discriminate]. inversion E; subst. cbn [r_payload r_size record_of].
    split; [lia|]. right. auto.
  - destruct (IH Eo) as (parts & tail & E1 & E2 & E3 & E4 & E5). exists ((h ++ p) :: parts), tail.
    split; [cbn [concat]; rewrite E1, <- !app_assoc; reflexivity|]. split.
    { constructor; [|exact E2]. exists h. split; [exact Hh|reflexivity]. }
    split; [exact E3|]. split.
    { cbn [map List.length seq]. rewrite E4, Z.add_0_r. f_equal. rewrite <- seq_shift, map_map.
      apply map_ext. intros i. f_equal. lia. }
    intros [|i] r E.
    + inversion E; subst. cbn [r_payload r_size record_of]. split; [lia|]. now left.
    + destruct (E5 i r E) as [A B]. split; [exact A|]. destruct B as [B|[B1 B2]]; [now left|right].
      cbn [List.length]. split; [lia|exact B2].
Qed.

Theorem reading_accounts : forall b rs, all_bytes b -> read_records (open_bytes b) = (rs, Finished) ->
  exists parts tail, b = concat parts ++ tail /\ Forall2 accounts rs parts /\
    (tail = [] \/ header_word_ext tail) /\
    map r_seqno rs = map (fun i => Some (Z.of_nat i)) (seq 0 (List.length rs)) /\
    (forall i r, nth_error rs i = Some r -> 0 < zlen (r_payload r) <= r_size r /\
       (zlen (r_payload r) = r_size r \/ S i = List.length rs /\ tail = [])).
Proof.
  intros b rs Hb E. apply read_records_grammar in E; [|assumption].
  exact (grammar_accounts _ _ _ _ _ E eq_refl).
Qed.

(** ** Grouping *)

Lemma tree_split : forall A (level : A -> Z) rs,
  match records_in_a_tree level rs with
  | (g, Some (top, rest)) => rs = g ++ top :: rest /\ Forall (fun y => level y <> 0) g /\ level top = 0
  | (g, None) => rs = g /\ Forall (fun y => level y <> 0) g
  end.
Proof.
  intros A level rs. induction rs as [|r t IH]; cbn [records_in_a_tree]; [auto|].
  destruct (level r =? 0) eqn:E; [apply Z.eqb_eq in E; auto|]. apply Z.eqb_neq in E.
  destruct (records_in_a_tree level t) as [g [[top rest]|]].
  - destruct IH as (-> & F & T). repeat split; auto.
  - destruct IH as (-> & F). repeat split; auto.
Qed.

Lemma is_grouping_cons : forall A (level : A -> Z) top g gs,
  Forall (fun y => level y <> 0) g ->
  Forall (block_ok level) gs -> Forall (starts_top level) gs ->
  Forall (block_ok level) ((top :: g) :: gs) /\ Forall (starts_top level) (tl ((top :: g) :: gs)).
Proof.
  intros. split; [|assumption]. constructor; [|assumption]. exists top, g. auto.
Qed.

Lemma group_loop_spec : forall A (level : A -> Z) fuel top rs, (List.length rs < fuel)%nat ->
  exists gs, group_loop fuel level top rs Finished = (gs, Finished) /\
    is_grouping level (top :: rs) gs /\ (level top = 0 -> Forall (starts_top level) gs) /\ gs <> [] /\
    forall e, group_loop fuel level top rs (Failed e) = (removelast gs, Failed e).
Proof.
  intros A level. induction fuel as [|k IH]; intros top rs Hf; [lia|].
  cbn [group_loop]. pose proof (tree_split A level rs) as HT.
  destruct (records_in_a_tree level rs) as [g [[top' rest]|]].
  - destruct HT as (-> & F & T). rewrite app_length in Hf. cbn in Hf.
    destruct (IH top' rest ltac:(lia)) as (gs & E & (C & B & S) & HT' & NE & HF).
    rewrite E. exists ((top :: g) :: gs). split; [reflexivity|].
    specialize (HT' T).
    split; [|split; [|split]].
    + split; [|now apply is_grouping_cons]. cbn [concat]. rewrite C. reflexivity.
    + intros H0. constructor; [|exact HT']. exists top, g. auto.
    + discriminate.
    + intros e. rewrite HF. destruct gs; [congruence|reflexivity].
  - destruct HT as (-> & F). exists [top :: g]. split; [reflexivity|]. split; [|split; [|split]].
    + split; [cbn; now rewrite app_nil_r|]. apply is_grouping_cons; auto.
    + intros H0. constructor; [|constructor]. exists top, g. auto.
    + discriminate.
    + reflexivity.
Qed.

(** A grouping is unique. *)
Lemma tail_block_unique : forall A (level : A -> Z) g1 g2 r1 r2,
  Forall (fun y => level y <> 0) g1 -> Forall (fun y => level y <> 0) g2 ->
  (r1 = [] \/ exists x xs, r1 = x :: xs /\ level x = 0) ->
  (r2 = [] \/ exists x xs, r2 = x :: xs /\ level x = 0) ->
  g1 ++ r1 = g2 ++ r2 -> g1 = g2 /\ r1 = r2.
Proof.
  intros A level. induction g1 as [|x g1 IH]; intros [|y g2] r1 r2 F1 F2 R1 R2 E; cbn in E.
  - auto.
  - exfalso. inversion F2; subst. destruct R1 as [R1|(x & xs & R1 & L)]; [discriminate|]. inversion R1; subst. auto.
  - exfalso. inversion F1; subst. destruct R2 as [R2|(z & xs & R2 & L)]; [discriminate|].
    inversion R2; subst. auto.
  - inversion E; subst. inversion F1; subst. inversion F2; subst.
    destruct (IH g2 r1 r2) as [-> ->]; auto.
Qed.

Lemma concat_starts : forall A (level : A -> Z) gs, Forall (starts_top level) gs ->
  concat gs = [] \/ exists x xs, concat gs = x :: xs /\ level x = 0.
Proof.
  intros A level gs [|g gs' (x & xs & -> & L) _]; [now left|]. right. cbn. eauto.
Qed.

Lemma grouping_unique : forall A (level : A -> Z) gs1 gs2,
  concat gs1 = concat gs2 ->
  Forall (block_ok level) gs1 -> Forall (starts_top level) (tl gs1) ->
  Forall (block_ok level) gs2 -> Forall (starts_top level) (tl gs2) ->
  gs1 = gs2.
Proof.
  intros A level. induction gs1 as [|g1 gs1 IH]; intros [|g2 gs2] E B1 S1 B2 S2; cbn in *.
  - reflexivity.
  - inversion B2 as [|? ? (x & xs & -> & _)]; subst. discriminate.
  - inversion B1 as [|? ? (x & xs & -> & _)]; subst. discriminate.
  - inversion B1 as [|? ? (x & xs & -> & F1) B1']; subst.
    inversion B2 as [|? ? (y & ys & -> & F2) B2']; subst.
    cbn in E. inversion E as [[Exy Et]]. subst y.
    destruct (tail_block_unique A level xs ys (concat gs1) (concat gs2)) as [-> Ec]; auto using concat_starts.
    f_equal. apply IH; auto; destruct gs1, gs2; cbn; auto; inversion S1; inversion S2; auto.
Qed.

Theorem grouping_correct : forall A (level : A -> Z) rs gs,
  group_by_toplevel level (rs, Finished) = (gs, Finished) <-> is_grouping level rs gs.
Proof.
  intros A level rs gs.
  assert (HE : exists gs', group_by_toplevel level (rs, Finished) = (gs', Finished) /\ is_grouping level rs gs').
  { unfold group_by_toplevel. cbn [fst snd]. destruct rs as [|r t].
    - exists []. repeat split; constructor.
    - destruct (group_loop_spec A level (S (List.length t)) r t ltac:(lia)) as (gs' & E & G & _).
      exists gs'. auto. }
  destruct HE as (gs' & E & G). split.
  - intros E'. rewrite E in E'. inversion E'; subst. exact G.
  - intros (C & B & S). destruct G as (C' & B' & S').
    rewrite E. f_equal. apply (grouping_unique A level); congruence || auto.
Qed.

Theorem grouping_failed : forall A (level : A -> Z) rs e gs, is_grouping level rs gs ->
  group_by_toplevel level (rs, Failed e) = (removelast gs, Failed e).
Proof.
  intros A level rs e gs G. apply grouping_correct in G. unfold group_by_toplevel in *. cbn [fst snd] in *.
  destruct rs as [|r t].
  - inversion G; subst. reflexivity.
  - destruct (group_loop_spec A level (S (List.length t)) r t ltac:(lia)) as (gs' & E & _ & _ & _ & HF).
    rewrite E in G. inversion G; subst. apply HF.
Qed.

(** ** Selection *)

Lemma nth_error_islice : forall A a b (l : list A) i,
  nth_error (firstn (b - a) (skipn a l)) i = if Nat.ltb (a + i) b then nth_error l (a + i) else None.
Proof.
  intros A a b l i.
  assert (HS : nth_error (skipn a l) i = nth_error l (a + i)).
  { revert l. induction a as [|a IH]; intros l; [reflexivity|].
    destruct l; [cbn; destruct i; reflexivity|]. cbn. apply IH. }
  destruct (Nat.ltb (a + i) b) eqn:E.
  - apply Nat.ltb_lt in E. rewrite <- HS.
    assert (HF : forall n (m : list A), (i < n)%nat -> nth_error (firstn n m) i = nth_error m i).
    { clear. induction i as [|i IH]; intros [|n] [|x m] H; try lia; try reflexivity. cbn. apply IH. lia. }
    apply HF. lia.
  - apply Nat.ltb_ge in E. apply nth_error_None. rewrite firstn_length. lia.
Qed.

(** ** Links *)

Lemma link_from_spec : forall levels pos prev pre,
  List.length pre = pos ->
  (match prev with
   | None => pre = []
   | Some (plv, pl) => exists pre', pre = pre' ++ [plv] /\
       (forall p, l_parent pl = Some p <-> is_parent (pre ++ levels) (pred pos) p)
   end) ->
  forall i lk, nth_error (link_records_from pos prev levels) i = Some lk ->
    (forall j, l_sister lk = Some j <-> is_sister (pre ++ levels) (pos + i) j) /\
    (forall p, l_parent lk = Some p <-> is_parent (pre ++ levels) (pos + i) p).
Proof.
  induction levels as [|lv levels IH]; intros pos prev pre HL HP i lk E.
  - destruct i; discriminate.
  - cbn [link_records_from] in E.
    match type of E with context [?L :: link_records_from _ _ _] => set (l := L) in * end.
    assert (Hhere : nth_error (pre ++ lv :: levels) pos = Some lv).
    { rewrite nth_error_app2 by lia. replace (pos - List.length pre)%nat with O by lia. reflexivity. }
    assert (Hl : (forall j, l_sister l = Some j <-> is_sister (pre ++ lv :: levels) pos j) /\
                 (forall p, l_parent l = Some p <-> is_parent (pre ++ lv :: levels) pos p)).
    { destruct prev as [[plv pl]|].
      - destruct HP as (pre' & Epre & HPp).
        assert (Hpos : pos = S (List.length pre')) by (subst pre; rewrite app_length in HL; cbn in HL; lia).
        assert (Hprev : nth_error (pre ++ lv :: levels) (pred pos) = Some plv).
        { rewrite Hpos, Epre. cbn [pred]. rewrite <- app_assoc. rewrite nth_error_app2 by lia.
          rewrite Nat.sub_diag. reflexivity. }
        subst l. destruct (lv =? plv) eqn:E1.
        + apply Z.eqb_eq in E1. subst plv. cbn [l_sister l_parent]. split.
          * intros j. unfold is_sister, level_at. split.
            -- intros Ej; inversion Ej; subst j. split; [lia|]. exists lv. auto.
            -- intros (Ej & _). f_equal. lia.
          * intros p. rewrite HPp. unfold is_parent, level_at. split.
            -- intros (Hlt & v & H1 & H2). split; [lia|]. exists v. split; [exact H1|].
               assert (v = lv).
               { destruct (Nat.eq_dec p (pred pos)); [lia|].
                 pose proof (H2 (pred pos) ltac:(lia)) as HX. congruence. }
               subst v. intros k Hk. destruct (Nat.eq_dec k pos) as [->|]; [exact Hhere|]. apply H2. lia.
            -- intros (Hlt & v & H1 & H2).
               pose proof (H2 pos ltac:(lia)) as HX. rewrite Hhere in HX. inversion HX; subst v.
               assert (p <> pred pos).
               { intros ->. rewrite Hprev in H1. inversion H1. lia. }
               split; [lia|]. exists lv. split; [exact H1|]. intros k Hk. apply H2. lia.
        + apply Z.eqb_neq in E1. destruct (lv =? plv + 1) eqn:E2; cbn [l_sister l_parent].
          * apply Z.eqb_eq in E2. split.
            -- intros j. unfold is_sister, level_at. split; [discriminate|].
               intros (Ej & v & H1 & H2). replace j with (pred pos) in H2 by lia. congruence.
            -- intros p. unfold is_parent, level_at. split.
               ++ intros Ep; inversion Ep; subst p. split; [lia|]. exists lv. split; [rewrite Hprev; f_equal; lia|].
                  intros k Hk. replace k with pos by lia. exact Hhere.
               ++ intros (Hlt & v & H1 & H2). f_equal.
                  pose proof (H2 pos ltac:(lia)) as HX. rewrite Hhere in HX. inversion HX; subst v.
                  destruct (Nat.eq_dec p (pred pos)); [lia|].
                  pose proof (H2 (pred pos) ltac:(lia)) as HY. rewrite Hprev in HY. inversion HY. lia.
          * apply Z.eqb_neq in E2. split.
            -- intros j. unfold is_sister, level_at. split; [discriminate|].
               intros (Ej & v & H1 & H2). replace j with (pred pos) in H2 by lia. congruence.
            -- intros p. unfold is_parent, level_at. split; [discriminate|].
               intros (Hlt & v & H1 & H2). exfalso.
               pose proof (H2 pos ltac:(lia)) as HX. rewrite Hhere in HX. inversion HX; subst v.
               destruct (Nat.eq_dec p (pred pos)).
               ++ subst p. rewrite Hprev in H1. inversion H1. lia.
               ++ pose proof (H2 (pred pos) ltac:(lia)) as HY. rewrite Hprev in HY. inversion HY. lia.
      - subst pre. cbn in HL. subst pos l. cbn [l_sister l_parent]. split.
        + intros j. unfold is_sister. split; [discriminate|]. intros (Ej & _). lia.
        + intros p. unfold is_parent. split; [discriminate|]. intros (Hlt & _). lia. }
    destruct i as [|i].
    + cbn in E. inversion E; subst lk. rewrite Nat.add_0_r. exact Hl.
    + cbn [nth_error] in E. replace (pos + S i)%nat with (S pos + i)%nat by lia.
      replace (pre ++ lv :: levels) with ((pre ++ [lv]) ++ levels) by (rewrite <- app_assoc; reflexivity).
      apply (IH (S pos) (Some (lv, l)) (pre ++ [lv])); [|exists pre|exact E].
      * rewrite app_length. cbn. lia.
      * split; [reflexivity|]. cbn [pred]. rewrite <- app_assoc. cbn [app]. apply Hl.
Qed.

Lemma link_records_length : forall levels pos prev, List.length (link_records_from pos prev levels) = List.length levels.
Proof. induction levels; intros; cbn; [reflexivity|]. f_equal. apply IHlevels. Qed.

Theorem links_correct : forall levels,
  List.length (link_records levels) = List.length levels /\
  forall i lk, nth_error (link_records levels) i = Some lk ->
    (forall j, l_sister lk = Some j <-> is_sister levels i j) /\
    (forall p, l_parent lk = Some p <-> is_parent levels i p).
Proof.
  intros levels. split; [apply link_records_length|].
  intros i lk E. apply (link_from_spec levels 0 None []) in E; auto.
Qed.

(** ** Tag names *)

Lemma zdict_get_in : forall V (d : list (Z * V)) k v, zdict_get k d = Some v -> In (k, v) d.
Proof.
  induction d as [|[k' v'] d IH]; intros k v H; cbn in *; [discriminate|].
  destruct (k =? k') eqn:E; [apply Z.eqb_eq in E; inversion H; subst; now left|right; auto].
Qed.

Lemma zs_inj : forall a b, zs a = zs b -> a = b.
Proof.
  induction a as [|c a IH]; intros [|c' b] H; try discriminate; auto. cbn in H.
  inversion H as [[H1 H2]]. apply N2Z.inj in H1.
  apply (f_equal Ascii.ascii_of_N) in H1. rewrite !Ascii.ascii_N_embedding in H1. subst. f_equal; auto.
Qed.

(** pairwise distinct names, checked by computation over the table itself *)
Fixpoint names_distinct (d : list (Z * string)) : bool :=
  match d with
  | [] => true
  | (_, n) :: t => forallb (fun e => negb (String.eqb n (snd e))) t && names_distinct t
  end.

Lemma names_distinct_spec : forall d, names_distinct d = true ->
  forall k1 k2 n, In (k1, n) d -> In (k2, n) d -> k1 = k2.
Proof.
  induction d as [|[k m] d IH]; intros H k1 k2 n H1 H2; [destruct H1|].
  cbn in H. apply andb_true_iff in H as [HA HB]. rewrite forallb_forall in HA.
  cbn [In] in H1, H2.
  destruct H1 as [E1|H1]; destruct H2 as [E2|H2].
  - congruence.
  - inversion E1; subst. apply HA in H2. cbn in H2. rewrite String.eqb_refl in H2. discriminate.
  - inversion E2; subst. apply HA in H1. cbn in H1. rewrite String.eqb_refl in H1. discriminate.
  - eauto.
Qed.

Definition named_form (n : string) : bool :=
  match zs n with
  | 72 :: 87 :: 80 :: 84 :: 65 :: 71 :: 95 :: _ => true
  | _ => false
  end.

Lemma tagnames_form : forallb (fun e => named_form (snd e)) tagnames = true.
Proof. reflexivity. Qed.

Lemma fmt_d_no_underscore : forall n rest, fmt_d n <> 95 :: rest.
Proof.
  intros n rest E. unfold fmt_d in E. destruct (n <? 0) eqn:En; [inversion E|].
  destruct (digits_spec 10 n) as (_ & E2 & _); [lia|lia|].
  destruct (digits 10 n) as [|d ds]; [discriminate|]. inversion E. inversion E2; subst.
  apply decdigit_range in H3. lia.
Qed.

Theorem tagname_injective : forall a b, tagname a = tagname b -> a = b.
Proof.
  intros a b. unfold tagname.
  destruct (zdict_get a tagnames) as [na|] eqn:Ea; destruct (zdict_get b tagnames) as [nb|] eqn:Eb; intros E.
  - apply zs_inj in E. subst nb. apply zdict_get_in in Ea. apply zdict_get_in in Eb.
    exact (names_distinct_spec tagnames eq_refl a b na Ea Eb).
  - exfalso. apply zdict_get_in in Ea. pose proof tagnames_form as F. rewrite forallb_forall in F.
    apply F in Ea. cbn [snd] in Ea. unfold named_form in Ea. rewrite E in Ea. cbn in Ea.
    destruct (fmt_d (b - HWPTAG_BEGIN)) as [|c r] eqn:Ef; [discriminate|].
    assert (c = 95).
    { destruct (Z.eq_dec c 95); [assumption|]. destruct c as [|p|p]; try discriminate.
      do 7 (destruct p as [p|p|]; try discriminate). congruence. }
    subst c. exact (fmt_d_no_underscore _ _ Ef).
  - exfalso. apply zdict_get_in in Eb. pose proof tagnames_form as F. rewrite forallb_forall in F.
    apply F in Eb. cbn [snd] in Eb. unfold named_form in Eb. rewrite <- E in Eb. cbn in Eb.
    destruct (fmt_d (a - HWPTAG_BEGIN)) as [|c r] eqn:Ef; [discriminate|].
    assert (c = 95).
    { destruct (Z.eq_dec c 95); [assumption|]. destruct c as [|p|p]; try discriminate.
      do 7 (destruct p as [p|p|]; try discriminate). congruence. }
    subst c. exact (fmt_d_no_underscore _ _ Ef).
  - apply app_inv_head in E. apply fmt_d_inj in E. lia.
Qed.

(** ** Re-dumping, failures *)

Lemma dump_expected : forall rs sq, Forall raw_ok rs -> dump_records (expected sq rs) = Ok (wire_all rs).
Proof.
  intros rs sq H. revert sq. induction H as [|[[t l] p] rs (Ht & Hl & Hp) Hrs IH]; intros sq; [reflexivity|].
  cbn [expected dump_records]. unfold dump_record. cbn [r_tagid r_level r_payload record_of].
  rewrite encode_header_wire by assumption. cbn [bind]. rewrite IH. cbn [bind].
  rewrite wire_all_cons, app_assoc. reflexivity.
Qed.

Theorem redump_canonical : forall rs, Forall raw_ok rs -> Forall raw_nonempty rs ->
  forall got, read_records (open_bytes (wire_all rs)) = (got, Finished) -> dump_records got = Ok (wire_all rs).
Proof.
  intros rs Hok Hne got E.
  unfold read_records, open_bytes in E. cbn [s_rest] in E.
  rewrite (grammar_reader _ _ _ _ _ (wire_grammar rs Hok Hne 0 0)) in E by lia.
  inversion E; subst. now apply dump_expected.
Qed.

Lemma grammar_failures : forall off sq b rs o, record_stream off sq b rs o ->
  o = Finished \/ o = Failed StructError \/ exists pos, o = Failed (Eof pos) /\ off < pos <= off + zlen b.
Proof.
  induction 1; auto.
  - right; right. eexists; split; [reflexivity|].
    pose proof (header_says_len _ _ _ _ H). pose proof (zlen_nonneg _ b). rewrite zlen_app. lia.
  - right; right. eexists; split; [reflexivity|]. pose proof (header_says_len _ _ _ _ H). lia.
  - destruct IHrecord_stream as [|[|(pos & E & R)]]; auto. right; right. exists pos. split; [exact E|].
    pose proof (header_says_len _ _ _ _ H). rewrite !zlen_app. lia.
Qed.

Theorem only_failures : forall b, all_bytes b ->
  snd (read_records (open_bytes b)) = Finished \/
  snd (read_records (open_bytes b)) = Failed StructError \/
  exists pos, snd (read_records (open_bytes b)) = Failed (Eof pos) /\ 0 < pos <= zlen b.
Proof.
  intros b Hb. destruct (read_records (open_bytes b)) as [rs o] eqn:E.
  apply read_records_grammar in E; [|assumption]. cbn [snd]. apply grammar_failures in E. exact E.
Qed.

(** ** Selection *)

Theorem range_selection : forall a b rs o i,
  nth_error (fst (select_records (SelRange a b) (rs, o))) i =
    if Nat.ltb (a + i) b then nth_error rs (a + i) else None.
Proof. intros. cbn [select_records islice fst]. apply nth_error_islice. Qed.

Theorem range_outcome : forall a b rs o,
  snd (select_records (SelRange a b) (rs, o)) = Finished <->
  (o = Finished \/ (a <= List.length rs /\ b <= List.length rs)%nat).
Proof.
  intros. cbn [select_records islice fst snd].
  destruct (Nat.leb (Nat.max a b) (List.length rs)) eqn:E.
  - apply Nat.leb_le in E. split; [intros _; right; lia|reflexivity].
  - apply Nat.leb_gt in E. split; [auto|]. intros [H|H]; [exact H|lia].
Qed.

Theorem index_selection : forall i rs o,
  select_record i (rs, o) =
    match nth_error rs i, o with
    | Some r, _ => Ok (Some r)
    | None, Finished => Ok None
    | None, Failed e => Raise e
    | None, OutOfFuel => Raise AssertionError
    end.
Proof. intros. unfold select_record, nth_item. cbn [fst snd]. destruct (nth_error rs i), o; reflexivity. Qed.

Theorem tree_selection : forall n rs gs, is_grouping r_level rs gs ->
  select_records (SelTree n) (rs, Finished) =
    (match nth_error gs n with Some g => (g, Finished) | None => ([], Failed TypeError) end) /\
  records_treegroup n (rs, Finished) = Ok (nth_error gs n).
Proof.
  intros n rs gs G. apply grouping_correct in G. unfold records_treegroup. cbn [select_records].
  rewrite G. unfold nth_item. cbn [fst snd]. destruct (nth_error gs n); auto.
Qed.

Lemma tagnames_documented : tagnames = documented_tags.
Proof. reflexivity. Qed.

Fixpoint ids_distinct (d : list (Z * string)) : bool :=
  match d with
  | [] => true
  | (k, _) :: t => forallb (fun e => negb (k =? fst e)) t && ids_distinct t
  end.

Lemma ids_distinct_get : forall d, ids_distinct d = true -> forall k n, In (k, n) d -> zdict_get k d = Some n.
Proof.
  induction d as [|[k' m] d IH]; intros H k n HI; [destruct HI|].
  cbn in H. apply andb_true_iff in H as [HA HB]. rewrite forallb_forall in HA. cbn [zdict_get].
  destruct HI as [E|HI].
  - inversion E; subst. now rewrite Z.eqb_refl.
  - pose proof (HA _ HI) as HK. cbn in HK. destruct (k =? k') eqn:E; [|auto].
    apply Z.eqb_eq in E. subst. rewrite Z.eqb_refl in HK. discriminate.
Qed.

Theorem tagname_documented : forall id name, In (id, name) documented_tags -> tagname id = zs name.
Proof.
  intros id name H. unfold tagname. rewrite tagnames_documented.
  rewrite (ids_distinct_get documented_tags eq_refl id name H). reflexivity.
Qed.

Theorem tagname_undocumented : forall id, ~ In id (map fst documented_tags) ->
  tagname id = zs "HWPTAG" ++ fmt_d (id - 16).
Proof.
  intros id H. unfold tagname. rewrite tagnames_documented.
  destruct (zdict_get id documented_tags) as [n|] eqn:E; [|reflexivity].
  apply zdict_get_in in E. exfalso. apply H. apply (in_map fst) in E. exact E.
Qed.
