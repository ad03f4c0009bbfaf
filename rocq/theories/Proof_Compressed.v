(** Proofs about chunked decompression. *)
From Coq Require Import ZArith List Bool Lia.
From Verif Require Import Base BaseFacts Model_Readers Model_Compressed Model_Storage Spec_Filestructure.
Import ListNotations.
Open Scope Z_scope.

Section Chunks.
  Variable St : Type.
  Variable start : St.
  Variable feed : St -> list Z -> option (list Z * St).
  Variable flush : St -> list Z * St.
  Hypothesis HI : incremental feed.

  Lemma chunks_loop : forall fuel rest pos s bufsize, 0 < bufsize -> (List.length rest < fuel)%nat ->
    let r := decompress_loop St feed flush fuel s (mkStream rest pos) bufsize in
    match feed s rest with
    | None => snd r = Failed ZlibError
    | Some (o, s1) => snd r = Finished /\ concat (fst r) = o ++ fst (flush s1)
    end.
  Proof.
    induction fuel as [|k IH]; intros rest pos s bufsize HB HF; [lia|]. cbn [decompress_loop]. unfold stream_read. cbn [s_rest s_pos].
    set (a := ztake bufsize rest). set (b := zdrop bufsize rest).
    assert (E : rest = a ++ b) by (symmetry; apply ztake_zdrop).
    pose proof (feed_pieces feed HI s a b) as FP. rewrite <- E in FP. rewrite FP.
    destruct (zlen a <? bufsize) eqn:EX; unfold zlib_decode.
    - assert (b = []) as Hb.
      { apply zlen_zero. unfold a, b in *. rewrite zlen_ztake in EX. rewrite zlen_zdrop. pose proof (zlen_nonneg _ rest). lia. }
      rewrite Hb. destruct (feed s a) as [(o1 & s1)|]; [|reflexivity].
      rewrite (feed_nothing feed HI). rewrite app_nil_r. destruct (flush s1) as (d & s2). cbn [fst snd gcons]. split; [reflexivity|]. cbn. now rewrite app_nil_r.
    - destruct (feed s a) as [(o1 & s1)|] eqn:EF; [|reflexivity].
      assert (HL : (List.length b < k)%nat).
      { assert (0 < zlen a) by lia. assert (zlen rest = zlen a + zlen b) by (rewrite E at 1; apply zlen_app). unfold zlen in *. lia. }
      specialize (IH b (pos + zlen a) s1 bufsize HB HL). cbn zeta in IH. fold a b.
      destruct (feed s1 b) as [(o2 & s2)|]; cbn [gcons snd fst].
      + destruct IH as (I1 & I2). split; [exact I1|]. cbn [concat]. rewrite I2, app_assoc. reflexivity.
      + exact IH.
  Qed.

  Lemma rawunz_once : forall r size, 0 < size -> exists x, raw_read St feed flush 3 r size = Some x.
  Proof.
    intros r size Hs. unfold raw_read. destruct (size <? 0) eqn:E; [lia|]. cbn [raw_loop].
    destruct (size <=? zlen (r_buffer St r)); [eauto|]. destruct (stream_read 8196 (r_stream St r)) as (c & s1).
    assert (HT : (zlen c <? 8196) || negb (zlen c =? 0) = true).
    { destruct (zlen c <? 8196) eqn:E1; [reflexivity|]. cbn. destruct (zlen c =? 0) eqn:E2; [lia|reflexivity]. }
    rewrite HT. destruct (raw_decode St feed flush (r_state St r) c true) as [(d & st1)|]; [|eauto].
    cbn [r_buffer]. destruct (size <=? zlen (r_buffer St r ++ d)); eauto.
  Qed.

  Hypothesis HF : forall s, flush s = ([], s).

  Lemma raw_decode_feed : forall s c, raw_decode St feed flush s c true = feed s c.
  Proof.
    intros s c. unfold raw_decode. destruct (0 <? zlen c) eqn:E.
    - destruct (feed s c) as [(d & s1)|]; [|reflexivity]. rewrite HF, app_nil_r. reflexivity.
    - assert (c = []) as -> by (apply zlen_zero; pose proof (zlen_nonneg _ c); lia). rewrite HF, (feed_nothing feed HI). reflexivity.
  Qed.

  (** What one read of the pipe does. *)
  Lemma raw_step : forall rest pos s buf off size, 0 < size ->
    let c := ztake 8196 rest in
    raw_read St feed flush 3 (mkRaw St (mkStream rest pos) s buf off) size =
    if size <=? zlen buf then Some (Ok (ztake size buf), mkRaw St (mkStream rest pos) s (zdrop size buf) (off + size))
    else match feed s c with
         | None => Some (Raise ZlibError, mkRaw St (mkStream (zdrop 8196 rest) (pos + zlen c)) s buf off)
         | Some (d, s1) =>
             Some (Ok (ztake size (buf ++ d)),
                   mkRaw St (mkStream (zdrop 8196 rest) (pos + zlen c)) s1 (zdrop size (buf ++ d)) (off + Z.min size (zlen (buf ++ d))))
         end.
  Proof.
    intros rest pos s buf off size Hs c. unfold raw_read. destruct (size <? 0) eqn:E; [lia|]. cbn [raw_loop r_buffer].
    destruct (size <=? zlen buf) eqn:E1; [reflexivity|]. unfold stream_read. cbn [r_stream s_rest s_pos]. fold c.
    assert (HT : (zlen c <? 8196) || negb (zlen c =? 0) = true).
    { destruct (zlen c <? 8196) eqn:E3; [reflexivity|]. cbn. destruct (zlen c =? 0) eqn:E2; [lia|reflexivity]. }
    rewrite HT. cbn [r_state]. rewrite raw_decode_feed. destruct (feed s c) as [(d & s1)|]; [|reflexivity].
    cbn [r_buffer r_stream r_state r_offset]. destruct (size <=? zlen (buf ++ d)) eqn:E4.
    - rewrite Z.min_l by lia. reflexivity.
    - rewrite Z.min_r by lia. rewrite (ztake_all _ size (buf ++ d)), (zdrop_all _ size (buf ++ d)) by lia. reflexivity.
  Qed.

  Lemma gcons_ok : forall (d : list Z) g, fst (gcons d g) = d :: fst g /\ snd (gcons d g) = snd g.
  Proof. intros d [l o]. split; reflexivity. Qed.

  Lemma raw_copy : forall size, 0 < size -> forall b, productive feed start 8196 b ->
    forall fuel a rest pos s buf off o1 o s2, b = a ++ rest -> ((8196 | zlen a) \/ rest = []) -> feed start a = Some (o1, s) ->
    feed s rest = Some (o, s2) -> (List.length (buf ++ o) < fuel)%nat ->
    let r := rawunz St feed flush fuel (mkRaw St (mkStream rest pos) s buf off) size in
    snd r = Finished /\ concat (fst r) = buf ++ o.
  Proof.
    intros size Hs b HP. induction fuel as [|k IH]; intros a rest pos s buf off o1 o s2 Eb Ha HFa HFr HL; [lia|].
    cbn [rawunz]. rewrite raw_step by assumption. destruct (size <=? zlen buf) eqn:E1.
    - pose proof (ztake_zdrop _ size buf) as EB. destruct (ztake size buf) as [|x d] eqn:ED.
      + exfalso. assert (zlen (ztake size buf) = 0) by (rewrite ED; reflexivity). rewrite zlen_ztake in H. lia.
      + specialize (IH a rest pos s (zdrop size buf) (off + size) o1 o s2 Eb Ha HFa HFr).
        assert (HL2 : (List.length (zdrop size buf ++ o) < k)%nat).
        { rewrite <- EB in HL. rewrite !app_length in *. cbn [List.length] in HL. lia. }
        specialize (IH HL2). cbn zeta in IH. destruct IH as (I1 & I2). destruct (gcons_ok (x :: d) (rawunz St feed flush k (mkRaw St (mkStream rest pos) s (zdrop size buf) (off + size)) size)) as (G1 & G2).
        rewrite G1, G2. split; [exact I1|]. cbn [concat]. rewrite I2, app_assoc, EB. reflexivity.
    - set (c := ztake 8196 rest). set (r' := zdrop 8196 rest). assert (Er : rest = c ++ r') by (symmetry; apply ztake_zdrop).
      pose proof (feed_pieces feed HI s c r') as FP. rewrite <- Er, HFr in FP.
      destruct (feed s c) as [(d & s1)|] eqn:EC; [|discriminate]. destruct (feed s1 r') as [(o2 & s3)|] eqn:ER; [|discriminate]. injection FP as -> ->.
      pose proof (ztake_zdrop _ size (buf ++ d)) as EB.
      destruct (ztake size (buf ++ d)) as [|x t] eqn:ED.
      + assert (HZ : buf ++ d = []).
        { apply zlen_zero. assert (zlen (ztake size (buf ++ d)) = 0) by (rewrite ED; reflexivity). rewrite zlen_ztake in H.
          pose proof (zlen_nonneg _ (buf ++ d)). lia. }
        apply app_eq_nil in HZ. destruct HZ as (-> & ->). cbn [fst snd concat app]. split; [reflexivity|].
        destruct r' as [|y r''] eqn:ER'.
        * rewrite (feed_nothing feed HI) in ER. injection ER as <- _. reflexivity.
        * exfalso. assert (HC : zlen c = 8196).
          { unfold c. rewrite zlen_ztake. assert (0 < zlen (zdrop 8196 rest)) by (fold r'; rewrite ER', zlen_cons; pose proof (zlen_nonneg _ r''); lia).
            rewrite zlen_zdrop in H. pose proof (zlen_nonneg _ rest). lia. }
          assert (HA : (8196 | zlen a)) by (destruct Ha as [Ha| ->]; [exact Ha|discriminate Er || (destruct c; discriminate)]).
          refine (HP a c (y :: r'') o1 s s1 _ HC _ HA HFa EC); [congruence|discriminate].
      + assert (HFac : feed start (a ++ c) = Some (o1 ++ d, s1)) by (rewrite (feed_pieces feed HI), HFa, EC; reflexivity).
        assert (Ha' : (8196 | zlen (a ++ c)) \/ r' = []).
        { destruct r' as [|y r''] eqn:ER'; [now right|left]. destruct Ha as [Ha| ->]; [|destruct c; discriminate].
          assert (HC : zlen c = 8196).
          { unfold c. rewrite zlen_ztake. assert (0 < zlen (zdrop 8196 rest)) by (fold r'; rewrite ER', zlen_cons; pose proof (zlen_nonneg _ r''); lia).
            rewrite zlen_zdrop in H. pose proof (zlen_nonneg _ rest). lia. }
          rewrite zlen_app, HC. apply Z.divide_add_r; [exact Ha|reflexivity]. }
        assert (HL2 : (List.length (zdrop size (buf ++ d) ++ o2) < k)%nat).
        { rewrite app_assoc in HL. rewrite <- EB in HL. rewrite !app_length in *. cbn [List.length] in HL. lia. }
        assert (Eb2 : b = (a ++ c) ++ r') by (rewrite <- app_assoc, <- Er; exact Eb).
        specialize (IH (a ++ c) r' (pos + zlen c) s1 (zdrop size (buf ++ d)) (off + Z.min size (zlen (buf ++ d))) (o1 ++ d) o2 s3 Eb2 Ha' HFac ER HL2).
        cbn zeta in IH. destruct IH as (I1 & I2).
        match goal with |- context [gcons (x :: t) ?g] => destruct (gcons_ok (x :: t) g) as (G1 & G2) end.
        rewrite G1, G2. split; [exact I1|]. cbn [concat]. rewrite I2, !app_assoc, EB. reflexivity.
  Qed.
  (** A caller reading [sizes] in turn: the pieces and the reader, if no read fails. *)
  Fixpoint raw_session (r : raw_reader St) (sizes : list Z) : option (list (list Z) * raw_reader St) :=
    match sizes with
    | [] => Some ([], r)
    | n :: ns =>
        match raw_read St feed flush 3 r n with
        | Some (Ok d, r1) => match raw_session r1 ns with Some (l, r2) => Some (d :: l, r2) | None => None end
        | _ => None
        end
    end.

  Lemma raw_any : forall rest pos s buf off n o s2, feed s rest = Some (o, s2) ->
    exists d rest' pos' s' buf' o', raw_read St feed flush 3 (mkRaw St (mkStream rest pos) s buf off) n =
      Some (Ok d, mkRaw St (mkStream rest' pos') s' buf' (off + zlen d)) /\
      feed s' rest' = Some (o', s2) /\ buf ++ o = d ++ buf' ++ o' /\ (0 <= n -> zlen d <= n) /\ (n < 0 -> d = buf ++ o).
  Proof.
    intros rest pos s buf off n o s2 HFr. destruct (Z.ltb_spec n 0) as [Hn|Hn].
    - unfold raw_read. destruct (n <? 0) eqn:E; [|lia]. unfold stream_read_all. cbn [r_stream r_state r_buffer r_offset s_rest s_pos].
      rewrite raw_decode_feed, HFr. do 6 eexists. split; [reflexivity|]. split; [apply (feed_nothing feed HI)|].
      rewrite app_nil_r. cbn [app]. rewrite ?app_nil_r. repeat split; try reflexivity; lia.
    - destruct (Z.eqb_spec n 0) as [->|Hz].
      + unfold raw_read. cbn [Z.ltb raw_loop r_buffer]. pose proof (zlen_nonneg _ buf). change (0 <? 0) with false. cbv iota.
        replace (0 <=? zlen buf) with true by lia. cbn [r_stream r_state r_offset].
        exists [], rest, pos, s, buf, o. change (zlen (@nil Z)) with 0. rewrite ?Z.add_0_r.
        split; [destruct buf; reflexivity|]. repeat split; auto; lia.
      + rewrite raw_step by lia. destruct (n <=? zlen buf) eqn:E1.
        * exists (ztake n buf), rest, pos, s, (zdrop n buf), o. rewrite zlen_ztake. replace (Z.max 0 (Z.min n (zlen buf))) with n by lia || idtac.
          split; [repeat f_equal; lia|]. split; [exact HFr|]. split; [rewrite app_assoc, ztake_zdrop; reflexivity|]. split; lia.
        * set (c := ztake 8196 rest). set (r' := zdrop 8196 rest). assert (Er : rest = c ++ r') by (symmetry; apply ztake_zdrop).
          pose proof (feed_pieces feed HI s c r') as FP. rewrite <- Er, HFr in FP.
          destruct (feed s c) as [(d & s1)|] eqn:EC; [|discriminate]. destruct (feed s1 r') as [(o2 & s3)|] eqn:ER; [|discriminate]. injection FP as -> ->.
          exists (ztake n (buf ++ d)), r', (pos + zlen c), s1, (zdrop n (buf ++ d)), o2. rewrite zlen_ztake. pose proof (zlen_nonneg _ (buf ++ d)).
          rewrite Z.max_r by lia. split; [reflexivity|]. split; [exact ER|]. split; [rewrite (app_assoc (ztake _ _)), ztake_zdrop, app_assoc; reflexivity|]. split; lia.
  Qed.

  Lemma raw_session_gives : forall sizes rest pos s buf off o s2, feed s rest = Some (o, s2) ->
    exists l r left, raw_session (mkRaw St (mkStream rest pos) s buf off) sizes = Some (l, r) /\
      buf ++ o = concat l ++ left /\ r_offset St r = off + zlen (concat l) /\
      Forall2 (fun n d => 0 <= n -> zlen d <= n) sizes l /\ (Exists (fun n => n < 0) sizes -> left = []).
  Proof.
    induction sizes as [|n ns IH]; intros rest pos s buf off o s2 HFr; cbn [raw_session].
    - exists [], (mkRaw St (mkStream rest pos) s buf off), (buf ++ o). cbn [concat app r_offset]. change (zlen (@nil Z)) with 0.
      repeat split; auto; try lia. intros H. inversion H.
    - destruct (raw_any rest pos s buf off n o s2 HFr) as (d & rest' & pos' & s' & buf' & o' & -> & HF' & Eo & Hd & Hneg).
      destruct (IH rest' pos' s' buf' (off + zlen d) o' s2 HF') as (l & r & left & -> & Eo' & Eoff & HA & HE).
      exists (d :: l), r, left. cbn [concat]. rewrite zlen_app. split; [reflexivity|]. split; [rewrite Eo, Eo', app_assoc; reflexivity|].
      split; [lia|]. split; [constructor; assumption|]. intros HX. inversion HX as [? ? HN|? ? HN]; subst; [|exact (HE HN)].
      rewrite (Hneg HN) in Eo. rewrite <- (app_nil_r (buf ++ o)) in Eo at 1. apply app_inv_head in Eo. rewrite <- Eo in Eo'.
      symmetry in Eo'. apply app_eq_nil in Eo'. exact (proj2 Eo').
  Qed.
End Chunks.

Theorem chunked : forall St (start : St) feed flush, incremental feed -> forall b bufsize fuel, 0 < bufsize -> (List.length b < fuel)%nat ->
  let r := decompress_gen St start feed flush fuel (open_bytes b) bufsize in
  match feed start b with
  | None => snd r = Failed ZlibError
  | Some (o, s1) => snd r = Finished /\ concat (fst r) = o ++ fst (flush s1)
  end.
Proof. intros St start feed flush HI b bufsize fuel HB HL. unfold decompress_gen, open_bytes. exact (chunks_loop St feed flush HI fuel b 0 start bufsize HB HL). Qed.

Theorem raw_copies : forall St (start : St) feed flush, incremental feed -> (forall s, flush s = ([], s)) ->
  forall b o s size fuel, 0 < size -> productive feed start 8196 b -> feed start b = Some (o, s) -> (List.length o < fuel)%nat ->
  let r := rawunz St feed flush fuel (open_raw St start (open_bytes b)) size in
  snd r = Finished /\ concat (fst r) = o.
Proof.
  intros St start feed flush HI HF b o s size fuel Hs HP HB HL. unfold open_raw, open_bytes.
  exact (raw_copy St start feed flush HI HF size Hs b HP fuel [] b 0 start [] 0 [] o s eq_refl (or_introl (Z.divide_0_r _)) (feed_nothing feed HI start) HB HL).
Qed.

Theorem raw_sessions : forall St (start : St) feed flush, incremental feed -> (forall s, flush s = ([], s)) ->
  forall b o s sizes, feed start b = Some (o, s) ->
  exists l r left, raw_session St feed flush (open_raw St start (open_bytes b)) sizes = Some (l, r) /\
    o = concat l ++ left /\ r_offset St r = zlen (concat l) /\
    Forall2 (fun n d => 0 <= n -> zlen d <= n) sizes l /\ (Exists (fun n => n < 0) sizes -> left = []).
Proof.
  intros St start feed flush HI HF b o s sizes HB. unfold open_raw, open_bytes.
  exact (raw_session_gives St feed flush HI HF sizes b 0 start [] 0 o s HB).
Qed.
