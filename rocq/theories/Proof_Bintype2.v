(** Values, bytes, offsets and failures of structured reads. *)
From Coq Require Import ZArith String List Bool Lia.
From Verif Require Import Base BaseFacts Model_Text Model_Dataio Model_ParaText Model_Bintype Spec_Text Spec_Dataio Spec_ParaText
  Spec_Bintype Proof_Dataio Proof_Utf16 Proof_ParaText Proof_Bintype.
Import ListNotations.
Open Scope Z_scope.

Lemma nonempty_zlen : forall {A} (b : list A), b <> [] -> 0 < zlen b.
Proof. intros A b H. pose proof (zlen_nonneg _ b). destruct (Z.eq_dec (zlen b) 0) as [E|E]; [apply zlen_zero in E; contradiction|lia]. Qed.

Lemma readn_exact : forall b rest pos, b <> [] -> readn (zlen b) (mkStream (b ++ rest) pos) = (Ok b, mkStream rest (pos + zlen b)).
Proof.
  intros b rest pos H. apply nonempty_zlen in H. unfold readn, stream_read. cbn [s_rest s_pos].
  rewrite ztake_app_eq, zdrop_app_eq by reflexivity. replace (zlen b =? 0) with false by lia. reflexivity.
Qed.

Lemma prim_value_fmt : forall f s, prim_value (PFmt f) s =
  match prim_read f s with (Ok n, s') => (Some (Ok (fmt_value f n)), s') | (Raise e, s') => (Some (Raise e), s') end.
Proof.
  intros f s. unfold prim_value, prim_read. destruct (readn (calcsize f) s) as [[b|e] s']; [|reflexivity].
  destruct (struct_unpack f b); reflexivity.
Qed.

Lemma zlen_number_bytes : forall w v, zlen (number_bytes w v) = Z.of_nat w.
Proof. intros. unfold number_bytes, zlen. now rewrite map_length, seq_length. Qed.

(** ** Round trip of leaves *)
Theorem prim_value_of_bytes : forall p v b rest pos, prim_bytes p v b rest ->
  prim_value p (mkStream (b ++ rest) pos) = (Some (Ok v), mkStream rest (pos + zlen b)).
Proof.
  intros p v b rest pos H. destruct H.
  - rewrite prim_value_fmt, prim_read_of_number by assumption. rewrite zlen_number_bytes. destruct f; try contradiction; reflexivity.
  - rewrite prim_value_fmt. change 8%nat with (fmt_width FmtDouble). rewrite prim_read_of_number by (try assumption; cbn; lia). reflexivity.
  - cbn [prim_value]. change 4 with (zlen [b0; b1; b2; b3]). rewrite readn_exact by discriminate. reflexivity.
  - cbn [prim_value]. rewrite <- app_assoc, bstr_roundtrip by assumption. rewrite zlen_app, zlen_number_bytes. do 2 f_equal. lia.
  - cbn [prim_value]. rewrite readn_exact by assumption. reflexivity.
  - cbn [prim_value]. rewrite readn_exact by assumption. reflexivity.
  - cbn [prim_value]. change 4 with (zlen [b0; b1; b2; b3]). rewrite readn_exact by discriminate. reflexivity.
  - cbn [prim_value para_text_read stream_read_all s_rest s_pos]. rewrite app_nil_r.
    apply parse_chunks_spec in H0; [|assumption]. rewrite H0. reflexivity.
Qed.

(** ** What a leaf consumes *)
Definition consumes (s s' : stream) : Prop := exists b, s_rest s = b ++ s_rest s' /\ s_pos s' = s_pos s + zlen b.
Lemma consumes_refl : forall s, consumes s s.
Proof. intros s. exists []. split; [reflexivity|]. rewrite Z.add_0_r. reflexivity. Qed.
Lemma consumes_trans : forall a b c, consumes a b -> consumes b c -> consumes a c.
Proof.
  intros a b c [x [Hx Px]] [y [Hy Py]]. exists (x ++ y). rewrite Hx, Hy, <- app_assoc. split; [reflexivity|]. rewrite Py, Px, zlen_app. lia.
Qed.
Lemma readn_consumes : forall n s r s', readn n s = (r, s') -> consumes s s'.
Proof.
  intros n s r s' H. unfold readn, stream_read in H. exists (ztake n (s_rest s)).
  destruct (zlen (ztake n (s_rest s)) =? 0); inversion H; subst; cbn [s_rest s_pos]; (split; [now rewrite ztake_zdrop|reflexivity]).
Qed.
Lemma prim_read_consumes : forall f s r s', prim_read f s = (r, s') -> consumes s s'.
Proof. intros f s r s' H. unfold prim_read in H. destruct (readn (calcsize f) s) as [[b|e] s1] eqn:E; inversion H; subst; eapply readn_consumes; eassumption. Qed.
Lemma prim_value_consumes : forall p s r s', prim_value p s = (r, s') -> consumes s s'.
Proof.
  intros p s r s' H. destruct p; cbn [prim_value] in H.
  - destruct (readn (calcsize f) s) as [[b|e] s1] eqn:E; inversion H; subst; eapply readn_consumes; eassumption.
  - destruct (readn 4 s) as [[b|e] s1] eqn:E; inversion H; subst; eapply readn_consumes; eassumption.
  - unfold bstr_read in H. destruct (prim_read UINT16 s) as [[n|e] s1] eqn:E.
    + apply prim_read_consumes in E. destruct (n =? 0); [inversion H; subst; exact E|].
      destruct (readn (2 * n) s1) as [[d|e] s2] eqn:E2; apply readn_consumes in E2.
      * destruct (utf16le_decode d); inversion H; subst; eapply consumes_trans; eassumption.
      * inversion H; subst. eapply consumes_trans; eassumption.
    + inversion H; subst. eapply prim_read_consumes; eassumption.
  - unfold para_text_read, stream_read_all in H. exists (s_rest s).
    destruct (parse_chunks (s_rest s)) as [out [|e|]]; inversion H; subst; cbn [s_rest s_pos]; (split; [now rewrite app_nil_r|reflexivity]).
  - destruct (readn n s) as [[b|e] s1] eqn:E; inversion H; subst; eapply readn_consumes; eassumption.
  - destruct (readn n s) as [[b|e] s1] eqn:E; inversion H; subst; eapply readn_consumes; eassumption.
  - destruct (readn 4 s) as [[b|e] s1] eqn:E; inversion H; subst; eapply readn_consumes; eassumption.
Qed.

(** ** Why a leaf fails *)
Lemma all_bytes_consumes : forall s s', consumes s s' -> all_bytes (s_rest s) -> all_bytes (s_rest s').
Proof. intros s s' [b [H _]] HB. rewrite H in HB. apply all_bytes_app in HB. tauto. Qed.

Lemma prim_read_fail : forall f s e s', (0 < fmt_width f)%nat -> prim_read f s = (Raise e, s') ->
  (s_rest s = [] /\ e = Eof (s_pos s)) \/ (s_rest s <> [] /\ zlen (s_rest s) < Z.of_nat (fmt_width f) /\ e = StructError).
Proof.
  intros f [r pos] e s' HW H. cbn [s_rest s_pos].
  destruct r as [|x r]; [rewrite prim_read_eof in H; inversion H; auto|]. right. split; [discriminate|].
  pose proof (nonempty_zlen (x :: r) ltac:(discriminate)) as HN.
  destruct (Z_lt_le_dec (zlen (x :: r)) (Z.of_nat (fmt_width f))) as [L|L].
  - split; [exact L|]. rewrite prim_read_cut in H by lia. inversion H. reflexivity.
  - exfalso. unfold prim_read in H. unfold readn, stream_read in H. cbn [s_rest s_pos] in H.
    assert (EC : calcsize f = Z.of_nat (fmt_width f)) by (destruct f; reflexivity).
    assert (LT : zlen (ztake (calcsize f) (x :: r)) = calcsize f) by (rewrite zlen_ztake; lia).
    rewrite LT in H. replace (calcsize f =? 0) with false in H by lia.
    unfold struct_unpack in H. rewrite LT in H. rewrite Z.eqb_refl in H. cbn in H. destruct f; discriminate.
Qed.

Lemma prim_read_ok_inv : forall f s n s', (0 < fmt_width f)%nat -> all_bytes (s_rest s) -> prim_read f s = (Ok n, s') ->
  fmt_range f n /\ s_rest s = number_bytes (fmt_width f) n ++ s_rest s' /\ s_pos s' = s_pos s + Z.of_nat (fmt_width f).
Proof.
  intros f [r pos] n s' HW HB H. cbn [s_rest s_pos] in *.
  destruct (Z_lt_le_dec (zlen r) (Z.of_nat (fmt_width f))) as [L|L].
  - exfalso. destruct r as [|x r]; [rewrite prim_read_eof in H; discriminate|].
    pose proof (nonempty_zlen (x :: r) ltac:(discriminate)). rewrite prim_read_cut in H by lia. discriminate.
  - rewrite <- (ztake_zdrop _ (Z.of_nat (fmt_width f)) r) in H.
    assert (LT : zlen (ztake (Z.of_nat (fmt_width f)) r) = Z.of_nat (fmt_width f)) by (rewrite zlen_ztake; lia).
    assert (HB' : all_bytes (ztake (Z.of_nat (fmt_width f)) r)).
    { rewrite <- (ztake_zdrop _ (Z.of_nat (fmt_width f)) r) in HB. apply all_bytes_app in HB. tauto. }
    destruct (prim_read_exact f (ztake (Z.of_nat (fmt_width f)) r) (zdrop (Z.of_nat (fmt_width f)) r) pos HW HB') as (v & E & HR & HN & _).
    { unfold zlen in LT. lia. }
    rewrite E in H. inversion H; subst. cbn [s_rest s_pos]. rewrite HN, ztake_zdrop. auto.
Qed.

Lemma readn_fail : forall n s e s', readn n s = (Raise e, s') -> e = Eof (s_pos s) /\ (0 < n -> s_rest s = []).
Proof.
  intros n [r pos] e s' H. unfold readn, stream_read in H. cbn [s_rest s_pos] in *.
  destruct (zlen (ztake n r) =? 0) eqn:E; [|discriminate]. inversion H; subst. split; [f_equal; lia|].
  intros Hn. rewrite zlen_ztake in E. pose proof (zlen_nonneg _ r). apply zlen_zero. lia.
Qed.

Lemma readn_ok_inv : forall n s b s', readn n s = (Ok b, s') -> b = ztake n (s_rest s) /\ b <> [].
Proof.
  intros n [r pos] b s' H. unfold readn, stream_read in H. cbn [s_rest s_pos] in *.
  destruct (zlen (ztake n r) =? 0) eqn:E; [discriminate|]. inversion H; subst. split; [reflexivity|].
  intros C. rewrite C in E. discriminate.
Qed.

Theorem prim_value_fails : forall p s, positive_width p -> all_bytes (s_rest s) -> forall e,
  (exists s', prim_value p s = (Some (Raise e), s')) <-> prim_fails p (s_rest s) (s_pos s) e.
Proof.
  intros p s HW HB e. split.
  - intros [s' H]. destruct p.
    + rewrite prim_value_fmt in H. destruct (prim_read f s) as [[n|e'] s1] eqn:E; [discriminate|].
      apply prim_read_fail in E; [|exact HW]. inversion H; subst. destruct E as [[-> ->]|(H1 & H2 & ->)]; constructor; auto; discriminate.
    + cbn [prim_value] in H. destruct (readn 4 s) as [[b|e'] s1] eqn:E.
      * apply readn_ok_inv in E. destruct E as [-> HN]. inversion H as [H1].
        destruct (Z_lt_le_dec (zlen (s_rest s)) 4) as [L|L].
        -- rewrite ztake_all in * by lia. destruct (s_rest s) as [|b0 [|b1 [|b2 [|b3 r]]]]; cbn in H1; try congruence; 
             try (injection H1 as <-; constructor; [discriminate|exact L]).
        -- assert (LT : zlen (ztake 4 (s_rest s)) = 4) by (rewrite zlen_ztake; lia).
           destruct (ztake 4 (s_rest s)) as [|b0 [|b1 [|b2 [|b3 r]]]]; cbn in LT; try lia. discriminate H1.
      * apply readn_fail in E. destruct E as [-> E]. rewrite E by lia. inversion H; subst. constructor. discriminate.
    + cbn [prim_value] in H. unfold bstr_read in H. destruct (prim_read UINT16 s) as [[n|e'] s1] eqn:E.
      * pose proof E as E0. apply prim_read_ok_inv in E; [|cbn; lia|exact HB]. destruct E as (HR & Hr & Hp). cbn in HR.
        destruct (n =? 0) eqn:En; [discriminate|].
        destruct (readn (2 * n) s1) as [[d|e'] s2] eqn:E2.
        -- apply readn_ok_inv in E2. destruct E2 as [-> HN].
           destruct (utf16le_decode (ztake (2 * n) (s_rest s1))) as [cs|e'] eqn:EU; [discriminate|]. inversion H; subst.
           pose proof (utf16le_decode_error _ _ EU) as ->. rewrite Hr. change (fmt_width UINT16) with 2%nat. constructor; [lia|exact HN|].
           intros cs Hcs C. rewrite Hr in HB. apply all_bytes_app in HB. destruct HB as [_ HB].
           assert (HB' : all_bytes (ztake (2 * n) (s_rest s1))).
           { rewrite <- (ztake_zdrop _ (2 * n) (s_rest s1)) in HB. apply all_bytes_app in HB. tauto. }
           assert (utf16le_decode (ztake (2 * n) (s_rest s1)) = Ok cs) by (apply utf16le_decode_iff; auto). congruence.
        -- apply readn_fail in E2. destruct E2 as [-> E2]. rewrite Hr, E2 by lia. rewrite app_nil_r. inversion H; subst.
           rewrite Hp. change (fmt_width UINT16) with 2%nat. change (Z.of_nat 2) with 2. constructor. lia.
      * apply prim_read_fail in E; [|cbn; lia]. inversion H; subst. destruct E as [[-> ->]|(H1 & H2 & ->)].
        -- constructor. discriminate.
        -- apply pf_bstr_size; [exact H1|exact H2].
    + cbn [prim_value] in H. unfold para_text_read, stream_read_all in H. destruct (parse_chunks (s_rest s)) as [out [|e'|]] eqn:E; inversion H; subst.
      apply parse_chunks_spec in E; [|exact HB]. econstructor. exact E.
    + cbn [prim_value] in H. destruct (readn n s) as [[b|e'] s1] eqn:E; [discriminate|]. apply readn_fail in E. destruct E as [-> E].
      rewrite E by exact HW. inversion H; subst. constructor. discriminate.
    + cbn [prim_value] in H. destruct (readn n s) as [[b|e'] s1] eqn:E; [discriminate|]. apply readn_fail in E. destruct E as [-> E].
      rewrite E by exact HW. inversion H; subst. constructor. discriminate.
    + cbn [prim_value] in H. destruct (readn 4 s) as [[b|e'] s1] eqn:E.
      * apply readn_ok_inv in E. destruct E as [-> HN]. inversion H as [H1].
        destruct (Z_lt_le_dec (zlen (s_rest s)) 4) as [L|L].
        -- rewrite ztake_all in * by lia. destruct (s_rest s) as [|b0 [|b1 [|b2 [|b3 r]]]]; cbn in H1; try congruence; 
             try (injection H1 as <-; constructor; [discriminate|exact L]).
        -- assert (LT : zlen (ztake 4 (s_rest s)) = 4) by (rewrite zlen_ztake; lia).
           destruct (ztake 4 (s_rest s)) as [|b0 [|b1 [|b2 [|b3 r]]]]; cbn in LT; try lia. discriminate H1.
      * apply readn_fail in E. destruct E as [-> E]. rewrite E by lia. inversion H; subst. constructor. discriminate.
  - destruct s as [r pos]. cbn [s_rest s_pos] in *. intros H. destruct H.
    + assert (RN : forall n, readn n (mkStream [] pos) = (Raise (Eof (pos + 0)), mkStream [] (pos + 0))).
      { intros n. unfold readn, stream_read. cbn [s_rest s_pos]. 
        assert (zlen (ztake n (@nil Z)) = 0) by (rewrite zlen_ztake; cbn; lia). rewrite (zlen_zero _ _ H0). cbn.
        reflexivity. }
      rewrite Z.add_0_r in RN.
      destruct p; try contradiction; eexists.
      * rewrite prim_value_fmt, prim_read_eof. reflexivity.
      * cbn [prim_value]. rewrite RN. reflexivity.
      * cbn [prim_value]. unfold bstr_read. rewrite prim_read_eof. reflexivity.
      * cbn [prim_value]. rewrite RN. reflexivity.
      * cbn [prim_value]. rewrite RN. reflexivity.
      * cbn [prim_value]. rewrite RN. reflexivity.
    + eexists. rewrite prim_value_fmt, prim_read_cut; [reflexivity|]. pose proof (nonempty_zlen _ H). lia.
    + eexists. cbn [prim_value]. unfold readn, stream_read. cbn [s_rest s_pos]. rewrite ztake_all by lia.
      pose proof (nonempty_zlen _ H). replace (zlen b =? 0) with false by lia.
      destruct b as [|b0 [|b1 [|b2 [|b3 r]]]]; try reflexivity; rewrite !zlen_cons in H0; pose proof (zlen_nonneg _ r); lia.
    + eexists. cbn [prim_value]. unfold readn, stream_read. cbn [s_rest s_pos]. rewrite ztake_all by lia.
      pose proof (nonempty_zlen _ H). replace (zlen b =? 0) with false by lia.
      destruct b as [|b0 [|b1 [|b2 [|b3 r]]]]; try reflexivity; rewrite !zlen_cons in H0; pose proof (zlen_nonneg _ r); lia.
    + eexists. cbn [prim_value]. unfold bstr_read. rewrite prim_read_cut; [reflexivity|]. pose proof (nonempty_zlen _ H). cbn. lia.
    + eexists. cbn [prim_value]. unfold bstr_read. rewrite <- (app_nil_r (number_bytes 2 n)). change 2%nat with (fmt_width UINT16).
      rewrite prim_read_of_number by (cbn; lia). replace (n =? 0) with false by lia.
      unfold readn, stream_read. cbn [s_rest s_pos].
      assert (E : ztake (2 * n) (@nil Z) = []) by (apply zlen_zero; rewrite zlen_ztake; cbn; lia). rewrite E. cbn [zlen List.length Z.of_nat].
      cbn. rewrite Z.add_0_r. reflexivity.
    + eexists. cbn [prim_value]. unfold bstr_read. change 2%nat with (fmt_width UINT16).
      rewrite prim_read_of_number by (cbn; lia). replace (n =? 0) with false by lia.
      unfold readn, stream_read. cbn [s_rest s_pos]. pose proof (nonempty_zlen _ H0).
      replace (zlen (ztake (2 * n) b) =? 0) with false by lia.
      destruct (utf16le_decode (ztake (2 * n) b)) as [cs|e'] eqn:EU.
      * exfalso. apply all_bytes_app in HB. destruct HB as [_ HB].
        assert (HB' : all_bytes (ztake (2 * n) b)).
        { rewrite <- (ztake_zdrop _ (2 * n) b) in HB. apply all_bytes_app in HB. tauto. }
        apply utf16le_decode_iff in EU; [|exact HB']. destruct EU as [E1 E2]. exact (H1 cs E2 E1).
      * apply utf16le_decode_error in EU. subst. reflexivity.
    + eexists. cbn [prim_value]. unfold para_text_read, stream_read_all. cbn [s_rest s_pos].
      apply parse_chunks_spec in H; [|exact HB]. rewrite H. reflexivity.
Qed.

Lemma prim_value_answers : forall p s, all_bytes (s_rest s) -> fst (prim_value p s) <> None.
Proof.
  intros p s HB. destruct p; cbn [prim_value];
    try (match goal with |- context [readn ?n ?s] => destruct (readn n s) as [[b|e] s'] end; cbn [fst]; discriminate).
  - destruct (bstr_read s) as [[b|e] s']; cbn [fst]; discriminate.
  - unfold para_text_read, stream_read_all. pose proof (parse_chunks_outcomes (s_rest s) HB) as H.
    destruct (parse_chunks (s_rest s)) as [out [|e|]]; cbn [fst]; try discriminate. cbn in H. intuition discriminate.
Qed.

(** Bytes and hex fields cut short are taken as they are. *)
Theorem bytes_cut_silently : forall n b pos, b <> [] -> zlen b < n ->
  prim_value (PBytes n) (mkStream b pos) = (Some (Ok (VBytes b)), mkStream [] (pos + zlen b)) /\
  prim_value (PHex n) (mkStream b pos) = (Some (Ok (VBytes (concat (map (fmt_x 2) b)))), mkStream [] (pos + zlen b)).
Proof.
  intros n b pos HN HL. pose proof (nonempty_zlen _ HN). cbn [prim_value]. unfold readn, stream_read. cbn [s_rest s_pos].
  rewrite ztake_all, zdrop_all by lia. replace (zlen b =? 0) with false by lia. split; reflexivity.
Qed.

Scheme ser_mut := Minimality for ser Sort Prop
with serm_mut := Minimality for ser_members Sort Prop
with seri_mut := Minimality for ser_items Sort Prop.
Combined Scheme ser_combined from ser_mut, serm_mut, seri_mut.

Section P.
Variable Ctx : Type.
Notation ty := (ty Ctx).
Notation members := (members Ctx).
Notation alts := (alts Ctx).
Notation oev := (oev Ctx).
Notation covers := (covers Ctx).
Hint Rewrite rd_prim rd_flags rd_struct rd_fixed rd_var rd_x rd_sel rdm_nil rdm_cons rda_nil rda_cons : evs.

(** ** Written values read back, C17 *)
Definition gives {X} (r : sres Ctx X) (s : stream) (x : X) : Prop := exists tr, r = (tr, s, Some (Ok x)).

Lemma gives_bind : forall {X Y} (r : sres Ctx X) s x (f : X -> stream -> sres Ctx Y) s' y,
  gives r s x -> gives (f x s) s' y -> gives (andthen Ctx r f) s' y.
Proof. intros X Y r s x f s' y [tr ->] [tr' H]. exists (tr ++ tr'). cbn [andthen]. rewrite H. reflexivity. Qed.
Lemma gives_say : forall o s, gives (say Ctx o s) s tt.
Proof. intros. eexists. reflexivity. Qed.
Lemma gives_ret : forall {X} (x : X) s, gives (ret Ctx x s) s x.
Proof. intros. eexists. reflexivity. Qed.
Lemma gives_closing : forall name t v s, gives (closing Ctx name t v s) s (Some v).
Proof. intros. eexists. reflexivity. Qed.
Lemma gives_guard : forall c pa cond s g s' y, holds Ctx c pa cond -> gives (g s) s' y -> gives (guarded Ctx c pa cond s g) s' y.
Proof.
  intros c pa cond s g s' y H HG. unfold guarded. destruct cond as [f|]; [|exact HG]. destruct H as (pv & -> & E).
  eapply (gives_bind _ s true); [|exact HG]. unfold refer. rewrite E. apply gives_ret.
Qed.
Lemma gives_leaf : forall name p v b rest pos, prim_bytes p v b rest ->
  gives (rd_leaf Ctx name (TPrim Ctx p) (mkStream (b ++ rest) pos)) (mkStream rest (pos + zlen b)) v.
Proof. intros name p v b rest pos H. eexists. unfold rd_leaf. cbn [read_leaf]. rewrite (prim_value_of_bytes _ _ _ _ pos H). reflexivity. Qed.

Lemma zlen_nil_add : forall (rest : list Z) pos, mkStream ([] ++ rest) pos = mkStream rest (pos + zlen (@nil Z)).
Proof. intros. cbn [app]. rewrite Z.add_0_r. reflexivity. Qed.

Lemma rd_alts_find : forall c ver pa name cond k l s, rd_alts Ctx c ver pa name cond k l s =
  match find_alt Ctx k l with Some t => rd Ctx c ver pa name cond t s | None => ret Ctx None s end.
Proof.
  intros c ver pa name cond k l s. induction l as [|k' t l IH]; autorewrite with evs; cbn [find_alt]; [reflexivity|].
  destruct (k' =? k); [reflexivity|exact IH].
Qed.

Theorem ser_reads : forall c ver,
  (forall pa cond t v b rest, ser Ctx c ver pa cond t v b rest -> forall name pos,
     gives (rd Ctx c ver pa name cond t (mkStream (b ++ rest) pos)) (mkStream rest (pos + zlen b)) v) /\
  (forall env ms d b rest, ser_members Ctx c ver env ms d b rest -> forall pos,
     gives (rd_members Ctx c ver ms env (mkStream (b ++ rest) pos)) (mkStream rest (pos + zlen b)) d) /\
  (forall t n acc l b rest, ser_items Ctx c ver t n acc l b rest -> forall pos,
     gives (repeated Ctx n (fun sofar s => rd Ctx c ver (Some sofar) None None t s) acc (mkStream (b ++ rest) pos)) (mkStream rest (pos + zlen b)) l).
Proof.
  intros c ver. apply (ser_combined Ctx c ver).
  - intros pa cond t rest HS (f & pv & -> & -> & HF) name pos. rewrite <- zlen_nil_add.
    assert (G : forall g, gives (guarded Ctx c (Some pv) (Some f) (mkStream ([] ++ rest) pos) g) (mkStream ([] ++ rest) pos) None).
    { intros g. eexists. unfold guarded, refer. rewrite HF. reflexivity. }
    destruct t; try contradiction; autorewrite with evs; apply G.
  - intros pa cond p v b rest HH HP name pos. autorewrite with evs. apply gives_guard; [exact HH|].
    eapply gives_bind; [apply gives_leaf; exact HP|apply gives_ret].
  - intros pa cond f g n b rest HH HP name pos. autorewrite with evs. apply gives_guard; [exact HH|].
    eapply gives_bind; [|apply gives_ret]. eexists. unfold rd_leaf. cbn [read_leaf]. rewrite (prim_value_of_bytes _ _ _ _ pos HP). reflexivity.
  - intros pa cond ms d b rest HH _ IH name pos. autorewrite with evs. apply gives_guard; [exact HH|].
    eapply gives_bind; [apply gives_say|]. eapply gives_bind; [apply IH|]. apply gives_closing.
  - intros pa cond t n l b rest HH _ IH name pos. autorewrite with evs. apply gives_guard; [exact HH|].
    eapply gives_bind; [|apply gives_closing]. unfold array_of. eapply gives_bind; [apply gives_say|]. apply IH.
  - intros pa cond f t n l b1 b2 rest HH HP _ IH name pos. autorewrite with evs. apply gives_guard; [exact HH|].
    rewrite <- app_assoc. eapply gives_bind; [apply gives_leaf; exact HP|]. cbv beta iota.
    eapply gives_bind; [|apply gives_closing]. unfold array_of. eapply gives_bind; [apply gives_say|]. rewrite zlen_app, Z.add_assoc. apply IH.
  - intros pa cond f t pv n l b rest HH -> HF _ IH name pos. autorewrite with evs. apply gives_guard; [exact HH|].
    eapply gives_bind; [unfold refer; rewrite HF; apply gives_ret|].
    eapply gives_bind; [|apply gives_closing]. unfold array_of. eapply gives_bind; [apply gives_say|]. apply IH.
  - intros pa cond f l pv k t v b rest -> HF HA _ IH name pos. autorewrite with evs.
    eapply gives_bind; [unfold refer; rewrite HF; apply gives_ret|]. rewrite rd_alts_find, HA. apply IH.
  - intros pa cond f l pv k rest -> HF HA name pos. autorewrite with evs. rewrite <- zlen_nil_add.
    eapply gives_bind; [unfold refer; rewrite HF; apply gives_ret|]. rewrite rd_alts_find, HA. apply gives_ret.
  - intros env rest pos. rewrite <- zlen_nil_add. apply gives_ret.
  - intros env name req cond t ms d b rest HV _ IH pos. autorewrite with evs. rewrite HV. apply IH.
  - intros env name req cond t ms v d b1 b2 rest HV _ IH1 _ IH2 pos. autorewrite with evs. rewrite HV, <- app_assoc.
    eapply gives_bind; [apply IH1|]. rewrite zlen_app, Z.add_assoc. apply IH2.
  - intros t acc rest pos. rewrite <- zlen_nil_add. apply gives_ret.
  - intros t n acc v l b1 b2 rest _ IH1 _ IH2 pos. cbn [repeated]. rewrite <- app_assoc.
    eapply gives_bind; [apply IH1|]. rewrite zlen_app, Z.add_assoc. apply IH2.
Qed.

(** ** The value is the last one reported *)
Definition last_says (tr : list oev) (v : value) : Prop := exists tr0 e, tr = tr0 ++ [e] /\ oev_value Ctx e = Some v.
Definition says (r : sres Ctx (option value)) : Prop :=
  match r with (tr, _, Some (Ok (Some v))) => last_says tr v | _ => True end.

Lemma says_bind : forall {X} (r : sres Ctx X) f, (forall x s, says (f x s)) -> says (andthen Ctx r f).
Proof.
  intros X [[tr s] [[x|e]|]] f H; try exact I. cbn [andthen]. specialize (H x s).
  destruct (f x s) as [[tr' s'] [[[v|]|e]|]]; cbn [says] in *; try exact I.
  destruct H as (tr0 & e & -> & E). exists (tr ++ tr0), e. rewrite app_assoc. auto.
Qed.
Lemma says_closing : forall name t v s, says (closing Ctx name t v s).
Proof. intros. exists [], (OEnd Ctx name t v). split; reflexivity. Qed.
Lemma says_guard : forall c pa cond s g, (forall s, says (g s)) -> says (guarded Ctx c pa cond s g).
Proof. intros c pa cond s g H. unfold guarded. destruct cond; [|apply H]. apply says_bind. intros [|] s'; [apply H|exact I]. Qed.
Lemma says_leaf : forall name t s, says (andthen Ctx (rd_leaf Ctx name t s) (fun v s => ret Ctx (Some v) s)).
Proof.
  intros name t s. unfold rd_leaf. destruct (read_leaf Ctx t s); try exact I.
  exists [], (OLeaf Ctx name t (s_pos s) v). split; reflexivity.
Qed.

Lemma rd_says : forall c ver, (forall t pa name cond s, says (rd Ctx c ver pa name cond t s)) /\
  (forall ms : members, True) /\ (forall l pa name cond k s, says (rd_alts Ctx c ver pa name cond k l s)).
Proof.
  intros c ver. apply ty_members_alts_ind; auto; intros; autorewrite with evs.
  - apply says_guard; intros. apply says_leaf.
  - apply says_guard; intros. apply says_leaf.
  - apply says_guard; intros. apply says_bind; intros. apply says_bind; intros. apply says_closing.
  - apply says_guard; intros. apply says_bind; intros. apply says_closing.
  - apply says_guard; intros. apply says_bind; intros. destruct x; try exact I. apply says_bind; intros. apply says_closing.
  - apply says_guard; intros. apply says_bind; intros. apply says_bind; intros. apply says_closing.
  - apply says_bind; intros. apply H.
  - exact I.
  - destruct (key =? k); auto.
Qed.

Lemma rd_top_none : forall c ver t name s tr s', rd Ctx c ver None name None t s = (tr, s', Some (Ok None)) -> False.
Proof.
  intros c ver t name s tr s' H.
  assert (B : forall X (r : sres Ctx X) f, (forall x s, snd (f x s) <> Some (Ok None)) -> snd (andthen Ctx r f) <> Some (@Ok (option value) None)).
  { intros X [[tr1 s1] [[x|e]|]] f HF; cbn [andthen]; try (cbn; discriminate). specialize (HF x s1). destruct (f x s1) as [[a b] d]. exact HF. }
  assert (G : snd (rd Ctx c ver None name None t s) <> Some (Ok None)).
  { destruct t; autorewrite with evs; cbn [guarded]; try (apply B; intros; try (apply B; intros); try (cbn; discriminate)).
    - destruct x; try (cbn; discriminate). apply B; intros. cbn. discriminate. }
  rewrite H in G. apply G. reflexivity.
Qed.

(** ** Offsets and failures, C18 and C20 *)
Lemma covers_app : forall tr1 s s1, covers tr1 s s1 -> forall tr2 s2, covers tr2 s1 s2 -> covers (tr1 ++ tr2) s s2.
Proof. intros tr1 s s1 H. induction H; intros tr2 s2 H2; cbn [app]; [exact H2|constructor; auto|constructor; auto|econstructor; eauto]. Qed.
Lemma covers_consumes : forall tr s s', covers tr s s' -> consumes s s'.
Proof.
  intros tr s s' H. induction H; auto using consumes_refl.
  eapply consumes_trans; [|exact IHcovers]. exists b. split; reflexivity.
Qed.

Definition Tr {X} (R : exn -> Prop) (s : stream) (r : sres Ctx X) : Prop :=
  match r with
  | (tr, s', Some (Ok _)) => covers tr s s'
  | (tr, s', Some (Raise e)) => fails_because Ctx R tr s e
  | (_, _, None) => False
  end.

Lemma fails_prefix : forall R tr1 s s1 tr2 e, covers tr1 s s1 -> fails_because Ctx R tr2 s1 e -> fails_because Ctx R (tr1 ++ tr2) s e.
Proof.
  intros R tr1 s s1 tr2 e HC [H|[H|H]].
  - destruct H as (tr0 & name & p & s2 & cause & -> & C & F & ->). left. exists (tr1 ++ tr0), name, p, s2, cause.
    rewrite app_assoc. eauto using covers_app.
  - destruct H as (s2 & f & cause & C & F & ->). right; left. exists s2, f, cause. eauto using covers_app.
  - destruct H as (s2 & C & F). right; right. exists s2. eauto using covers_app.
Qed.

Lemma Tr_bind : forall {X Y} R s (r : sres Ctx X) (f : X -> stream -> sres Ctx Y), all_bytes (s_rest s) -> Tr R s r ->
  (forall x s1, all_bytes (s_rest s1) -> Tr R s1 (f x s1)) -> Tr R s (andthen Ctx r f).
Proof.
  intros X Y R s [[tr s1] [[x|e]|]] f HB H HF; cbn [Tr andthen] in *; [|exact H|exact H].
  specialize (HF x s1 (all_bytes_consumes _ _ (covers_consumes _ _ _ H) HB)).
  destruct (f x s1) as [[tr' s2] [[y|e]|]]; cbn [Tr] in *.
  - eapply covers_app; eauto.
  - eapply fails_prefix; eauto.
  - exact HF.
Qed.
Lemma Tr_on : forall {X Y} R s tr s1 (x : X) (f : X -> stream -> sres Ctx Y), covers tr s s1 -> Tr R s1 (f x s1) ->
  Tr R s (andthen Ctx (tr, s1, Some (Ok x)) f).
Proof.
  intros X Y R s tr s1 x f HC H. cbn [andthen]. destruct (f x s1) as [[tr' s2] [[y|e]|]]; cbn [Tr] in *.
  - eapply covers_app; eauto.
  - eapply fails_prefix; eauto.
  - exact H.
Qed.
Lemma Tr_say : forall R o s, match o with OStart _ _ _ | OEnd _ _ _ _ => True | _ => False end -> Tr R s (say Ctx o s).
Proof. intros R o s H. destruct o; try contradiction; cbn; repeat constructor. Qed.
Lemma Tr_ret : forall {X} R (x : X) s, Tr R s (ret Ctx x s).
Proof. intros. constructor. Qed.
Lemma Tr_fail : forall {X} (R : exn -> Prop) s e, R e -> Tr R s (@fail Ctx X s e).
Proof. intros. right; right. exists s. split; [constructor|assumption]. Qed.
Lemma Tr_closing : forall R name t v s, Tr R s (closing Ctx name t v s).
Proof. intros. cbn. repeat constructor. Qed.
Lemma Tr_refer : forall {X} (R : exn -> Prop) c pa (f : ref Ctx X) s, (pa = None -> R IndexError) ->
  (forall pv e, f c pv = Raise e -> R e) -> Tr R s (refer Ctx c pa f s).
Proof.
  intros X R c [pv|] f s H1 H2; unfold refer; [|apply Tr_fail; auto]. destruct (f c pv) eqn:E; [apply Tr_ret|apply Tr_fail; eauto].
Qed.
Lemma Tr_guard : forall (R : exn -> Prop) c pa cond s g, all_bytes (s_rest s) -> (pa = None -> R IndexError) -> (forall e, cond_raises Ctx c cond e -> R e) ->
  (forall s, all_bytes (s_rest s) -> Tr R s (g s)) -> Tr R s (guarded Ctx c pa cond s g).
Proof.
  intros R c pa cond s g HB H1 H2 HG. unfold guarded. destruct cond as [f|]; [|apply HG; exact HB].
  apply Tr_bind; [exact HB|apply Tr_refer; [exact H1|intros pv e E; apply H2; exists pv; exact E]|].
  intros [|] s1 HB1; [apply HG; exact HB1|apply Tr_ret].
Qed.
Lemma Tr_leaf : forall R name p s, positive_width p -> all_bytes (s_rest s) -> Tr R s (rd_leaf Ctx name (TPrim Ctx p) s).
Proof.
  intros R name p s HW HB. pose proof (prim_value_answers p s HB) as HA.
  unfold rd_leaf. cbn [read_leaf]. destruct (prim_value p s) as [[[v|e]|] s'] eqn:E; [| |cbn in HA; congruence].
  - pose proof (prim_value_consumes _ _ _ _ E) as [b [Hr Hp]]. destruct s as [r pos], s' as [r' pos']. cbn [s_rest s_pos] in *. subst.
    cbn [Tr]. econstructor; [|constructor]. cbn [read_leaf]. rewrite E. reflexivity.
  - left. exists [], name, p, s, e. split; [reflexivity|]. split; [constructor|]. split; [|reflexivity].
    apply prim_value_fails; eauto.
Qed.
Lemma Tr_flags : forall R name f g s, int_fmt f -> all_bytes (s_rest s) -> Tr R s (rd_leaf Ctx name (TFlags Ctx f g) s).
Proof.
  intros R name f g s [HD HW] HB. pose proof (prim_value_answers (PFmt f) s HB) as HA.
  unfold rd_leaf. cbn [read_leaf]. destruct (prim_value (PFmt f) s) as [[[v|e]|] s'] eqn:E; [| |cbn in HA; congruence].
  - pose proof (prim_value_consumes _ _ _ _ E) as [b [Hr Hp]].
    assert (HV : exists n, v = VInt n).
    { rewrite prim_value_fmt in E. destruct (prim_read f s) as [[n|e] s1]; inversion E. destruct f; try contradiction; eexists; reflexivity. }
    destruct HV as [n ->].
    destruct s as [r pos], s' as [r' pos']. cbn [s_rest s_pos] in *. subst.
    cbn [Tr]. econstructor; [|constructor]. cbn [read_leaf]. rewrite E. reflexivity.
  - right; left. exists s, f, e. split; [constructor|]. split; [|reflexivity]. apply prim_value_fails; eauto.
Qed.

Lemma Tr_mono : forall {X} (R R' : exn -> Prop) s (r : sres Ctx X), (forall e, R e -> R' e) -> Tr R s r -> Tr R' s r.
Proof.
  intros X R R' s [[tr s1] [[x|e]|]] HR H; cbn [Tr] in *; try exact H.
  destruct H as [H|[H|(s2 & C & F)]]; [left; exact H|right; left; exact H|right; right; exists s2; auto].
Qed.

Lemma Tr_repeated : forall R item, (forall v s, all_bytes (s_rest s) -> Tr R s (item v s)) -> forall n acc s, all_bytes (s_rest s) ->
  Tr R s (repeated Ctx n item acc s).
Proof.
  intros R item H n. induction n as [|n IH]; intros acc s HB; cbn [repeated]; [apply Tr_ret|].
  apply Tr_bind; [exact HB|apply H; exact HB|]. intros x s1 HB1. apply IH. exact HB1.
Qed.

Definition why (c : Ctx) (pa : option value) (cond : option (ref Ctx bool)) (t : ty) (e : exn) : Prop :=
  (pa = None /\ e = IndexError) \/ cond_raises Ctx c cond e \/ ref_raises Ctx c e t.

Lemma rr_x : forall c e f t, ref_raises Ctx c e (TX Ctx f t) = ((exists pv, f c pv = Raise e) \/ ref_raises Ctx c e t). Proof. reflexivity. Qed.
Lemma rr_sel : forall c e f l, ref_raises Ctx c e (TSel Ctx f l) = ((exists pv, f c pv = Raise e) \/ ref_raises_alts Ctx c e l). Proof. reflexivity. Qed.
Lemma rrm_cons : forall c e n r cd t rest, ref_raises_members Ctx c e (MCons Ctx n r cd t rest) = (cond_raises Ctx c cd e \/ ref_raises Ctx c e t \/ ref_raises_members Ctx c e rest). Proof. reflexivity. Qed.
Lemma rra_cons : forall c e k t rest, ref_raises_alts Ctx c e (ACons Ctx k t rest) = (ref_raises Ctx c e t \/ ref_raises_alts Ctx c e rest). Proof. reflexivity. Qed.
Lemma sane_struct : forall ms, sane Ctx (TStruct Ctx ms) = sane_members Ctx ms. Proof. reflexivity. Qed.
Lemma sane_fixed : forall t n, sane Ctx (TFixed Ctx t n) = sane Ctx t. Proof. reflexivity. Qed.
Lemma sane_var : forall f t, sane Ctx (TVar Ctx f t) = (int_fmt f /\ sane Ctx t). Proof. reflexivity. Qed.
Lemma sane_x : forall f t, sane Ctx (TX Ctx f t) = sane Ctx t. Proof. reflexivity. Qed.
Lemma sane_sel : forall f l, sane Ctx (TSel Ctx f l) = sane_alts Ctx l. Proof. reflexivity. Qed.
Lemma sanem_cons : forall n r cd t rest, sane_members Ctx (MCons Ctx n r cd t rest) = (sane Ctx t /\ sane_members Ctx rest). Proof. reflexivity. Qed.
Lemma sanea_cons : forall k t rest, sane_alts Ctx (ACons Ctx k t rest) = (sane Ctx t /\ sane_alts Ctx rest). Proof. reflexivity. Qed.

Lemma fmt_leaf_int : forall f name s tr s' v, int_fmt f -> rd_leaf Ctx name (TPrim Ctx (PFmt f)) s = (tr, s', Some (Ok v)) -> exists n, v = VInt n.
Proof.
  intros f name s tr s' v [HD HW] H. unfold rd_leaf in H. cbn [read_leaf] in H. rewrite prim_value_fmt in H.
  destruct (prim_read f s) as [[n|e] s1]; inversion H. destruct f; try contradiction; eexists; reflexivity.
Qed.

Theorem rd_traced : forall c ver,
  (forall t pa name cond s, sane Ctx t -> all_bytes (s_rest s) -> Tr (why c pa cond t) s (rd Ctx c ver pa name cond t s)) /\
  (forall ms env s, sane_members Ctx ms -> all_bytes (s_rest s) -> Tr (fun e => ref_raises_members Ctx c e ms) s (rd_members Ctx c ver ms env s)) /\
  (forall l pa name cond k s, sane_alts Ctx l -> all_bytes (s_rest s) ->
     Tr (fun e => (pa = None /\ e = IndexError) \/ cond_raises Ctx c cond e \/ ref_raises_alts Ctx c e l) s (rd_alts Ctx c ver pa name cond k l s)).
Proof.
  intros c ver.
  assert (G0 : forall pa cond t, pa = None -> why c pa cond t IndexError) by (intros; left; auto).
  assert (G1 : forall pa cond t e, cond_raises Ctx c cond e -> why c pa cond t e) by (intros; right; left; auto).
  assert (AR : forall pa cond t t' name n s, (forall e, ref_raises Ctx c e t' -> ref_raises Ctx c e t) ->
     (forall v s, all_bytes (s_rest s) -> Tr (why c (Some v) None t') s (rd Ctx c ver (Some v) None None t' s)) ->
     all_bytes (s_rest s) -> Tr (why c pa cond t) s (array_of Ctx c ver name t t' n s)).
  { intros pa cond t t' name n s HE H HB. unfold array_of. apply Tr_bind; [exact HB|apply Tr_say; exact I|].
    intros _ s1 HB1. apply Tr_repeated; [|exact HB1]. intros v s2 HB2. eapply Tr_mono; [|apply H; exact HB2].
    intros e [[E _]|[F|F]]; [discriminate E|contradiction F|right; right; auto]. }
  apply ty_members_alts_ind.
  - intros p pa name cond s HS HB. autorewrite with evs. apply Tr_guard; auto. intros s1 HB1.
    apply Tr_bind; [exact HB1|apply Tr_leaf; assumption|]. intros; apply Tr_ret.
  - intros f g pa name cond s HS HB. autorewrite with evs. apply Tr_guard; auto. intros s1 HB1.
    apply Tr_bind; [exact HB1|apply Tr_flags; assumption|]. intros; apply Tr_ret.
  - intros ms IH pa name cond s HS HB. rewrite sane_struct in HS. autorewrite with evs. apply Tr_guard; auto. intros s1 HB1.
    apply Tr_bind; [exact HB1|apply Tr_say; exact I|]. intros _ s2 HB2.
    apply Tr_bind; [exact HB2| |intros; apply Tr_closing].
    eapply Tr_mono; [|apply IH; assumption]. intros e He. right; right. exact He.
  - intros t IH n pa name cond s HS HB. rewrite sane_fixed in HS. autorewrite with evs. apply Tr_guard; auto. intros s1 HB1.
    apply Tr_bind; [exact HB1|apply AR; auto|intros; apply Tr_closing].
  - intros f t IH pa name cond s HS HB. rewrite sane_var in HS. destruct HS as [HI HS]. autorewrite with evs. apply Tr_guard; auto. intros s1 HB1.
    pose proof (Tr_leaf (why c pa cond (TVar Ctx f t)) None (PFmt f) s1 (proj2 HI) HB1) as HL.
    pose proof (fmt_leaf_int f None s1) as HV.
    destruct (rd_leaf Ctx None (TPrim Ctx (PFmt f)) s1) as [[tr s2] [[v|e]|]]; [|exact HL|exact HL].
    destruct (HV tr s2 v HI eq_refl) as [n ->].
    apply Tr_on; [exact HL|]. cbn [Tr] in HL. pose proof (all_bytes_consumes _ _ (covers_consumes _ _ _ HL) HB1) as HB2.
    apply Tr_bind; [exact HB2|apply AR; auto|intros; apply Tr_closing].
  - intros f t IH pa name cond s HS HB. rewrite sane_x in HS. autorewrite with evs. apply Tr_guard; auto. intros s1 HB1.
    apply Tr_bind; [exact HB1|apply Tr_refer; [auto|]|].
    + intros pv e E. right; right. rewrite rr_x. left. eauto.
    + intros n s2 HB2. apply Tr_bind; [exact HB2|apply AR; auto|intros; apply Tr_closing].
      intros e He. rewrite rr_x. auto.
  - intros f l IH pa name cond s HS HB. rewrite sane_sel in HS. autorewrite with evs.
    apply Tr_bind; [exact HB|apply Tr_refer; [auto|]|].
    + intros pv e E. right; right. rewrite rr_sel. left. eauto.
    + intros n s2 HB2. eapply Tr_mono; [|apply IH; assumption].
      intros e [He|[He|He]]; [left; exact He|right; left; exact He|right; right; rewrite rr_sel; right; exact He].
  - intros env s _ HB. autorewrite with evs. apply Tr_ret.
  - intros name req cond t IHt ms IHm env s HS HB. rewrite sanem_cons in HS. destruct HS as [HS1 HS2]. autorewrite with evs.
    destruct (visible ver req).
    + apply Tr_bind; [exact HB| |].
      * eapply Tr_mono; [|apply IHt; assumption]. intros e [[E _]|[He|He]]; [discriminate E| |]; rewrite rrm_cons; auto.
      * intros v s1 HB1. eapply Tr_mono; [|apply IHm; assumption]. intros e He. rewrite rrm_cons. auto.
    + eapply Tr_mono; [|apply IHm; assumption]. intros e He. rewrite rrm_cons. auto.
  - intros pa name cond k s _ HB. autorewrite with evs. apply Tr_ret.
  - intros k' t IHt l IHl pa name cond k s HS HB. rewrite sanea_cons in HS. destruct HS as [HS1 HS2]. autorewrite with evs.
    destruct (k' =? k).
    + eapply Tr_mono; [|apply IHt; assumption]. intros e [He|[He|He]]; [left; exact He|right; left; exact He|right; right; rewrite rra_cons; auto].
    + eapply Tr_mono; [|apply IHl; assumption]. intros e [He|[He|He]]; [left; exact He|right; left; exact He|right; right; rewrite rra_cons; auto].
Qed.

(** ** Reading for a version, C19 *)
Definition same {X} (r r' : sres Ctx X) : Prop :=
  map (report_of Ctx) (fst (fst r)) = map (report_of Ctx) (fst (fst r')) /\ snd (fst r) = snd (fst r') /\ snd r = snd r'.
Lemma same_refl : forall {X} (r : sres Ctx X), same r r.
Proof. intros. repeat split. Qed.
Lemma same_bind : forall {X Y} (r r' : sres Ctx X) (f f' : X -> stream -> sres Ctx Y), same r r' -> (forall x s, same (f x s) (f' x s)) ->
  same (andthen Ctx r f) (andthen Ctx r' f').
Proof.
  intros X Y [[tr s] y] [[tr' s'] y'] f f' (H1 & H2 & H3) HF. cbn [fst snd] in *. subst s' y'.
  destruct y as [[x|e]|]; cbn [andthen]; [|repeat split; assumption|repeat split; assumption].
  specialize (HF x s). destruct (f x s) as [[a b] d], (f' x s) as [[a' b'] d']. destruct HF as (G1 & G2 & G3). cbn [fst snd] in *. subst.
  repeat split; cbn [fst snd]. rewrite !map_app. congruence.
Qed.
Lemma same_guard : forall c pa cond s g g', (forall s, same (g s) (g' s)) -> same (guarded Ctx c pa cond s g) (guarded Ctx c pa cond s g').
Proof. intros. unfold guarded. destruct cond; [|auto]. apply same_bind; [apply same_refl|]. intros [|] s1; [auto|apply same_refl]. Qed.
Lemma same_closing : forall name t t' v s, same (closing Ctx name t v s) (closing Ctx name t' v s).
Proof. intros. repeat split. Qed.
Lemma same_repeated : forall item item', (forall v s, same (item v s) (item' v s)) -> forall n acc s, same (repeated Ctx n item acc s) (repeated Ctx n item' acc s).
Proof. intros item item' H n. induction n as [|n IH]; intros; cbn [repeated]; [apply same_refl|]. apply same_bind; auto. Qed.

Lemma pr_prim : forall v p, prune Ctx v (TPrim Ctx p) = TPrim Ctx p. Proof. reflexivity. Qed.
Lemma pr_flags : forall v f g, prune Ctx v (TFlags Ctx f g) = TFlags Ctx f g. Proof. reflexivity. Qed.
Lemma pr_struct : forall v ms, prune Ctx v (TStruct Ctx ms) = TStruct Ctx (prune_members Ctx v ms). Proof. reflexivity. Qed.
Lemma pr_fixed : forall v t n, prune Ctx v (TFixed Ctx t n) = TFixed Ctx (prune Ctx v t) n. Proof. reflexivity. Qed.
Lemma pr_var : forall v f t, prune Ctx v (TVar Ctx f t) = TVar Ctx f (prune Ctx v t). Proof. reflexivity. Qed.
Lemma pr_x : forall v f t, prune Ctx v (TX Ctx f t) = TX Ctx f (prune Ctx v t). Proof. reflexivity. Qed.
Lemma pr_sel : forall v f l, prune Ctx v (TSel Ctx f l) = TSel Ctx f (prune_alts Ctx v l). Proof. reflexivity. Qed.
Lemma prm_nil : forall v, prune_members Ctx v (MNil Ctx) = MNil Ctx. Proof. reflexivity. Qed.
Lemma prm_cons : forall v n req cd t rest, prune_members Ctx v (MCons Ctx n req cd t rest) =
  if visible (Some v) req then MCons Ctx n req cd (prune Ctx v t) (prune_members Ctx v rest) else prune_members Ctx v rest. Proof. reflexivity. Qed.
Lemma pra_nil : forall v, prune_alts Ctx v (ANil Ctx) = ANil Ctx. Proof. reflexivity. Qed.
Lemma pra_cons : forall v k t rest, prune_alts Ctx v (ACons Ctx k t rest) = ACons Ctx k (prune Ctx v t) (prune_alts Ctx v rest). Proof. reflexivity. Qed.

Theorem rd_pruned : forall c v,
  (forall t pa name cond s, same (rd Ctx c (Some v) pa name cond t s) (rd Ctx c None pa name cond (prune Ctx v t) s)) /\
  (forall ms env s, same (rd_members Ctx c (Some v) ms env s) (rd_members Ctx c None (prune_members Ctx v ms) env s)) /\
  (forall l pa name cond k s, same (rd_alts Ctx c (Some v) pa name cond k l s) (rd_alts Ctx c None pa name cond k (prune_alts Ctx v l) s)).
Proof.
  intros c v.
  assert (AR : forall name t0 t1 t t' n s, (forall x s, same (rd Ctx c (Some v) (Some x) None None t s) (rd Ctx c None (Some x) None None t' s)) ->
     same (array_of Ctx c (Some v) name t0 t n s) (array_of Ctx c None name t1 t' n s)).
  { intros. unfold array_of. apply same_bind; [repeat split|]. intros. apply same_repeated. assumption. }
  apply ty_members_alts_ind.
  - intros. rewrite pr_prim. autorewrite with evs. apply same_refl.
  - intros. rewrite pr_flags. autorewrite with evs. apply same_refl.
  - intros ms IH pa name cond s. rewrite pr_struct. autorewrite with evs. apply same_guard. intros s1.
    apply same_bind; [repeat split|]. intros _ s2. apply same_bind; [apply IH|]. intros. apply same_closing.
  - intros t IH n pa name cond s. rewrite pr_fixed. autorewrite with evs. apply same_guard. intros s1.
    apply same_bind; [apply AR; auto|]. intros. apply same_closing.
  - intros f t IH pa name cond s. rewrite pr_var. autorewrite with evs. apply same_guard. intros s1.
    apply same_bind; [apply same_refl|]. intros x s2. destruct x; try apply same_refl.
    apply same_bind; [apply AR; auto|]. intros. apply same_closing.
  - intros f t IH pa name cond s. rewrite pr_x. autorewrite with evs. apply same_guard. intros s1.
    apply same_bind; [apply same_refl|]. intros x s2. apply same_bind; [apply AR; auto|]. intros. apply same_closing.
  - intros f l IH pa name cond s. rewrite pr_sel. autorewrite with evs. apply same_bind; [apply same_refl|]. intros. apply IH.
  - intros. apply same_refl.
  - intros name req cond t IHt ms IHm env s. rewrite prm_cons, rdm_cons. destruct (visible (Some v) req).
    + rewrite rdm_cons. cbn [visible]. apply same_bind; [apply IHt|]. intros. apply IHm.
    + apply IHm.
  - intros. apply same_refl.
  - intros k' t IHt l IHl pa name cond k s. rewrite pra_cons. autorewrite with evs. destruct (k' =? k); auto.
Qed.

Lemma prune_wf : forall v, (forall t, wf Ctx t -> wf Ctx (prune Ctx v t)) /\ (forall ms, wf_members Ctx ms -> wf_members Ctx (prune_members Ctx v ms)) /\
  (forall l, (wf_alts Ctx l -> wf_alts Ctx (prune_alts Ctx v l)) /\ (forall k, has_key Ctx k (prune_alts Ctx v l) -> has_key Ctx k l)).
Proof.
  intros v. apply ty_members_alts_ind; auto.
  - intros l r IH. exact (proj1 IH) || (intros; apply IH; assumption).
  - intros name req cond t IHt ms IHm. rewrite wfm_cons, prm_cons. intros [H1 H2]. destruct (visible (Some v) req); [rewrite wfm_cons|]; auto.
  - intros k t IHt l [IHl IHk]. rewrite pra_cons. split.
    + rewrite !wfa_cons. intros (H1 & H2 & H3 & H4). repeat split; auto. destruct t; try exact I; contradiction.
    + cbn [has_key]. intros k' [H|H]; auto.
Qed.

(** ** The engine, put together *)
Theorem read_type_is : forall c ver t s, wf Ctx t -> all_bytes (s_rest s) -> sane Ctx t ->
  exists n, forall k,
  match rd Ctx c ver None None None t s with
  | (tr, s', Some (Ok (Some v))) =>
      read_type_events Ctx (n + k) t c ver s = (tr, s', Finished) /\ read_type Ctx (n + k) t c ver s = (Some (Ok v), s')
  | (tr, s', Some (Raise e)) =>
      read_type_events Ctx (n + k) t c ver s = (tr, s', Failed e) /\ read_type Ctx (n + k) t c ver s = (Some (Raise e), s')
  | _ => False
  end.
Proof.
  intros c ver t s HW HB HS. destruct (engine_reads Ctx c ver t s HW) as [n Hn]. exists n. intros k. specialize (Hn k).
  pose proof (proj1 (rd_says c ver) t None None None s) as HL. pose proof (rd_top_none c ver t None s) as HN.
  pose proof (proj1 (rd_traced c ver) t None None None s HS HB) as HT.
  unfold read_type. rewrite Hn.
  destruct (rd Ctx c ver None None None t s) as [[tr s'] [[[v|]|e]|]]; cbn [Tr says] in *.
  - destruct HL as (tr0 & e & -> & E). rewrite rev_app_distr. cbn [rev app]. rewrite E. auto.
  - exact (HN _ _ eq_refl).
  - auto.
  - exact HT.
Qed.

Lemma run_more : forall c fuel k s out s' o, o <> OutOfFuel -> run Ctx fuel c s = (out, s', o) -> run Ctx (fuel + k) c s = (out, s', o).
Proof.
  intros c fuel. induction fuel as [|fuel IH]; intros k s out s' o HO H; cbn [run Nat.add] in *.
  - inversion H; subst; congruence.
  - destruct (step Ctx c s); [apply IH; assumption|exact H].
Qed.

(** Whatever fuel was enough, the answer is the declared one. *)
Theorem events_are : forall c ver t s fuel tr s' o, wf Ctx t -> o <> OutOfFuel ->
  read_type_events Ctx fuel t c ver s = (tr, s', o) ->
  exists r, rd Ctx c ver None None None t s = (tr, s', Some r) /\ o = match r with Ok _ => Finished | Raise e => Failed e end.
Proof.
  intros c ver t s fuel tr s' o HW HO H. destruct (engine_reads Ctx c ver t s HW) as [n Hn]. specialize (Hn fuel).
  unfold read_type_events in *. apply (run_more c fuel n) in H; [|exact HO]. rewrite Nat.add_comm in H. rewrite H in Hn.
  destruct (rd Ctx c ver None None None t s) as [[tr1 s1] [[x|e]|]]; inversion Hn; subst; try congruence; eexists; split; reflexivity.
Qed.

Theorem written_reads_back : forall c ver t v b rest pos, wf Ctx t -> ser Ctx c ver None None t (Some v) b rest ->
  exists n, forall k, read_type Ctx (n + k) t c ver (mkStream (b ++ rest) pos) = (Some (Ok v), mkStream rest (pos + zlen b)).
Proof.
  intros c ver t v b rest pos HW H. destruct (engine_reads Ctx c ver t (mkStream (b ++ rest) pos) HW) as [n Hn]. exists n. intros k.
  specialize (Hn k). destruct (proj1 (ser_reads c ver) _ _ _ _ _ _ H None pos) as [tr E].
  pose proof (proj1 (rd_says c ver) t None None None (mkStream (b ++ rest) pos)) as HL. rewrite E in Hn, HL.
  unfold read_type. rewrite Hn. cbn [says] in HL. destruct HL as (tr0 & e & -> & EV). rewrite rev_app_distr. cbn [rev app]. now rewrite EV.
Qed.

Theorem leaves_tile : forall c ver t s fuel tr s', wf Ctx t -> sane Ctx t -> all_bytes (s_rest s) ->
  read_type_events Ctx fuel t c ver s = (tr, s', Finished) -> covers tr s s' /\ exists b, s_rest s = b ++ s_rest s' /\ s_pos s' = s_pos s + zlen b.
Proof.
  intros c ver t s fuel tr s' HW HS HB H. apply events_are in H; [|exact HW|discriminate]. destruct H as ([x|e] & E & HO); [|discriminate].
  pose proof (proj1 (rd_traced c ver) t None None None s HS HB) as HT. rewrite E in HT. cbn [Tr] in HT.
  split; [exact HT|]. exact (covers_consumes _ _ _ HT).
Qed.

Theorem failure_located : forall c ver t s fuel tr s' e, wf Ctx t -> sane Ctx t -> all_bytes (s_rest s) ->
  read_type_events Ctx fuel t c ver s = (tr, s', Failed e) ->
  fails_because Ctx (fun e => e = IndexError \/ ref_raises Ctx c e t) tr s e.
Proof.
  intros c ver t s fuel tr s' e HW HS HB H. apply events_are in H; [|exact HW|discriminate]. destruct H as ([x|e'] & E & HO); [discriminate|].
  injection HO as ->. pose proof (proj1 (rd_traced c ver) t None None None s HS HB) as HT.
  apply (Tr_mono _ (fun e => e = IndexError \/ ref_raises Ctx c e t)) in HT; [rewrite E in HT; exact HT|].
  intros e0 [[_ H]|[H|H]]; [auto|contradiction H|auto].
Qed.

Theorem read_version : forall c v t s, wf Ctx t -> all_bytes (s_rest s) -> sane Ctx t -> exists n, forall k,
  read_type Ctx (n + k) t c (Some v) s = read_type Ctx (n + k) (prune Ctx v t) c None s /\
  map (report_of Ctx) (fst (fst (read_type_events Ctx (n + k) t c (Some v) s))) =
  map (report_of Ctx) (fst (fst (read_type_events Ctx (n + k) (prune Ctx v t) c None s))).
Proof.
  intros c v t s HW HB HS.
  destruct (engine_reads Ctx c (Some v) t s HW) as [n Hn]. destruct (engine_reads Ctx c None (prune Ctx v t) s (proj1 (prune_wf v) t HW)) as [m Hm].
  exists (n + m)%nat. intros k. specialize (Hn (m + k)%nat). specialize (Hm (n + k)%nat).
  replace (n + (m + k))%nat with (n + m + k)%nat in Hn by lia. replace (m + (n + k))%nat with (n + m + k)%nat in Hm by lia.
  pose proof (proj1 (rd_says c (Some v)) t None None None s) as HL1. pose proof (proj1 (rd_says c None) (prune Ctx v t) None None None s) as HL2.
  pose proof (rd_top_none c (Some v) t None s) as HN.
  pose proof (proj1 (rd_pruned c v) t None None None s) as (S1 & S2 & S3).
  unfold read_type. rewrite Hn, Hm.
  destruct (rd Ctx c (Some v) None None None t s) as [[tr s1] r1]. destruct (rd Ctx c None None None None (prune Ctx v t) s) as [[tr' s2] r2].
  cbn [fst snd] in *. subst s2 r2. destruct r1 as [[[x|]|e]|]; cbn [says fst] in *; auto.
  - destruct HL1 as (a & e & -> & E). destruct HL2 as (a' & e' & -> & E'). rewrite !rev_app_distr. cbn [rev app]. rewrite E, E'. auto.
  - exfalso. exact (HN _ _ eq_refl).
Qed.
End P.

Lemma visible_unless_earlier : forall v r, visible (Some v) (Some r) = false <-> earlier v r.
Proof.
  cbn [visible]. induction v as [|x v IH]; destruct r as [|y r]; cbn [version_lt negb].
  - split; [discriminate|]. intros [(p & a & b & v' & r' & E & _)|(b & r' & E)]; [destruct p; discriminate|discriminate].
  - split; [|reflexivity]. intros _. right. now exists y, r.
  - split; [discriminate|]. intros [(p & a & b & v' & r' & _ & E & _)|(b & r' & E)]; [destruct p; discriminate|discriminate].
  - destruct (x <? y) eqn:L1; [|destruct (y <? x) eqn:L2].
    + split; [|reflexivity]. intros _. left. exists [], x, y, v, r. apply Z.ltb_lt in L1. auto.
    + apply Z.ltb_lt in L2. split; [discriminate|].
      intros [([|z p] & a & b & v' & r' & E1 & E2 & L)|(b & r' & E)].
      * injection E1 as -> ->. injection E2 as -> ->. lia.
      * cbn in E1, E2. injection E1 as -> ->. injection E2 as -> ->. lia.
      * cbn in E. injection E as -> ->. lia.
    + apply Z.ltb_ge in L1, L2. assert (x = y) by lia. subst y. rewrite IH. split.
      * intros [(p & a & b & v' & r' & -> & -> & L)|(b & r' & ->)].
        { left. now exists (x :: p), a, b, v', r'. }
        { right. now exists b, r'. }
      * intros [([|z p] & a & b & v' & r' & E1 & E2 & L)|(b & r' & E)].
        { injection E1 as -> ->. injection E2 as E2 _. lia. }
        { cbn in E1, E2. injection E1 as -> ->. injection E2 as ->. left. now exists p, a, b, v', r'. }
        { cbn in E. injection E as ->. right. now exists b, r'. }
Qed.
