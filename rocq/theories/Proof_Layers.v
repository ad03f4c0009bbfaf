(** Proofs about recognition, layers, sections and decompression. *)
From Coq Require Import ZArith String List Bool Lia Sorted Permutation.
From Verif Require Import Base BaseFacts Model_Text Model_Dataio Spec_Dataio Proof_Text Model_Bintype Model_XmlText
  Model_Storage Model_Filestructure Spec_Filestructure Proof_Filestructure.
Import ListNotations.
Open Scope string_scope.
Open Scope list_scope.
Open Scope Z_scope.

(** ** Recognition *)

Lemma split_header : forall b : list Z, 41 <= zlen b -> exists sig v1 v2 v3 v4 f1 f2 f3 f4 rest,
  b = sig ++ [v4; v3; v2; v1] ++ [f1; f2; f3; f4] ++ rest /\ zlen sig = 32 /\ rest <> [].
Proof.
  intros b H. assert (HS : exists sig r, b = sig ++ r /\ zlen sig = 32).
  { exists (ztake 32 b), (zdrop 32 b). split; [symmetry; apply ztake_zdrop|]. rewrite zlen_ztake. lia. }
  destruct HS as (sig & r & -> & HS). rewrite zlen_app in H.
  destruct r as [|a1 [|a2 [|a3 [|a4 [|a5 [|a6 [|a7 [|a8 [|a9 r]]]]]]]]]; rewrite ?zlen_cons, ?zlen_nil in H; try lia.
  exists sig, a4, a3, a2, a1, a5, a6, a7, a8, (a9 :: r). split; [reflexivity|]. split; [exact HS|discriminate].
Qed.

Lemma sig_magic : HWP5_SIGNATURE = magic.
Proof. reflexivity. Qed.

Lemma recognized : forall x y b, get x (zs "FileHeader") = Ok y -> is_stream y = true -> open y = Ok b -> 41 <= zlen b ->
  ((exists rest, b = magic ++ rest) -> storage_is_hwp5file x = Ok true) /\
  (~ (exists rest, b = magic ++ rest) -> storage_is_hwp5file x = Ok false).
Proof.
  intros x y b HG HY HO HL. destruct (split_header b HL) as (sig & v1 & v2 & v3 & v4 & f1 & f2 & f3 & f4 & rest & E & HS & HR).
  unfold storage_is_hwp5file. rewrite HG. unfold hwp_file_header. rewrite HY. cbn [bind open stream_item]. rewrite HO. cbn [bind].
  unfold header_signature. rewrite E, header_dict_full by assumption. cbn [bind dict_item dict_get String.eqb Ascii.eqb Bool.eqb].
  rewrite sig_magic. split.
  - intros (r & Er). destruct (list_eq_dec Z.eq_dec sig magic) as [D|D]; [reflexivity|]. exfalso. apply D.
    assert (HM : zlen magic = 32) by reflexivity.
    apply (f_equal (ztake 32)) in Er. rewrite !ztake_app_eq in Er by (symmetry; assumption). exact Er.
  - intros HN. destruct (list_eq_dec Z.eq_dec sig magic) as [D|D]; [|reflexivity]. exfalso. apply HN. rewrite D. eauto.
Qed.
Lemma unreadable : forall x y b, get x (zs "FileHeader") = Ok y -> is_stream y = true -> open y = Ok b -> zlen b < 41 ->
  exists e, storage_is_hwp5file x = Raise e /\ short_header (zlen b) e.
Proof.
  intros x y b HG HY HO HL. destruct (header_short b HL) as (e & E & HE). exists e. split; [|exact HE].
  unfold storage_is_hwp5file. rewrite HG. unfold hwp_file_header. rewrite HY. cbn [bind open stream_item]. rewrite HO. cbn [bind].
  unfold header_signature. rewrite E. reflexivity.
Qed.
Lemma no_header : forall x, (get x (zs "FileHeader") = Raise KeyError -> storage_is_hwp5file x = Ok false) /\
  (forall e, get x (zs "FileHeader") = Raise e -> e <> KeyError -> storage_is_hwp5file x = Raise e) /\
  (forall y, get x (zs "FileHeader") = Ok y -> is_stream y = false -> storage_is_hwp5file x = Raise AttributeError) /\
  (forall y e, get x (zs "FileHeader") = Ok y -> is_stream y = true -> open y = Raise e -> storage_is_hwp5file x = Raise e).
Proof.
  intros x. unfold storage_is_hwp5file, hwp_file_header. split; [intros ->; reflexivity|]. split.
  - intros e -> He. destruct e; try reflexivity. congruence.
  - split; [intros y -> ->; reflexivity|]. intros y e -> -> HO. cbn [bind open stream_item]. rewrite HO. reflexivity.
Qed.

(** ** Layers *)

Lemma named_one_of : forall n l, named n l = true <-> one_of n l.
Proof.
  intros n l. unfold named, one_of. rewrite existsb_exists, in_map_iff. split.
  - intros (s & H1 & H2). exists s. split; [|exact H1]. unfold name_eqb in H2. destruct (list_eq_dec Z.eq_dec n (zs s)); [now subst|discriminate].
  - intros (s & H1 & H2). exists s. split; [exact H2|]. unfold name_eqb. destruct (list_eq_dec Z.eq_dec n (zs s)); [reflexivity|congruence].
Qed.
Lemma named_not : forall n l, ~ one_of n l -> named n l = false.
Proof. intros n l H. destruct (named n l) eqn:E; [|reflexivity]. apply named_one_of in E. contradiction. Qed.
Lemma not_one : forall n s l, ~ one_of n l -> In s l -> name_eqb n (zs s) = false.
Proof.
  intros n s l H HI. unfold name_eqb. destruct (list_eq_dec Z.eq_dec n (zs s)) as [->|]; [|reflexivity]. exfalso. apply H. unfold one_of. now apply in_map.
Qed.

Lemma flag_bits : forall n, flag "password" n = Ok (protected n) /\ flag "distributable" n = Ok (distributed n) /\ flag "compressed" n = Ok (compressed n).
Proof.
  intros n. unfold flag, protected, distributed, compressed. cbn [dict_get header_flags String.eqb Ascii.eqb Bool.eqb]. rewrite !bit_value by lia.
  repeat split; match goal with |- context [Z.testbit ?a ?b] => destruct (Z.testbit a b) end; reflexivity.
Qed.

Ltac finish distdoc :=
  cbn; eexists; (split; [reflexivity|]); (split; [reflexivity|]);
  (split; [intros m e HX; cbn; rewrite HX; reflexivity|]);
  intros m y HM HT; cbn; rewrite HM; cbn; rewrite ?HM; cbn; rewrite ?HT; cbn; rewrite ?HM; cbn; rewrite ?HT;
  eexists; (split; [reflexivity|]); (split; [reflexivity || exact HT|]);
  unfold version_sensitive, distdoc_stream, compressed_stream, password_stream; cbn [open open_wrapper]; destruct (open y); cbn; try reflexivity; match goal with |- context [distdoc ?b] => destruct (distdoc b) end; reflexivity.

Section Layers.
  Variable inflate : list Z -> option (list Z).
  Variable distdoc : list Z -> res (list Z).
  Variable utf8_text : list Z -> res (list Z).
  Variable summary_text : list Z -> res (list Z).
  Let hwp := hwp5_file inflate distdoc utf8_text summary_text.
  Let fconv := file_conv utf8_text summary_text.

  Definition layered (flags : Z) (x : item) : item :=
    let base := conversion_storage base_conv x in
    conversion_storage fconv
      (if protected flags then conversion_storage password_conv base
       else let a := if distributed flags then conversion_storage (distdoc_conv distdoc) base else base in
            if compressed flags then conversion_storage (compression_conv inflate) a else a).

  Lemma recognized_header : forall x flags, has_header x flags -> storage_is_hwp5file x = Ok true.
  Proof.
    intros x flags (y & v1 & v2 & v3 & v4 & rest & HG & HY & HO & HF & HR).
    eapply (recognized x y); [exact HG|exact HY|exact HO| |].
    - unfold header_bytes. destruct (number4 flags HF) as (f1 & f2 & f3 & f4 & E & _). rewrite E, !zlen_app, !zlen_cons, zlen_nil.
      destruct rest as [|a rest]; [congruence|]. rewrite zlen_cons. pose proof (zlen_nonneg _ rest). change (zlen magic) with 32. lia.
    - unfold header_bytes. eauto.
  Qed.

  Lemma opened : forall x flags, has_header x flags -> hwp x = Ok (layered flags x).
  Proof.
    intros x flags H. unfold hwp, hwp5_file, hwp5_file_base. rewrite (recognized_header x flags H). cbn [bind].
    destruct H as (y & v1 & v2 & v3 & v4 & rest & HG & HY & HO & HF & HR).
    unfold storage_flags. cbn [conversion_storage get]. rewrite HG. cbn [bind]. change (base_conv (zs "FileHeader")) with (Some hwp_file_header). cbn [hwp_file_header].
    unfold hwp_file_header. rewrite HY. cbn [bind open stream_item]. rewrite HO. cbn [bind]. unfold header_flags_value.
    rewrite (header_bytes_dict magic v1 v2 v3 v4 flags rest eq_refl HR HF). cbn [bind dict_item dict_get String.eqb Ascii.eqb Bool.eqb].
    destruct (flag_bits flags) as (E1 & E2 & E3). rewrite E1. cbn [bind]. unfold layered. destruct (protected flags); [reflexivity|].
    rewrite E2. cbn [bind]. rewrite E3. cbn [bind]. reflexivity.
  Qed.

  Lemma rejected : forall x, storage_is_hwp5file x = Ok false -> hwp x = Raise InvalidHwp5File.
  Proof. intros x H. unfold hwp, hwp5_file, hwp5_file_base. rewrite H. reflexivity. Qed.
  Lemma rejected_raise : forall x e, storage_is_hwp5file x = Raise e -> hwp x = Raise e.
  Proof. intros x e H. unfold hwp, hwp5_file, hwp5_file_base. rewrite H. reflexivity. Qed.

  Lemma layered_iter : forall flags x, iter (layered flags x) = iter x.
  Proof. intros flags x. unfold layered. destruct (protected flags); [reflexivity|]. destruct (distributed flags), (compressed flags); reflexivity. Qed.
  Lemma layered_missing : forall flags x n e, get x n = Raise e -> get (layered flags x) n = Raise e.
  Proof.
    intros flags x n e H. unfold layered. destruct (protected flags); [|destruct (distributed flags), (compressed flags)];
      cbn [conversion_storage get]; rewrite H; reflexivity.
  Qed.

  Definition SPECIAL : list string := ["FileHeader"; "DocInfo"; "BodyText"; "ViewText"; "BinData"; "Scripts"; "PrvText"].
  Definition SUMMARY : list Z := 5 :: zs "HwpSummaryInformation".

  Lemma layered_untouched : forall flags x n, ~ one_of n SPECIAL -> n <> SUMMARY -> get (layered flags x) n = get x n.
  Proof.
    intros flags x n H HS.
    assert (HN : forall s, In s SPECIAL -> name_eqb n (zs s) = false) by (intros s Hs; exact (not_one n s SPECIAL H Hs)).
    assert (HS' : name_eqb n SUMMARY = false) by (unfold name_eqb; destruct (list_eq_dec Z.eq_dec n SUMMARY); [contradiction|reflexivity]).
    assert (C1 : base_conv n = None) by (unfold base_conv, named; cbn [existsb]; rewrite !HN by (cbn; tauto); reflexivity).
    assert (C2 : password_conv n = None) by (unfold password_conv, named; cbn [existsb]; rewrite !HN by (cbn; tauto); reflexivity).
    assert (C3 : distdoc_conv distdoc n = None) by (unfold distdoc_conv, named; cbn [existsb]; rewrite !HN by (cbn; tauto); reflexivity).
    assert (C4 : compression_conv inflate n = None) by (unfold compression_conv, named; cbn [existsb]; rewrite !HN by (cbn; tauto); reflexivity).
    assert (C5 : fconv n = None) by (unfold fconv, file_conv, named; cbn [existsb]; rewrite !HN by (cbn; tauto); cbn [orb]; fold SUMMARY; rewrite HS'; reflexivity).
    unfold layered. destruct (protected flags); [|destruct (distributed flags), (compressed flags)];
      cbn [conversion_storage get]; rewrite ?C1, ?C2, ?C3, ?C4, ?C5; destruct (get x n); cbn [bind]; rewrite ?C1, ?C2, ?C3, ?C4, ?C5; reflexivity.
  Qed.

  Lemma in_special : forall n l, one_of n l -> exists s, In s l /\ n = zs s.
  Proof. intros n l H. unfold one_of in H. apply in_map_iff in H. destruct H as (s & H1 & H2). eauto. Qed.
  Definition none_of_dec : forall n l, {one_of n l} + {~ one_of n l} := fun n l => in_dec (list_eq_dec Z.eq_dec) n (map zs l).

  (** The streams of the root. *)
  Definition formats_of (n : name) (b : res (list Z)) : list (name * res (list Z)) :=
    if name_eqb n (zs "PrvText") then [(zs ".utf8", let? c := b in utf8_text c)]
    else if name_eqb n SUMMARY then [(zs ".txt", let? c := b in summary_text c)]
    else if name_eqb n (zs "FileHeader") then [(zs ".txt", let? c := b in header_text c)]
    else [].

  Lemma layered_root : forall flags x n y st, get x n = Ok y -> is_stream y = true ->
    ~ one_of n ["BodyText"; "ViewText"; "BinData"; "Scripts"] -> root_stages flags n st ->
    exists z, get (layered flags x) n = Ok z /\ is_stream z = true /\ open z = delivered inflate distdoc st (open y).
  Proof.
    intros flags x n y st HG HY HN HST.
    destruct (none_of_dec n SPECIAL) as [D|D].
    - apply in_special in D. destruct D as (s & HI & ->).
      assert (HD : delivered inflate distdoc [Inflate] (open y) = (let? b := open y in Ok (decompress inflate b))) by (destruct (open y); reflexivity).
      cbn [SPECIAL In] in HI.
      repeat (destruct HI as [<-|HI]; [try (exfalso; apply HN; unfold one_of; cbn [map In]; tauto)|]); [| | |contradiction].
      + assert (st = []) as -> by (inversion HST; try reflexivity; discriminate).
        unfold layered. destruct (protected flags); [|destruct (distributed flags), (compressed flags)];
          cbn [conversion_storage get]; rewrite HG; cbn; unfold hwp_file_header; rewrite HY; cbn; eexists; repeat split; reflexivity.
      + unfold layered. inversion HST as [HP|HP _ HE|HX]; [subst st; rewrite HP| |congruence].
        * cbn [conversion_storage get]; rewrite HG; cbn. eexists; split; [reflexivity|]. split; reflexivity.
        * rewrite HP. destruct (distributed flags), (compressed flags); cbn [conversion_storage get]; rewrite HG; cbn;
            eexists; (split; [reflexivity|]); (split; [reflexivity|]); cbn; rewrite <- ?HD; reflexivity.
      + assert (st = []) as -> by (inversion HST; try reflexivity; discriminate).
        unfold layered. destruct (protected flags); [|destruct (distributed flags), (compressed flags)];
          cbn [conversion_storage get]; rewrite HG; cbn; unfold preview_text; rewrite HY; eexists; repeat split; reflexivity.
    - assert (st = []) as -> by (inversion HST; try reflexivity; subst n; exfalso; apply D; unfold one_of; cbn [map In SPECIAL]; tauto).
      destruct (list_eq_dec Z.eq_dec n SUMMARY) as [->|HS].
      + unfold layered. destruct (protected flags); [|destruct (distributed flags), (compressed flags)];
          cbn [conversion_storage get]; rewrite HG; cbn; eexists; repeat split; reflexivity.
      + exists y. rewrite layered_untouched by assumption. split; [exact HG|]. split; [exact HY|reflexivity].
  Qed.

  Lemma layered_inner : forall flags x n s st, get x n = Ok s ->
    ~ one_of n ["FileHeader"; "DocInfo"; "PrvText"] -> n <> SUMMARY -> inner_stages flags n st ->
    exists t, get (layered flags x) n = Ok t /\ iter t = iter s /\
      (forall m e, get s m = Raise e -> get t m = Raise e) /\
      (forall m y, get s m = Ok y -> is_stream y = true -> exists z, get t m = Ok z /\ is_stream z = true /\ open z = delivered inflate distdoc st (open y)).
  Proof.
    intros flags x n s st HG HN HS HST.
    destruct (none_of_dec n SPECIAL) as [D|D].
    2:{ exists s. rewrite layered_untouched by assumption. split; [exact HG|]. split; [reflexivity|]. split; [auto|]. intros m y HY HT. exists y.
        assert (st = []) as ->; [|auto].
        inversion HST as [?|? HO|? HO|?]; try reflexivity; exfalso; apply D; unfold one_of in *; cbn [map In SPECIAL] in *; tauto. }
    apply in_special in D. destruct D as (w & HI & ->). cbn [SPECIAL In] in HI.
    repeat (destruct HI as [<-|HI]; [try (exfalso; apply HN; unfold one_of; cbn [map In]; tauto)|]); [| | | |contradiction].
    - assert (EST : st = if protected flags then [] else if compressed flags then [Inflate] else []).
      { inversion HST as [HP|HP HO|HP HO|HO]; rewrite ?HP; try reflexivity; exfalso;
          [unfold one_of in HO; cbn [map In] in HO; repeat destruct HO as [HO|HO]; try discriminate HO; contradiction|apply HO; unfold one_of; cbn [map In]; tauto]. }
      subst st. clear HST. unfold layered. destruct (protected flags); [|destruct (distributed flags), (compressed flags)];
        cbn [conversion_storage get]; rewrite HG; finish distdoc.
    - assert (EST : st = if protected flags then [] else (if distributed flags then [Decrypt] else []) ++ (if compressed flags then [Inflate] else [])).
      { inversion HST as [HP|HP HO|HP HO|HO]; rewrite ?HP; try reflexivity; exfalso;
          [unfold one_of in HO; cbn [map In] in HO; repeat destruct HO as [HO|HO]; try discriminate HO; contradiction|apply HO; unfold one_of; cbn [map In]; tauto]. }
      subst st. clear HST. unfold layered. destruct (protected flags); [|destruct (distributed flags), (compressed flags)];
        cbn [conversion_storage get]; rewrite HG; finish distdoc.
    - assert (EST : st = if protected flags then [] else if compressed flags then [Inflate] else []).
      { inversion HST as [HP|HP HO|HP HO|HO]; rewrite ?HP; try reflexivity; exfalso;
          [unfold one_of in HO; cbn [map In] in HO; repeat destruct HO as [HO|HO]; try discriminate HO; contradiction|apply HO; unfold one_of; cbn [map In]; tauto]. }
      subst st. clear HST. unfold layered. destruct (protected flags); [|destruct (distributed flags), (compressed flags)];
        cbn [conversion_storage get]; rewrite HG; finish distdoc.
    - assert (EST : st = if protected flags then [] else (if distributed flags then [Decrypt] else []) ++ (if compressed flags then [Inflate] else [])).
      { inversion HST as [HP|HP HO|HP HO|HO]; rewrite ?HP; try reflexivity; exfalso;
          [unfold one_of in HO; cbn [map In] in HO; repeat destruct HO as [HO|HO]; try discriminate HO; contradiction|apply HO; unfold one_of; cbn [map In]; tauto]. }
      subst st. clear HST. unfold layered. destruct (protected flags); [|destruct (distributed flags), (compressed flags)];
        cbn [conversion_storage get]; rewrite HG; finish distdoc.
  Qed.

  Lemma layered_text : forall flags x, has_header x flags ->
    file_text (layered flags x) = get (layered flags x) (zs (if distributed flags then "ViewText" else "BodyText")).
  Proof.
    intros flags x (y & v1 & v2 & v3 & v4 & rest & HG & HY & HO & HF & HR). unfold file_text, storage_flags.
    assert (E : get (layered flags x) (zs "FileHeader") = hwp_file_header y).
    { unfold layered. destruct (protected flags); [|destruct (distributed flags), (compressed flags)]; cbn [conversion_storage get]; rewrite HG; cbn;
        unfold hwp_file_header; rewrite HY; reflexivity. }
    rewrite E. unfold hwp_file_header. rewrite HY. cbn [bind open stream_item]. rewrite HO. cbn [bind]. unfold header_flags_value.
    rewrite (header_bytes_dict magic v1 v2 v3 v4 flags rest eq_refl HR HF). cbn [bind dict_item dict_get String.eqb Ascii.eqb Bool.eqb].
    destruct (flag_bits flags) as (_ & E2 & _). rewrite E2. reflexivity.
  Qed.

  Lemma layered_formats : forall flags x n y z, get x n = Ok y -> is_stream y = true ->
    get (layered flags x) n = Ok z ->
    (n = zs "PrvText" -> formats z = [(zs ".utf8", let? b := open y in utf8_text b)]) /\
    (n = SUMMARY -> formats z = [(zs ".txt", let? b := open y in summary_text b)]) /\
    (n = zs "FileHeader" -> formats z = [(zs ".txt", let? b := open y in header_text b)]) /\
    (n = zs "DocInfo" -> formats z = []).
  Proof.
    intros flags x n y z HG HY HZ. repeat split; intros ->; revert HZ; unfold layered; (destruct (protected flags); [|destruct (distributed flags), (compressed flags)]);
      cbn [conversion_storage get]; rewrite HG; cbn; unfold preview_text, hwp_file_header; rewrite ?HY; cbn; intros HZ; injection HZ as <-; reflexivity.
  Qed.
End Layers.
