(** Paragraph text parsing agrees with its specification. *)
From Coq Require Import ZArith List Bool Lia.
From Verif Require Import Base BaseFacts Model_Text Model_Dataio Model_ParaText Spec_Text Spec_Dataio
  Spec_ParaText Proof_Dataio Proof_Utf16.
Import ListNotations.
Open Scope Z_scope.

Lemma znth_zdrop : forall A n (l : list A) x r, 0 <= n -> zdrop n l = x :: r -> znth n l = Some x.
Proof.
  intros A n l x r Hn H. rewrite znth_nth_error by assumption. rewrite zdrop_skipn in H.
  revert l H. induction (Z.to_nat n) as [|k IH]; intros [|y l] H; cbn in *; try discriminate; [congruence|auto].
Qed.

Lemma even_land1 : forall i, 0 <= i -> (Z.land i 1 =? 1) = negb (Z.even i).
Proof.
  intros i Hi. change 1 with (Z.ones 1) at 1. rewrite Z.land_ones by lia. change (2 ^ 1) with 2.
  rewrite Zeven_mod. pose proof (Z.mod_pos_bound i 2). unfold Zeq_bool.
  assert (C : i mod 2 = 0 \/ i mod 2 = 1) by lia. destruct C as [-> | ->]; reflexivity.
Qed.

(** ** The control table *)
Lemma control_kind_one : forall c, one_unit_control c -> control_kind c = Ok KChar.
Proof. intros c H. unfold one_unit_control in H. cbn [In] in H. repeat (destruct H as [<-|H]; [reflexivity|]). destruct H. Qed.

Lemma control_kind_undefined : forall c, undefined_control c -> control_kind c = Raise KeyError.
Proof.
  intros c H. unfold undefined_control in H.
  assert (C : In c [0x19; 0x1a; 0x1b; 0x1c; 0x1d]) by (cbn; lia). cbn [In] in C.
  repeat (destruct C as [<-|C]; [reflexivity|]). destruct C.
Qed.

Lemma control_kind_eight : forall c, eight_unit_control c ->
  exists k, control_kind c = Ok k /\ kind_size k = 8.
Proof.
  intros c (H & N1 & N2). unfold one_unit_control, undefined_control in *. cbn [In] in N1.
  assert (C : In c [1;2;3;4;5;6;7;8;9;11;12;14;15;16;17;18;19;20;21;22;23]) by (cbn [In]; lia). cbn [In] in C.
  repeat (destruct C as [<-|C]; [eexists; split; reflexivity|]). destruct C.
Qed.

Lemma control_trichotomy : forall c, 0 <= c < 0x20 ->
  one_unit_control c \/ undefined_control c \/ eight_unit_control c.
Proof.
  intros c H. unfold eight_unit_control, one_unit_control, undefined_control. cbn [In].
  lia.
Qed.

(** ** Searching *)
Lemma find_loop_spec : forall data rest, all_bytes data ->
  forall n b start fuel, (List.length b <= n)%nat -> Z.even start = true -> 0 <= start ->
  zdrop start data = b ++ rest -> control_free b ->
  (rest = [] \/ (exists lo t, rest = lo :: 0 :: t /\ lo < 0x20) /\ Z.even (zlen b) = true) ->
  (List.length (b ++ rest) < fuel)%nat ->
  find_loop fuel data start =
  Some (match rest with
        | [] => Ok (zlen data, zlen data)
        | lo :: _ => let i := start + zlen b in
                     let? kind := control_kind lo in Ok (i, i + kind_size kind * 2)
        end).
Proof.
  intros data rest Hd. induction n as [|n IH]; intros b start fuel Hn He Hs HD HF HR HL.
  - destruct b; [|cbn in Hn; lia]. cbn [app] in *. destruct fuel as [|k]; [lia|]. cbn [find_loop]. rewrite HD.
    destruct HR as [->|[(lo & t & -> & Hlo) _]].
    + cbn. reflexivity.
    + assert (Hb : all_bytes (lo :: 0 :: t)) by (rewrite <- HD; now apply all_bytes_zdrop).
      inversion Hb as [|? ? Hb0 _]; subst. unfold is_byte in Hb0.
      cbn [regex_search]. replace ((0 <=? lo) && (lo <=? 31) && (0 =? 0)) with true by lia.
      rewrite even_land1, He by assumption. cbn [negb]. rewrite (znth_zdrop _ _ _ _ _ Hs HD).
      rewrite zlen_nil, Z.add_0_r. reflexivity.
  - destruct b as [|lo [|hi t]].
    + apply (IH [] start fuel); auto. cbn; lia.
    + destruct HR as [->|[_ HE]]; [|cbn in HE; discriminate].
      destruct fuel as [|k]; [cbn in HL; lia|]. cbn [find_loop]. rewrite HD. cbn. reflexivity.
    + destruct fuel as [|k]; [lia|].
      cbn [control_free] in HF. destruct HF as [HF1 HF2].
      assert (Hb : all_bytes (lo :: hi :: t ++ rest)).
      { pose proof (all_bytes_zdrop start data Hd) as X. rewrite HD in X. exact X. }
      inversion Hb as [|? ? Hb0 Hb1]; subst. inversion Hb1 as [|? ? Hb2 Hb3]; subst. unfold is_byte in *.
      assert (HD2 : zdrop (start + 2) data = t ++ rest).
      { replace (start + 2) with (2 + start) by lia. rewrite <- zdrop_zdrop by lia. rewrite HD. 
        change (lo :: hi :: t) with ([lo; hi] ++ t). rewrite <- app_assoc. apply zdrop_app_eq. reflexivity. }
      assert (He2 : Z.even (start + 2) = true) by (rewrite Z.even_add, He; reflexivity).
      assert (HR2 : rest = [] \/ (exists lo t, rest = lo :: 0 :: t /\ lo < 0x20) /\ Z.even (zlen t) = true).
      { destruct HR as [?|[? HE]]; [auto|right]. split; [assumption|]. rewrite !zlen_cons in HE.
        rewrite <- HE. replace (1 + (1 + zlen t)) with (zlen t + 2) by lia. rewrite Z.even_add. cbn. now destruct (Z.even (zlen t)). }
      cbn [List.length] in Hn. cbn [app List.length] in HL.
      assert (EI : start + zlen (lo :: hi :: t) = start + 2 + zlen t) by (rewrite !zlen_cons; lia).
      rewrite EI.
      cbn [find_loop]. rewrite HD. cbn [app regex_search].
      replace ((0 <=? lo) && (lo <=? 31) && (hi =? 0)) with false by lia.
      assert (IHt : forall fuel', (List.length (t ++ rest) < fuel')%nat -> find_loop fuel' data (start + 2) =
        Some (match rest with
        | [] => Ok (zlen data, zlen data)
        | lo :: _ => let i := start + 2 + zlen t in
                     let? kind := control_kind lo in Ok (i, i + kind_size kind * 2)
        end)).
      { intros fuel' HL'. apply IH; auto; lia. }
      cbv zeta in IHt.
      assert (ES : regex_search (t ++ rest) (start + 1 + 1) = regex_search (zdrop (start + 2) data) (start + 2)).
      { rewrite HD2. f_equal. lia. }
      destruct (t ++ rest) as [|x t'] eqn:ET.
      * rewrite <- (IHt (S k)) by (cbn; lia). cbn [find_loop]. rewrite <- ES. reflexivity.
      * destruct ((0 <=? hi) && (hi <=? 31) && (x =? 0)) eqn:EM.
        -- rewrite even_land1 by lia. replace (Z.even (start + 1)) with false by (rewrite Z.even_add, He; reflexivity).
           cbn [negb]. replace (start + 1 + 1) with (start + 2) by lia.
           apply IHt. lia.
        -- rewrite <- (IHt (S k)) by lia. cbn [find_loop]. rewrite <- ES. reflexivity.
Qed.

Lemma control_find_spec : forall pre b rest, all_bytes (pre ++ b ++ rest) -> Z.even (zlen pre) = true ->
  control_free b -> run_ends b rest ->
  control_find (pre ++ b ++ rest) (zlen pre) =
  Some (match rest with
        | [] => Ok (zlen (pre ++ b ++ rest), zlen (pre ++ b ++ rest))
        | lo :: _ => let i := zlen pre + zlen b in
                     let? kind := control_kind lo in Ok (i, i + kind_size kind * 2)
        end).
Proof.
  intros pre b rest Hd He HF HR. unfold control_find.
  apply (find_loop_spec _ rest Hd (List.length b)); auto.
  - apply zlen_nonneg.
  - now rewrite zdrop_app_exact.
  - rewrite (app_length pre). lia.
Qed.

(** ** One turn of the loop *)
Definition after_control (k : nat) (data : list Z) (pos : Z) (rest : list Z) (size : Z) : gen ((Z * Z) * chunk) :=
  match control_decode (ztake (size * 2) rest) with
  | Raise e => ([], Failed e)
  | Ok cch => gcons ((pos / 2, (pos + size * 2) / 2), ChCtl cch)
                    (parse_chunks_loop k data (pos + size * 2))
  end.

Definition with_text (b : list Z) (pos : Z) (after : gen ((Z * Z) * chunk)) : gen ((Z * Z) * chunk) :=
  match b with
  | [] => after
  | _ => match utf16le_decode b with
         | Raise e => ([], Failed e)
         | Ok t => gcons ((pos / 2, (pos + zlen b) / 2), ChText t) after
         end
  end.

Lemma zslice_app_mid : forall A (pre b rest : list A), zslice (zlen pre) (zlen pre + zlen b) (pre ++ b ++ rest) = b.
Proof. intros. unfold zslice. rewrite zdrop_app_exact. apply ztake_app_eq. lia. Qed.

Lemma kind_size_pos : forall k, 0 < kind_size k.
Proof. destruct k; cbn; lia. Qed.

Lemma loop_turn : forall k pre b rest, all_bytes (pre ++ b ++ rest) -> Z.even (zlen pre) = true ->
  control_free b -> run_ends b rest -> b ++ rest <> [] ->
  parse_chunks_loop (S k) (pre ++ b ++ rest) (zlen pre) =
  match rest with
  | [] => with_text b (zlen pre) (parse_chunks_loop k (pre ++ b ++ rest) (zlen (pre ++ b ++ rest)))
  | c :: _ =>
      match control_kind c with
      | Raise e => ([], Failed e)
      | Ok kind => with_text b (zlen pre)
                     (after_control k (pre ++ b ++ rest) (zlen pre + zlen b) rest (kind_size kind))
      end
  end.
Proof.
  intros k pre b rest Hd He HF HR HN. cbn [parse_chunks_loop].
  rewrite control_find_spec by assumption.
  assert (HLT : zlen pre < zlen (pre ++ b ++ rest)).
  { rewrite zlen_app. destruct (b ++ rest) eqn:E; [congruence|]. rewrite zlen_cons.
    pose proof (zlen_nonneg _ l). lia. }
  replace (zlen pre <? zlen (pre ++ b ++ rest)) with true by lia.
  destruct rest as [|c rest].
  - rewrite app_nil_r in *. rewrite Z.ltb_irrefl. replace (zlen pre <? zlen (pre ++ b)) with true by lia.
    destruct b as [|b0 b]; [congruence|]. unfold with_text.
    replace (zslice (zlen pre) (zlen (pre ++ b0 :: b)) (pre ++ b0 :: b)) with (b0 :: b).
    + rewrite zlen_app. reflexivity.
    + rewrite zlen_app. pose proof (zslice_app_mid _ pre (b0 :: b) []) as E. rewrite app_nil_r in E. auto.
  - unfold bind. destruct (control_kind c) as [kind|e]; [|reflexivity].
    pose proof (kind_size_pos kind). replace (zlen pre + zlen b <? zlen pre + zlen b + kind_size kind * 2) with true by lia.
    assert (ES : zslice (zlen pre + zlen b) (zlen pre + zlen b + kind_size kind * 2) (pre ++ b ++ c :: rest) =
                 ztake (kind_size kind * 2) (c :: rest)).
    { unfold zslice. rewrite app_assoc, zdrop_app_eq by now rewrite zlen_app. f_equal. lia. }
    rewrite ES. unfold after_control, with_text. destruct b as [|b0 b].
    + rewrite zlen_nil, Z.add_0_r, Z.ltb_irrefl. reflexivity.
    + rewrite zslice_app_mid. pose proof (zlen_nonneg _ b). rewrite zlen_cons.
      replace (zlen pre <? zlen pre + (1 + zlen b)) with true by lia. reflexivity.
Qed.

Lemma loop_past_end : forall k data idx, (0 < k)%nat -> zlen data <= idx ->
  parse_chunks_loop k data idx = ([], Finished).
Proof. intros [|k] data idx Hk H; [lia|]. cbn [parse_chunks_loop]. replace (idx <? zlen data) with false by lia. reflexivity. Qed.

(** ** Decoding controls *)
Lemma decode_code : forall c t k, is_byte c -> control_kind c = Ok k ->
  control_decode (c :: 0 :: t) =
  if kind_size k =? 8 then
    let b := ztake 12 t in
    if c =? 0x09 then
      let? width := struct_unpack UINT32 (zslice 0 4 b) in
      let? unknown0 := struct_unpack UINT8 (zslice 4 5 b) in
      let? unknown1 := struct_unpack UINT8 (zslice 5 6 b) in
      Ok (CtlTab c width unknown0 unknown1 (zdrop 6 b))
    else
      let? chid := chid_decode (zslice 0 4 b) in
      Ok (CtlObj c chid (zslice 4 12 b))
  else Ok (CtlChar c).
Proof.
  intros c t k Hc HK. unfold control_decode.
  assert (E : struct_unpack UINT16 (zslice 0 2 (c :: 0 :: t)) = Ok c).
  { unfold zslice. cbn [Z.sub]. rewrite zdrop_nonpos by lia.
    change (c :: 0 :: t) with ([c; 0] ++ t). rewrite ztake_app_eq by reflexivity.
    unfold struct_unpack. cbn. f_equal. lia. }
  rewrite E. unfold bind at 1. rewrite HK. unfold bind at 1.
  assert (E2 : zslice 2 (2 + 12) (c :: 0 :: t) = ztake 12 t).
  { unfold zslice. change (c :: 0 :: t) with ([c; 0] ++ t). rewrite zdrop_app_eq by reflexivity. reflexivity. }
  rewrite E2. reflexivity.
Qed.

Lemma unpack_byte : forall u, is_byte u -> struct_unpack UINT8 [u] = Ok u.
Proof. intros u H. unfold struct_unpack. cbn. f_equal. lia. Qed.

Lemma unpack_uint32 : forall v, 0 <= v < 4294967296 -> struct_unpack UINT32 (number_bytes 4 v) = Ok v.
Proof.
  intros v H. unfold struct_unpack. replace (zlen (number_bytes 4 v) =? calcsize UINT32) with true by reflexivity.
  cbn [UINT32]. rewrite number_bytes_encode. rewrite Z.mod_small by (cbn; lia). rewrite le_decode_encode by (cbn; lia).
  reflexivity.
Qed.

Lemma number_bytes4 : forall v, exists a b c d, number_bytes 4 v = [a; b; c; d].
Proof. intros v. unfold number_bytes. cbn. eauto. Qed.

Lemma ztake_cons : forall A n (x : A) l, 0 < n -> ztake n (x :: l) = x :: ztake (n - 1) l.
Proof.
  intros A n x l H. rewrite !ztake_firstn. replace (Z.to_nat n) with (S (Z.to_nat (n - 1))) by lia. reflexivity.
Qed.
Lemma zdrop_cons : forall A n (x : A) l, 0 < n -> zdrop n (x :: l) = zdrop (n - 1) l.
Proof.
  intros A n x l H. rewrite !zdrop_skipn. replace (Z.to_nat n) with (S (Z.to_nat (n - 1))) by lia. reflexivity.
Qed.

Lemma decode_tab : forall width u0 u1 tail, 0 <= width < 4294967296 -> is_byte u0 -> is_byte u1 ->
  control_decode (0x09 :: 0 :: number_bytes 4 width ++ u0 :: u1 :: tail) =
  Ok (CtlTab 0x09 width u0 u1 (ztake 6 tail)).
Proof.
  intros width u0 u1 tail Hw H0 H1.
  rewrite (decode_code 9 _ KInline) by (try reflexivity; unfold is_byte; lia).
  cbn [kind_size Z.eqb Pos.eqb]. cbv zeta.
  pose proof (unpack_uint32 width Hw) as EW.
  destruct (number_bytes4 width) as (a & b & c & d & E). rewrite E in *. cbn [app].
  rewrite !ztake_cons by lia. replace (12 - 1 - 1 - 1 - 1 - 1 - 1) with 6 by lia.
  set (tl6 := ztake 6 tail).
  assert (S1 : zslice 0 4 (a :: b :: c :: d :: u0 :: u1 :: tl6) = [a; b; c; d]).
  { unfold zslice. rewrite zdrop_nonpos by lia. apply (ztake_app_eq _ _ [a; b; c; d]). reflexivity. }
  assert (S2 : zslice 4 5 (a :: b :: c :: d :: u0 :: u1 :: tl6) = [u0]).
  { unfold zslice. change (zdrop 4 _) with (zdrop 4 ([a; b; c; d] ++ u0 :: u1 :: tl6)).
    rewrite zdrop_app_eq by reflexivity. apply (ztake_app_eq _ _ [u0]). reflexivity. }
  assert (S3 : zslice 5 6 (a :: b :: c :: d :: u0 :: u1 :: tl6) = [u1]).
  { unfold zslice. change (zdrop 5 _) with (zdrop 5 ([a; b; c; d; u0] ++ u1 :: tl6)).
    rewrite zdrop_app_eq by reflexivity. apply (ztake_app_eq _ _ [u1]). reflexivity. }
  assert (S4 : zdrop 6 (a :: b :: c :: d :: u0 :: u1 :: tl6) = tl6).
  { apply (zdrop_app_eq _ _ [a; b; c; d; u0; u1]). reflexivity. }
  rewrite S1, S2, S3, S4, EW, !unpack_byte by assumption. reflexivity.
Qed.

Lemma decode_obj : forall c i0 i1 i2 i3 tail, eight_unit_control c -> c <> 0x09 ->
  control_decode (c :: 0 :: i0 :: i1 :: i2 :: i3 :: tail) =
  Ok (CtlObj c [i3; i2; i1; i0] (ztake 8 tail)).
Proof.
  intros c i0 i1 i2 i3 tail Hc Hn.
  destruct (control_kind_eight c Hc) as (k & EK & ES).
  rewrite (decode_code c _ k) by (auto; destruct Hc; unfold is_byte; lia).
  rewrite ES. cbn [Z.eqb Pos.eqb]. cbv zeta. replace (c =? 9) with false by lia.
  rewrite !ztake_cons by lia. replace (12 - 1 - 1 - 1 - 1) with 8 by lia.
  assert (S1 : zslice 0 4 (i0 :: i1 :: i2 :: i3 :: ztake 8 tail) = [i0; i1; i2; i3]).
  { unfold zslice. rewrite zdrop_nonpos by lia. apply (ztake_app_eq _ _ [i0; i1; i2; i3]). reflexivity. }
  assert (S2 : zslice 4 12 (i0 :: i1 :: i2 :: i3 :: ztake 8 tail) = ztake 8 tail).
  { unfold zslice. change (zdrop 4 _) with (zdrop 4 ([i0; i1; i2; i3] ++ ztake 8 tail)).
    rewrite zdrop_app_eq by reflexivity. rewrite ztake_ztake. reflexivity. }
  rewrite S1, S2. reflexivity.
Qed.

Lemma decode_tab_short : forall tail, zlen tail < 6 -> control_decode (0x09 :: 0 :: tail) = Raise StructError.
Proof.
  intros tail H. rewrite (decode_code 9 _ KInline) by (try reflexivity; unfold is_byte; lia).
  cbn [kind_size Z.eqb Pos.eqb]. cbv zeta.
  rewrite ztake_all by lia. unfold struct_unpack, zslice.
  destruct (Z_lt_ge_dec (zlen tail) 4).
  - replace (zlen (ztake (4 - 0) (zdrop 0 tail)) =? calcsize UINT32) with false; [reflexivity|].
    symmetry. rewrite zdrop_nonpos, zlen_ztake by lia. cbn [calcsize UINT32]. lia.
  - replace (zlen (ztake (4 - 0) (zdrop 0 tail)) =? calcsize UINT32) with true.
    2:{ symmetry. rewrite zdrop_nonpos, zlen_ztake by lia. cbn [calcsize UINT32]. lia. }
    unfold bind at 1.
    replace (zlen (ztake (6 - 5) (zdrop 5 tail)) =? calcsize UINT8) with false.
    2:{ symmetry. rewrite zlen_ztake, zlen_zdrop. cbn [calcsize UINT8]. lia. }
    destruct (zlen (ztake (5 - 4) (zdrop 4 tail)) =? calcsize UINT8); reflexivity.
Qed.

Lemma decode_obj_short : forall c tail, eight_unit_control c -> c <> 0x09 -> zlen tail < 4 ->
  control_decode (c :: 0 :: tail) = Raise IndexError.
Proof.
  intros c tail Hc Hn HL. destruct (control_kind_eight c Hc) as (k & EK & ES).
  rewrite (decode_code c _ k) by (auto; destruct Hc; unfold is_byte; lia).
  rewrite ES. cbn [Z.eqb Pos.eqb]. cbv zeta. replace (c =? 9) with false by lia.
  rewrite ztake_all by lia. unfold zslice. rewrite zdrop_nonpos by lia. rewrite ztake_all by lia.
  destruct tail as [|? [|? [|? [|? tl4]]]]; try reflexivity. rewrite !zlen_cons in HL. pose proof (zlen_nonneg _ tl4). lia.
Qed.

(** ** The specification determines the result *)
Scheme para_text_mind := Minimality for para_text Sort Prop
  with para_text_at_mind := Minimality for para_text_at_control Sort Prop.
Combined Scheme para_text_both from para_text_mind, para_text_at_mind.

Definition P_text (p : Z) (suf : list Z) (out : list ((Z * Z) * chunk)) (o : outcome) : Prop :=
  forall pre fuel, zlen pre = 2 * p -> all_bytes (pre ++ suf) -> (List.length suf < fuel)%nat ->
    parse_chunks_loop fuel (pre ++ suf) (zlen pre) = (out, o).

Definition P_ctl (p : Z) (suf : list Z) (out : list ((Z * Z) * chunk)) (o : outcome) : Prop :=
  forall pre k, zlen pre = 2 * p -> all_bytes (pre ++ suf) -> (List.length suf <= k)%nat -> (0 < k)%nat ->
    match suf with
    | [] => out = [] /\ o = Finished
    | c :: t => exists t', t = 0 :: t' /\ c < 0x20 /\
        match control_kind c with
        | Raise e => (out, o) = ([], Failed e)
        | Ok kind => after_control k (pre ++ suf) (zlen pre) suf (kind_size kind) = (out, o)
        end
    end.

Lemma after_full : forall k pre ctl rest cch out o p size,
  zlen pre = 2 * p -> zlen ctl = size * 2 -> control_decode ctl = Ok cch ->
  parse_chunks_loop k ((pre ++ ctl) ++ rest) (zlen (pre ++ ctl)) = (out, o) ->
  after_control k (pre ++ ctl ++ rest) (zlen pre) (ctl ++ rest) size = (((p, p + size), ChCtl cch) :: out, o).
Proof.
  intros k pre ctl rest cch out o p size Hp Hc HD HL. unfold after_control.
  rewrite ztake_app_eq by lia. rewrite HD.
  rewrite <- app_assoc, zlen_app, Hc in HL. rewrite HL. unfold gcons. cbn [fst snd].
  rewrite Hp. do 4 f_equal; lia.
Qed.

Lemma after_cut : forall k pre ctl cch p size, (0 < k)%nat -> 0 <= size ->
  zlen pre = 2 * p -> zlen ctl < size * 2 -> control_decode ctl = Ok cch ->
  after_control k (pre ++ ctl) (zlen pre) ctl size = ([((p, p + size), ChCtl cch)], Finished).
Proof.
  intros k pre ctl cch p size Hk Hs Hp Hc HD. unfold after_control. rewrite ztake_all by lia. rewrite HD.
  rewrite loop_past_end by (auto; rewrite zlen_app; lia). unfold gcons. cbn [fst snd]. rewrite Hp.
  do 4 f_equal; lia.
Qed.

Lemma run_ends_nil : forall c t, c < 0x20 -> run_ends [] (c :: 0 :: t).
Proof. intros c t H. right. split; [eauto|reflexivity]. Qed.

Lemma even_double : forall x p, x = 2 * p -> Z.even x = true.
Proof. intros x p ->. rewrite Z.even_mul. reflexivity. Qed.

Lemma spec_determines :
  (forall p suf out o, para_text p suf out o -> P_text p suf out o) /\
  (forall p suf out o, para_text_at_control p suf out o -> P_ctl p suf out o).
Proof.
  apply (para_text_both P_text P_ctl).
  - (* end *) intros p pre fuel Hp Hb HL. rewrite app_nil_r. apply loop_past_end; lia.
  - (* run *)
    intros p t rest out o Hne Hsc Hcf Hre Hnu _ IH pre fuel Hp Hb HL.
    destruct fuel as [|k]; [lia|].
    assert (HB : utf16le_bytes t <> []).
    { intros E. assert (zlen (utf16le_bytes t) = 0) by (rewrite E; reflexivity). rewrite zlen_utf16le in H.
      destruct t as [|c t]; [congruence|]. unfold utf16_units in H. cbn [map concat] in H. rewrite zlen_app in H.
      pose proof (zlen_nonneg _ (concat (map utf16_units_of t))).
      unfold utf16_units_of in H at 1. destruct (c <? 65536); rewrite ?zlen_cons in H; cbn in H; lia. }
    rewrite loop_turn; auto; [|now apply (even_double _ p)|destruct (utf16le_bytes t); [congruence|discriminate]].
    assert (HD : utf16le_decode (utf16le_bytes t) = Ok t).
    { apply utf16le_decode_iff; [|auto]. apply all_bytes_app in Hb as [_ Hb]. now apply all_bytes_app in Hb as [Hb _]. }
    assert (HW : forall after, with_text (utf16le_bytes t) (zlen pre) after =
                 gcons ((p, p + zlen (utf16_units t)), ChText t) after).
    { intros after. unfold with_text. rewrite HD. rewrite zlen_utf16le, Hp.
      destruct (utf16le_bytes t); [congruence|]. do 3 f_equal; lia. }
    assert (HZ : zlen (pre ++ utf16le_bytes t) = 2 * (p + zlen (utf16_units t))) by (rewrite zlen_app, zlen_utf16le; lia).
    assert (HB2 : all_bytes ((pre ++ utf16le_bytes t) ++ rest)) by (rewrite <- app_assoc; exact Hb).
    rewrite app_length in HL.
    assert (Hlen : (0 < List.length (utf16le_bytes t))%nat) by (destruct (utf16le_bytes t); [congruence|cbn; lia]).
    specialize (IH (pre ++ utf16le_bytes t) k HZ HB2 ltac:(lia) ltac:(lia)).
    destruct rest as [|c rest].
    + destruct IH as [-> ->]. rewrite HW, loop_past_end by lia. reflexivity.
    + destruct IH as (t' & -> & Hc & IH).
      destruct (control_kind c) as [kind|e] eqn:EK.
      * rewrite HW. rewrite <- zlen_app. rewrite <- app_assoc in IH. rewrite IH. reflexivity.
      * exfalso. apply Hnu. exists c, t'. split; [reflexivity|].
        assert (Hcb : is_byte c) by (apply all_bytes_app in HB2 as [_ HB2]; inversion HB2; assumption).
        destruct (control_trichotomy c) as [H|[H|H]]; [unfold is_byte in Hcb; lia| | |].
        -- rewrite (control_kind_one c H) in EK. discriminate.
        -- exact H.
        -- destruct (control_kind_eight c H) as (? & E & _). congruence.
  - (* bad run *)
    intros p b rest Hne Hcf Hre Hbad Hnu pre fuel Hp Hb HL. destruct fuel as [|k]; [lia|].
    rewrite loop_turn; auto; [|now apply (even_double _ p)|destruct b; [congruence|discriminate]].
    assert (HD : utf16le_decode b = Raise UnicodeDecodeError).
    { destruct (utf16le_decode b) as [t|e] eqn:E.
      - apply utf16le_decode_iff in E as [-> HS]; [exfalso; exact (Hbad t HS eq_refl)|].
        apply all_bytes_app in Hb as [_ Hb]. now apply all_bytes_app in Hb as [Hb _].
      - f_equal. now apply utf16le_decode_error in E. }
    assert (HW : forall after, with_text b (zlen pre) after = ([], Failed UnicodeDecodeError)).
    { intros after. unfold with_text. rewrite HD. destruct b; [congruence|reflexivity]. }
    destruct rest as [|c rest]; [apply HW|].
    destruct Hre as [?|[(lo & t & E & Hlo) _]]; [discriminate|]. injection E as -> ->.
    destruct (control_kind lo) as [kind|e] eqn:EK; [apply HW|].
    exfalso. apply Hnu. exists lo, t. split; [reflexivity|].
    assert (Hcb : is_byte lo). { apply all_bytes_app in Hb as [_ Hb]. apply all_bytes_app in Hb as [_ Hb]. inversion Hb; assumption. }
    destruct (control_trichotomy lo) as [H|[H|H]]; [unfold is_byte in Hcb; lia| | |].
    + rewrite (control_kind_one lo H) in EK. discriminate.
    + exact H.
    + destruct (control_kind_eight lo H) as (? & E & _). congruence.
  - (* undefined after run *)
    intros p b rest Hne Hcf Hre (c & t & -> & Hc) pre fuel Hp Hb HL. destruct fuel as [|k]; [lia|].
    rewrite loop_turn; auto; [|now apply (even_double _ p)|destruct b; [congruence|discriminate]].
    rewrite control_kind_undefined by assumption. reflexivity.
  - (* control *)
    intros p c t out o Hc _ IH pre fuel Hp Hb HL. destruct fuel as [|k]; [lia|].
    change (c :: 0 :: t) with ([] ++ c :: 0 :: t).
    rewrite loop_turn; auto; [|now apply (even_double _ p)|exact I|now apply run_ends_nil|discriminate].
    cbn [app] in *. destruct (IH pre k Hp Hb) as (t' & _ & _ & IH'); [lia|cbn [List.length] in HL; lia|].
    rewrite zlen_nil, Z.add_0_r. unfold with_text.
    destruct (control_kind c); [exact IH'|now rewrite IH'].
  - (* at end *) intros p pre k Hp Hb HL Hk. auto.
  - (* char *)
    intros p c rest out o Hc _ IH pre k Hp Hb HL Hk. exists rest. split; [reflexivity|].
    assert (Hc32 : 0 <= c < 0x20) by (unfold one_unit_control in Hc; cbn [In] in Hc; lia).
    split; [lia|]. rewrite (control_kind_one c Hc). cbn [kind_size].
    change (c :: 0 :: rest) with ([c; 0] ++ rest).
    apply after_full; [exact Hp|reflexivity| |].
    + rewrite (decode_code c [] KChar); [reflexivity|unfold is_byte; lia|now apply control_kind_one].
    + cbn [List.length] in HL. apply IH; [rewrite zlen_app; cbn; lia|rewrite <- app_assoc; exact Hb|lia].
  - (* undefined *)
    intros p c rest Hc pre k Hp Hb HL Hk. exists rest. split; [reflexivity|].
    split; [unfold undefined_control in Hc; lia|]. rewrite control_kind_undefined by assumption. reflexivity.
  - (* tab *)
    intros p width u0 u1 u2 trail rest out o Hw H0 H1 H2 Htr _ IH pre k Hp Hb HL Hk.
    eexists. split; [reflexivity|]. split; [lia|]. change (control_kind 9) with (Ok KInline). cbn iota. cbn [kind_size].
    destruct (number_bytes4 width) as (a & b & c & d & E).
    assert (EQ : 9 :: 0 :: number_bytes 4 width ++ u0 :: u1 :: u2 ++ trail ++ rest =
                 (9 :: 0 :: number_bytes 4 width ++ u0 :: u1 :: u2 ++ trail) ++ rest).
    { rewrite E. cbn [app]. rewrite <- app_assoc. reflexivity. }
    rewrite EQ in *. 
    assert (HZ : zlen (9 :: 0 :: number_bytes 4 width ++ u0 :: u1 :: u2 ++ trail) = 8 * 2).
    { rewrite E. cbn [app]. rewrite !zlen_cons, zlen_app. lia. }
    apply after_full; [exact Hp|exact HZ| |].
    + rewrite decode_tab by assumption. rewrite ztake_app_eq by lia. reflexivity.
    + apply IH; [rewrite zlen_app, HZ; lia|rewrite <- app_assoc; exact Hb|].
      rewrite app_length in HL. unfold zlen in HZ. lia.
  - (* obj *)
    intros p c i0 i1 i2 i3 param trail rest out o Hc Hn Hpa Htr _ IH pre k Hp Hb HL Hk.
    eexists. split; [reflexivity|]. split; [destruct Hc; lia|].
    destruct (control_kind_eight c Hc) as (kd & EK & ES). rewrite EK, ES.
    assert (EQ : c :: 0 :: i0 :: i1 :: i2 :: i3 :: param ++ trail ++ rest =
                 (c :: 0 :: i0 :: i1 :: i2 :: i3 :: param ++ trail) ++ rest).
    { cbn [app]. rewrite <- app_assoc. reflexivity. }
    rewrite EQ in *.
    assert (HZ : zlen (c :: 0 :: i0 :: i1 :: i2 :: i3 :: param ++ trail) = 8 * 2).
    { rewrite !zlen_cons, zlen_app. lia. }
    apply after_full; [exact Hp|exact HZ| |].
    + rewrite decode_obj by assumption. rewrite ztake_app_eq by lia. reflexivity.
    + apply IH; [rewrite zlen_app, HZ; lia|rewrite <- app_assoc; exact Hb|].
      rewrite app_length in HL. unfold zlen in HZ. lia.
  - (* tab cut *)
    intros p width u0 u1 tail Hw H0 H1 H2 pre k Hp Hb HL Hk.
    eexists. split; [reflexivity|]. split; [lia|]. change (control_kind 9) with (Ok KInline). cbn iota. cbn [kind_size].
    apply after_cut; auto; [lia| |now apply decode_tab].
    destruct (number_bytes4 width) as (a & b & c & d & E). rewrite E. cbn [app]. rewrite !zlen_cons. lia.
  - (* obj cut *)
    intros p c i0 i1 i2 i3 tail Hc Hn HT pre k Hp Hb HL Hk.
    eexists. split; [reflexivity|]. split; [destruct Hc; lia|].
    destruct (control_kind_eight c Hc) as (kd & EK & ES). rewrite EK, ES.
    apply after_cut; auto; [lia| |now apply decode_obj]. rewrite !zlen_cons. lia.
  - (* tab short *)
    intros p tail HT pre k Hp Hb HL Hk.
    eexists. split; [reflexivity|]. split; [lia|]. change (control_kind 9) with (Ok KInline). cbn iota. cbn [kind_size].
    unfold after_control. rewrite ztake_all by (rewrite !zlen_cons; lia). rewrite decode_tab_short by assumption. reflexivity.
  - (* obj short *)
    intros p c tail Hc Hn HT pre k Hp Hb HL Hk.
    eexists. split; [reflexivity|]. split; [destruct Hc; lia|].
    destruct (control_kind_eight c Hc) as (kd & EK & ES). rewrite EK, ES.
    unfold after_control. rewrite ztake_all by (rewrite !zlen_cons; lia). rewrite decode_obj_short by assumption. reflexivity.
Qed.

(** ** The specification covers every byte string *)
Lemma split_run : forall n suf, (List.length suf <= n)%nat -> all_bytes suf ->
  exists b rest, suf = b ++ rest /\ control_free b /\ run_ends b rest.
Proof.
  induction n as [|n IH]; intros suf HL Hb.
  - destruct suf; [|cbn in HL; lia]. exists [], []. repeat split. left; reflexivity.
  - destruct suf as [|lo [|hi t]].
    + exists [], []. repeat split. left; reflexivity.
    + exists [lo], []. repeat split. left; reflexivity.
    + destruct (Z_lt_ge_dec lo 0x20) as [Hlo|Hlo]; [destruct (Z.eq_dec hi 0) as [->|Hhi]|].
      * exists [], (lo :: 0 :: t). repeat split. now apply run_ends_nil.
      * destruct (IH t) as (b & rest & -> & HF & HR); [cbn in HL; lia|inversion Hb as [|? ? _ Hb1]; now inversion Hb1|].
        exists (lo :: hi :: b), rest. split; [reflexivity|]. split; [cbn; split; [lia|exact HF]|].
        destruct HR as [->|[HR HE]]; [now left|right]. split; [exact HR|].
        rewrite !zlen_cons. replace (1 + (1 + zlen b)) with (zlen b + 2) by lia. rewrite Z.even_add, HE. reflexivity.
      * destruct (IH t) as (b & rest & -> & HF & HR); [cbn in HL; lia|inversion Hb as [|? ? _ Hb1]; now inversion Hb1|].
        exists (lo :: hi :: b), rest. split; [reflexivity|]. split; [cbn; split; [lia|exact HF]|].
        destruct HR as [->|[HR HE]]; [now left|right]. split; [exact HR|].
        rewrite !zlen_cons. replace (1 + (1 + zlen b)) with (zlen b + 2) by lia. rewrite Z.even_add, HE. reflexivity.
Qed.

Lemma cut4 : forall l : list Z, all_bytes l -> 4 <= zlen l ->
  exists v t, l = number_bytes 4 v ++ t /\ 0 <= v < 4294967296.
Proof.
  intros l Hb H. exists (le_decode (ztake 4 l)), (zdrop 4 l).
  assert (Hb4 : all_bytes (ztake 4 l)) by now apply all_bytes_ztake.
  assert (HZ : zlen (ztake 4 l) = 4) by (rewrite zlen_ztake; lia).
  pose proof (le_decode_range _ Hb4) as HR. rewrite HZ in HR. change (256 ^ 4) with 4294967296 in HR.
  split; [|lia]. rewrite number_bytes_encode, Z.mod_small by exact HR.
  replace 4%nat with (List.length (ztake 4 l)) by (unfold zlen in HZ; lia).
  rewrite le_encode_decode by assumption. now rewrite ztake_zdrop.
Qed.

Lemma spec_total : forall n suf, (List.length suf <= n)%nat -> all_bytes suf ->
  (forall p, exists out o, para_text p suf out o) /\
  (forall p c t, suf = c :: 0 :: t -> c < 0x20 -> exists out o, para_text_at_control p suf out o).
Proof.
  induction n as [|n IH]; intros suf HL Hb.
  - destruct suf; [|cbn in HL; lia]. split; [intros p; exists [], Finished; constructor|intros; discriminate].
  - assert (HC : forall p c t, suf = c :: 0 :: t -> c < 0x20 -> exists out o, para_text_at_control p suf out o).
    { intros p c t -> Hc.
      assert (Hbt : all_bytes t) by (inversion Hb as [|? ? _ Hb1]; now inversion Hb1).
      assert (Hcb : is_byte c) by now inversion Hb. unfold is_byte in Hcb.
      assert (HX : forall t', (List.length t' <= List.length t)%nat -> all_bytes t' -> forall p, exists out o, para_text p t' out o).
      { intros t' HL' Hb'. apply IH; [cbn in HL; lia|assumption]. }
      destruct (control_trichotomy c) as [H|[H|H]]; [lia| | |].
      - destruct (HX t ltac:(lia) Hbt (p + 1)) as (out & o & HP). eexists; eexists; econstructor; eauto.
      - exists [], (Failed KeyError). now constructor.
      - destruct (Z.eq_dec c 9) as [->|Hn9].
        + destruct (Z_lt_ge_dec (zlen t) 6) as [Hs|Hs].
          * exists [], (Failed StructError). now constructor.
          * destruct (cut4 t Hbt ltac:(lia)) as (w & t1 & -> & Hw).
            destruct (number_bytes4 w) as (x0 & x1 & x2 & x3 & EN).
            destruct t1 as [|u0 [|u1 t2]]; [rewrite EN in Hs; cbn in Hs; lia|rewrite EN in Hs; cbn in Hs; lia|].
            apply all_bytes_app in Hbt as [_ Hb2]. inversion Hb2 as [|? ? Hu0 Hb3]; subst. inversion Hb3 as [|? ? Hu1 Hb4]; subst.
            destruct (Z_lt_ge_dec (zlen t2) 8) as [Hs2|Hs2].
            -- eexists; eexists; apply atc_tab_cut; auto.
            -- destruct (HX (zdrop 8 t2)) with (p := p + 8) as (out & o & HP).
               { rewrite EN. cbn [app List.length]. rewrite zdrop_skipn, skipn_length. lia. }
               { now apply all_bytes_zdrop. }
               assert (ET : t2 = ztake 6 t2 ++ ztake 2 (zdrop 6 t2) ++ zdrop 8 t2).
               { change 8 with (2 + 6). rewrite <- zdrop_zdrop by lia. now rewrite !ztake_zdrop. }
               exists (((p, p + 8), ChCtl (CtlTab 9 w u0 u1 (ztake 6 t2))) :: out), o.
               rewrite ET at 1. apply atc_tab; auto; rewrite zlen_ztake, ?zlen_zdrop; lia.
        + destruct t as [|i0 [|i1 [|i2 [|i3 t]]]];
            try (exists [], (Failed IndexError); apply atc_obj_short; auto; reflexivity).
          destruct (Z_lt_ge_dec (zlen t) 10) as [Hs2|Hs2].
          * eexists; eexists; apply atc_obj_cut; auto.
          * destruct (HX (zdrop 10 t)) with (p := p + 8) as (out & o & HP).
            { cbn [List.length]. rewrite zdrop_skipn, skipn_length. lia. }
            { apply all_bytes_zdrop. now do 4 (inversion Hbt as [|? ? _ Hbt']; subst; clear Hbt; rename Hbt' into Hbt). }
            assert (ET : t = ztake 8 t ++ ztake 2 (zdrop 8 t) ++ zdrop 10 t).
            { change 10 with (2 + 8). rewrite <- zdrop_zdrop by lia. now rewrite !ztake_zdrop. }
            exists (((p, p + 8), ChCtl (CtlObj c [i3; i2; i1; i0] (ztake 8 t))) :: out), o.
            rewrite ET at 1. apply atc_obj; auto; rewrite zlen_ztake, ?zlen_zdrop; lia. }
    split; [|exact HC]. intros p.
    destruct (split_run _ suf (le_n _) Hb) as (b & rest & E & HF & HR).
    destruct b as [|b0 b].
    + cbn [app] in E. destruct HR as [->|[(lo & t & -> & Hlo) _]].
      * subst suf. exists [], Finished. constructor.
      * destruct (HC p lo t E Hlo) as (out & o & HP). exists out, o. rewrite E in *. now constructor.
    + assert (Hb' := Hb). rewrite E in Hb'. apply all_bytes_app in Hb' as [HbB HbR].
      assert (D : starts_undefined rest \/ ~ starts_undefined rest).
      { destruct HR as [->|[(lo & t & -> & Hlo) _]].
        - right. intros (c & t & E' & _). discriminate.
        - destruct (Z_lt_ge_dec lo 0x19); [right|destruct (Z_gt_le_dec lo 0x1d); [right|left]].
          + intros (c & t' & E' & H'). injection E' as -> _. unfold undefined_control in H'. lia.
          + intros (c & t' & E' & H'). injection E' as -> _. unfold undefined_control in H'. lia.
          + exists lo, t. split; [reflexivity|]. unfold undefined_control. lia. }
      destruct D as [D|D].
      * exists [], (Failed KeyError). rewrite E. apply para_undefined_after_run; auto. discriminate.
      * destruct (utf16le_decode (b0 :: b)) as [tx|e] eqn:ED.
        -- apply utf16le_decode_iff in ED as [EB HS]; [|assumption].
           assert (HQ : exists out o, para_text_at_control (p + zlen (utf16_units tx)) rest out o).
           { destruct HR as [->|[(lo & t & Er & Hlo) _]]; [exists [], Finished; constructor|].
             destruct (IH rest) as [_ IHc].
             - rewrite E in HL. rewrite app_length in HL. cbn in HL. lia.
             - exact HbR.
             - eapply IHc; eauto. }
           destruct HQ as (out & o & HQ).
           eexists; eexists. rewrite E, EB. rewrite EB in HF, HR. apply para_run; eauto.
           intros ->. discriminate.
        -- exists [], (Failed UnicodeDecodeError). rewrite E. apply para_bad_run; auto; [discriminate|].
           intros t HS EB. assert (utf16le_decode (b0 :: b) = Ok t) by (apply utf16le_decode_iff; auto). congruence.
Qed.

Theorem parse_chunks_spec : forall data out o, all_bytes data ->
  parse_chunks data = (out, o) <-> para_text 0 data out o.
Proof.
  intros data out o Hb.
  assert (S : forall out o, para_text 0 data out o -> parse_chunks data = (out, o)).
  { intros out' o' H. apply (proj1 spec_determines) in H. unfold parse_chunks.
    apply (H [] (S (List.length data))); auto. }
  split; [|apply S]. intros E.
  destruct (proj1 (spec_total _ data (le_n _) Hb) 0) as (out' & o' & HP).
  pose proof (S _ _ HP) as E'. rewrite E in E'. congruence.
Qed.

(** ** What the chunks say about the text *)
Lemma znth_app_r : forall A (a b : list A) i, 0 <= i -> znth (zlen a + i) (a ++ b) = znth i b.
Proof.
  intros A a b i Hi. pose proof (zlen_nonneg _ a). rewrite !znth_nth_error by lia.
  rewrite nth_error_app2 by (unfold zlen in *; lia). f_equal. unfold zlen. lia.
Qed.
Lemma znth_app_l : forall A (a b : list A) i, 0 <= i < zlen a -> znth i (a ++ b) = znth i a.
Proof.
  intros A a b i Hi. rewrite !znth_nth_error by lia. rewrite nth_error_app1 by (unfold zlen in *; lia). reflexivity.
Qed.

Lemma unit_at_app : forall pre suf p i, zlen pre = 2 * p -> 0 <= i -> unit_at (pre ++ suf) (p + i) = unit_at suf i.
Proof.
  intros pre suf p i Hp Hi. unfold unit_at.
  replace (2 * (p + i)) with (zlen pre + 2 * i) by lia.
  replace (zlen pre + 2 * i + 1) with (zlen pre + (2 * i + 1)) by lia.
  rewrite !znth_app_r by lia. reflexivity.
Qed.

Lemma unit_at_head : forall lo hi t, unit_at (lo :: hi :: t) 0 = Some (lo + 256 * hi).
Proof. reflexivity. Qed.

Lemma control_free_units : forall n b rest j, (List.length b <= n)%nat -> control_free b -> all_bytes b ->
  0 <= j -> 2 * j + 1 < zlen b -> exists u, unit_at (b ++ rest) j = Some u /\ 0x20 <= u.
Proof.
  induction n as [|n IH]; intros b rest j HL HF Hb Hj HZ.
  - destruct b; [rewrite zlen_nil in HZ; lia|cbn in HL; lia].
  - destruct b as [|lo [|hi t]]; [rewrite zlen_nil in HZ; lia|rewrite zlen_cons, zlen_nil in HZ; lia|].
    cbn [control_free] in HF. destruct HF as [HF1 HF2].
    inversion Hb as [|? ? Hb0 Hb1]; subst. inversion Hb1 as [|? ? Hb2 Hb3]; subst. unfold is_byte in *.
    destruct (Z.eq_dec j 0) as [->|Hn].
    + exists (lo + 256 * hi). split; [reflexivity|]. lia.
    + destruct (IH t rest (j - 1)) as (u & EU & HU); [cbn in HL; lia|assumption|assumption|lia|rewrite !zlen_cons in HZ; lia|].
      exists u. split; [|exact HU].
      replace j with (1 + (j - 1)) by lia. change ((lo :: hi :: t) ++ rest) with ([lo; hi] ++ (t ++ rest)).
      rewrite unit_at_app by (try reflexivity; lia). exact EU.
Qed.

Definition says (p : Z) (suf : list Z) (out : list ((Z * Z) * chunk)) (o : outcome) : Prop :=
  forall pre, zlen pre = 2 * p -> all_bytes (pre ++ suf) ->
  exists q, tiled p (map fst out) q /\
    Forall (fun x => chunk_describes (pre ++ suf) (fst (fst x)) (snd (fst x)) (snd x)) out /\
    (o = Finished -> zlen (pre ++ suf) <= 2 * q <= zlen (pre ++ suf) + 10).

Lemma zslice_pre : forall A (pre suf : list A) a b, 0 <= a -> zslice (zlen pre + a) (zlen pre + b) (pre ++ suf) = zslice a b suf.
Proof.
  intros A pre suf a b Ha. unfold zslice. f_equal; [lia|].
  pose proof (zlen_nonneg _ pre). rewrite Z.add_comm, <- zdrop_zdrop by lia. now rewrite zdrop_app_exact.
Qed.

Lemma says_cons : forall p suf1 suf2 n x out o,
  0 < n -> zlen suf1 = 2 * n ->
  (forall pre, zlen pre = 2 * p -> all_bytes (pre ++ suf1 ++ suf2) -> chunk_describes (pre ++ suf1 ++ suf2) p (p + n) x) ->
  says (p + n) suf2 out o -> says p (suf1 ++ suf2) (((p, p + n), x) :: out) o.
Proof.
  intros p suf1 suf2 n x out o Hn Hs HD HS pre Hp Hb.
  destruct (HS (pre ++ suf1)) as (q & HT & HF & HO); [rewrite zlen_app; lia|rewrite <- app_assoc; exact Hb|].
  exists q. rewrite <- app_assoc in HF, HO. split; [|split].
  - cbn [map fst]. constructor; [lia|exact HT].
  - constructor; [cbn [fst snd]; now apply HD|exact HF].
  - exact HO.
Qed.

Lemma says_one : forall p suf n x o,
  0 < n -> 2 * n - 10 <= zlen suf <= 2 * n ->
  (forall pre, zlen pre = 2 * p -> all_bytes (pre ++ suf) -> chunk_describes (pre ++ suf) p (p + n) x) ->
  says p suf [((p, p + n), x)] o.
Proof.
  intros p suf n x o Hn Hs HD pre Hp Hb. exists (p + n). split; [|split].
  - cbn. repeat constructor. lia.
  - constructor; [cbn [fst snd]; now apply HD|constructor].
  - intros _. rewrite zlen_app. lia.
Qed.

Lemma describes_tab : forall pre width u0 u1 tail p, zlen pre = 2 * p ->
  chunk_describes (pre ++ 9 :: 0 :: number_bytes 4 width ++ u0 :: u1 :: tail) p (p + 8)
    (ChCtl (CtlTab 9 width u0 u1 (ztake 6 tail))).
Proof.
  intros pre width u0 u1 tail p Hp. cbn [chunk_describes]. repeat split.
  - replace p with (p + 0) by lia. rewrite unit_at_app by (auto; lia). reflexivity.
  - replace (2 * p + 2) with (zlen pre + 2) by lia. replace (2 * p + 14) with (zlen pre + 14) by lia.
    rewrite zslice_pre by lia. unfold zslice. rewrite !zdrop_cons by lia. rewrite zdrop_nonpos by lia.
    destruct (number_bytes4 width) as (a & b & c & d & E). rewrite E. cbn [app].
    rewrite !ztake_cons by lia. replace (14 - 2 - 1 - 1 - 1 - 1 - 1 - 1) with 6 by lia. reflexivity.
Qed.

Lemma describes_obj : forall pre c i0 i1 i2 i3 tail p, zlen pre = 2 * p -> eight_unit_control c -> c <> 9 ->
  chunk_describes (pre ++ c :: 0 :: i0 :: i1 :: i2 :: i3 :: tail) p (p + 8)
    (ChCtl (CtlObj c [i3; i2; i1; i0] (ztake 8 tail))).
Proof.
  intros pre c i0 i1 i2 i3 tail p Hp Hc Hn. cbn [chunk_describes]. split; [reflexivity|]. split; [exact Hc|]. split; [exact Hn|]. split.
  - replace p with (p + 0) by lia. rewrite unit_at_app by (auto; lia). rewrite unit_at_head. f_equal. lia.
  - replace (2 * p + 2) with (zlen pre + 2) by lia. replace (2 * p + 14) with (zlen pre + 14) by lia.
    rewrite zslice_pre by lia. unfold zslice. rewrite !zdrop_cons by lia. rewrite zdrop_nonpos by lia.
    rewrite !ztake_cons by lia. replace (14 - 2 - 1 - 1 - 1 - 1) with 8 by lia. reflexivity.
Qed.

Lemma says_nothing : forall p suf e, says p suf [] (Failed e).
Proof. intros p suf e pre Hp Hb. exists p. repeat split; try constructor; discriminate. Qed.

Lemma chunks_describe :
  (forall p suf out o, para_text p suf out o -> says p suf out o) /\
  (forall p suf out o, para_text_at_control p suf out o -> says p suf out o).
Proof.
  apply (para_text_both says says); intros.
  - intros pre Hp Hb. exists p. rewrite app_nil_r. repeat split; try constructor; lia.
  - (* run *)
    assert (HB : 0 < zlen (utf16_units t)).
    { destruct t as [|c t]; [congruence|]. unfold utf16_units. cbn [map concat]. rewrite zlen_app.
      pose proof (zlen_nonneg _ (concat (map utf16_units_of t))).
      unfold utf16_units_of at 1. destruct (c <? 65536); rewrite ?zlen_cons, ?zlen_nil; lia. }
    apply says_cons; [exact HB|apply zlen_utf16le| |assumption].
    intros pre Hp Hb. cbn [chunk_describes]. split; [assumption|]. split; [assumption|]. split; [lia|]. split.
    + replace (2 * p) with (zlen pre + 0) by lia.
      replace (2 * (p + zlen (utf16_units t))) with (zlen pre + 2 * zlen (utf16_units t)) by lia.
      rewrite zslice_pre by lia. unfold zslice. rewrite zdrop_nonpos by lia.
      rewrite ztake_app_eq by (rewrite zlen_utf16le; lia). reflexivity.
    + intros i Hi. replace i with (p + (i - p)) by lia.
      destruct (control_free_units (List.length (utf16le_bytes t)) (utf16le_bytes t) rest (i - p)) as (u & EU & HU); auto.
      * apply all_bytes_app in Hb as [_ Hb]. now apply all_bytes_app in Hb as [Hb _].
      * lia.
      * rewrite zlen_utf16le. lia.
      * exists u. rewrite unit_at_app by (auto; lia). auto.
  - apply says_nothing.
  - apply says_nothing.
  - assumption.
  - intros pre Hp Hb. exists p. rewrite app_nil_r. repeat split; try constructor; lia.
  - change (c :: 0 :: rest) with ([c; 0] ++ rest). apply says_cons; [lia|reflexivity| |assumption].
    intros pre Hp Hb. cbn [chunk_describes]. split; [reflexivity|]. split; [assumption|].
    replace p with (p + 0) by lia. rewrite unit_at_app by (auto; lia). cbn [app]. rewrite unit_at_head. f_equal. lia.
  - apply says_nothing.
  - (* tab *)
    assert (EQ : 9 :: 0 :: number_bytes 4 width ++ u0 :: u1 :: u2 ++ trail ++ rest =
                 (9 :: 0 :: number_bytes 4 width ++ u0 :: u1 :: u2 ++ trail) ++ rest).
    { destruct (number_bytes4 width) as (a & b & c & d & E). rewrite E. cbn [app]. rewrite <- app_assoc. reflexivity. }
    rewrite EQ. apply says_cons; [lia| | |assumption].
    { destruct (number_bytes4 width) as (a & b & c & d & E). rewrite E. cbn [app]. rewrite !zlen_cons, zlen_app. lia. }
    intros pre Hp Hb. rewrite <- EQ.
    replace u2 with (ztake 6 (u2 ++ trail ++ rest)) at 2 by (now apply ztake_app_eq). now apply describes_tab.
  - (* obj *)
    assert (EQ : c :: 0 :: i0 :: i1 :: i2 :: i3 :: param ++ trail ++ rest =
                 (c :: 0 :: i0 :: i1 :: i2 :: i3 :: param ++ trail) ++ rest).
    { cbn [app]. rewrite <- app_assoc. reflexivity. }
    rewrite EQ. apply says_cons; [lia| | |assumption].
    { rewrite !zlen_cons, zlen_app. lia. }
    intros pre Hp Hb. rewrite <- EQ.
    replace param with (ztake 8 (param ++ trail ++ rest)) at 2 by (now apply ztake_app_eq). now apply describes_obj.
  - apply says_one; [lia| |intros; now apply describes_tab].
    pose proof (zlen_nonneg _ tail).
    destruct (number_bytes4 width) as (a & b & c & d & E). rewrite E. cbn [app]. rewrite !zlen_cons. lia.
  - apply says_one; [lia| |intros; now apply describes_obj].
    pose proof (zlen_nonneg _ tail). rewrite !zlen_cons. lia.
  - apply says_nothing.
  - apply says_nothing.
Qed.

Theorem chunks_tile_and_describe : forall data out o, all_bytes data -> parse_chunks data = (out, o) ->
  exists q, tiled 0 (map fst out) q /\
    Forall (fun x => chunk_describes data (fst (fst x)) (snd (fst x)) (snd x)) out /\
    (o = Finished -> zlen data <= 2 * q <= zlen data + 10).
Proof.
  intros data out o Hb H. apply parse_chunks_spec in H; [|assumption].
  apply (proj1 chunks_describe) in H. exact (H [] eq_refl Hb).
Qed.

(** ** Two text chunks never follow each other *)
Lemma texts_maximal :
  (forall p suf out o, para_text p suf out o -> no_adjacent_texts out) /\
  (forall p suf out o, para_text_at_control p suf out o ->
     no_adjacent_texts out /\ match out with x :: _ => ~ is_text x | [] => True end).
Proof.
  assert (C : forall r c out, no_adjacent_texts out -> no_adjacent_texts ((r, ChCtl c) :: out)).
  { intros r c [|y out] H; cbn; [trivial|]. split; [tauto|exact H]. }
  apply (para_text_both (fun p suf out o => no_adjacent_texts out)
    (fun p suf out o => no_adjacent_texts out /\ match out with x :: _ => ~ is_text x | [] => True end)); intros;
    try (split; [|cbn; tauto]); try exact I; try (now apply C); try tauto.
  destruct H5 as [H5 H6]. destruct out as [|y out]; [exact I|]. split; [|exact H5]. tauto.
Qed.

(** ** Outcomes *)
Lemma outcomes_ok :
  (forall p suf out o, para_text p suf out o ->
     o = Finished \/ o = Failed UnicodeDecodeError \/ o = Failed KeyError \/ o = Failed StructError \/ o = Failed IndexError) /\
  (forall p suf out o, para_text_at_control p suf out o ->
     o = Finished \/ o = Failed UnicodeDecodeError \/ o = Failed KeyError \/ o = Failed StructError \/ o = Failed IndexError).
Proof.
  apply (para_text_both _ _); intros; auto.
Qed.

Theorem parse_chunks_outcomes : forall data, all_bytes data ->
  In (snd (parse_chunks data)) [Finished; Failed UnicodeDecodeError; Failed KeyError; Failed StructError; Failed IndexError].
Proof.
  intros data Hb. destruct (parse_chunks data) as [out o] eqn:E. apply parse_chunks_spec in E; [|assumption].
  apply (proj1 outcomes_ok) in E. cbn. intuition.
Qed.

Definition stops (p : Z) (suf : list Z) (out : list ((Z * Z) * chunk)) (o : outcome) : Prop :=
  forall e, o = Failed e ->
  exists done_ left q, suf = done_ ++ left /\ zlen done_ = 2 * (q - p) /\ tiled p (map fst out) q /\ stops_because left e.

Lemma failures_located :
  (forall p suf out o, para_text p suf out o -> stops p suf out o) /\
  (forall p suf out o, para_text_at_control p suf out o -> stops p suf out o).
Proof.
  assert (N : forall p suf e, stops_because suf e -> stops p suf [] (Failed e)).
  { intros p suf e H e' E. injection E as <-. exists [], suf, p. repeat split; [rewrite zlen_nil; lia|constructor|exact H]. }
  assert (C : forall p s1 s2 n x out o, 0 < n -> zlen s1 = 2 * n -> stops (p + n) s2 out o ->
              stops p (s1 ++ s2) (((p, p + n), x) :: out) o).
  { intros p s1 s2 n x out o Hn Hs HS e E. destruct (HS e E) as (d & l & q & -> & HZ & HT & HB).
    exists (s1 ++ d), l, q. rewrite app_assoc, zlen_app. repeat split; [lia| |exact HB].
    cbn. constructor; [lia|exact HT]. }
  assert (F : forall p suf out, stops p suf out Finished) by (intros p suf out e E; discriminate).
  apply (para_text_both stops stops); intros; auto.
  - assert (HB : 0 < zlen (utf16_units t)).
    { destruct t as [|c t]; [congruence|]. unfold utf16_units. cbn [map concat]. rewrite zlen_app.
      pose proof (zlen_nonneg _ (concat (map utf16_units_of t))).
      unfold utf16_units_of at 1. destruct (c <? 65536); rewrite ?zlen_cons, ?zlen_nil; lia. }
    apply C; [exact HB|apply zlen_utf16le|assumption].
  - apply N. now apply stop_text.
  - apply N. destruct H2 as (c & t & -> & Hc). apply stop_undefined; auto.
    destruct H1 as [?|[_ HE]]; [discriminate|exact HE].
  - change (c :: 0 :: rest) with ([c; 0] ++ rest). apply C; [lia|reflexivity|assumption].
  - apply N. change (c :: 0 :: rest) with ([] ++ c :: 0 :: rest). now apply stop_undefined.
  - replace (9 :: 0 :: number_bytes 4 width ++ u0 :: u1 :: u2 ++ trail ++ rest) with
            ((9 :: 0 :: number_bytes 4 width ++ u0 :: u1 :: u2 ++ trail) ++ rest).
    2:{ destruct (number_bytes4 width) as (a & b & c & d & E). rewrite E. cbn [app]. rewrite <- app_assoc. reflexivity. }
    apply C; [lia| |assumption].
    destruct (number_bytes4 width) as (a & b & c & d & E). rewrite E. cbn [app]. rewrite !zlen_cons, zlen_app. lia.
  - replace (c :: 0 :: i0 :: i1 :: i2 :: i3 :: param ++ trail ++ rest) with
            ((c :: 0 :: i0 :: i1 :: i2 :: i3 :: param ++ trail) ++ rest) by (cbn [app]; rewrite <- app_assoc; reflexivity).
    apply C; [lia| |assumption]. rewrite !zlen_cons, zlen_app. lia.
  - apply N. now constructor.
  - apply N. now constructor.
Qed.

Theorem parse_chunks_failure : forall data out e, all_bytes data -> parse_chunks data = (out, Failed e) ->
  exists done_ left q, data = done_ ++ left /\ zlen done_ = 2 * q /\ tiled 0 (map fst out) q /\ stops_because left e.
Proof.
  intros data out e Hb H. apply parse_chunks_spec in H; [|assumption].
  destruct (proj1 failures_located _ _ _ _ H e eq_refl) as (d & l & q & E & HZ & HT & HS).
  exists d, l, q. rewrite Z.sub_0_r in HZ. auto.
Qed.

Theorem parse_chunks_texts_maximal : forall data out o, all_bytes data -> parse_chunks data = (out, o) ->
  no_adjacent_texts out.
Proof. intros data out o Hb H. apply parse_chunks_spec in H; [|assumption]. exact (proj1 texts_maximal _ _ _ _ H). Qed.

(** ** Writing chunks and reading them back *)
Lemma bytes_of_pchunk_even : forall c, pchunk_ok c -> exists n, 0 < n /\ zlen (pchunk_bytes c) = 2 * n /\ n = pchunk_units c.
Proof.
  intros [t|c|w u0 u1 u2 tr|c chid param tr] H; cbn [pchunk_ok pchunk_bytes pchunk_units] in *.
  - destruct H as (Hne & Hs & _). exists (zlen (utf16_units t)). split; [|split; [apply zlen_utf16le|reflexivity]].
    destruct t as [|c t]; [congruence|]. unfold utf16_units. cbn [map concat]. rewrite zlen_app.
    pose proof (zlen_nonneg _ (concat (map utf16_units_of t))).
    unfold utf16_units_of at 1. destruct (c <? 65536); rewrite ?zlen_cons, ?zlen_nil; lia.
  - exists 1. repeat split; lia.
  - exists 8. repeat split; try lia. destruct (number_bytes4 w) as (a & b & c & d & E). rewrite E. cbn [app].
    rewrite !zlen_cons, zlen_app. lia.
  - exists 8. repeat split; try lia. rewrite !zlen_cons, !zlen_app, zlen_rev. lia.
Qed.

Lemma scalar_text_control_free : forall t, Forall scalar t -> Forall (fun c => 0x20 <= c) t -> control_free (utf16le_bytes t).
Proof.
  intros t Hs H. assert (HU : Forall (fun u => 0x20 <= u < 65536) (utf16_units t)).
  { unfold utf16_units. revert H. induction Hs as [|c t Hc Hs IH]; intros H; cbn; [constructor|].
    inversion H; subst. apply Forall_app. split; [|now apply IH].
    unfold utf16_units_of, scalar in *. destruct (c <? 65536) eqn:E; repeat constructor; lia. }
  unfold utf16le_bytes. induction HU as [|u us Hu HU IH]; cbn [map concat]; [exact I|].
  unfold le16. cbn [app control_free]. split; [lia|exact IH].
Qed.

Lemma spec_of_pchunks : forall cs p, Forall pchunk_ok cs -> no_adjacent_ptexts cs ->
  para_text p (concat (map pchunk_bytes cs)) (place p cs) Finished /\
  (match cs with PText _ :: _ => False | _ => True end ->
   para_text_at_control p (concat (map pchunk_bytes cs)) (place p cs) Finished).
Proof.
  induction cs as [|c cs IH]; intros p Hok Hadj.
  - cbn. split; [constructor|intros _; constructor].
  - inversion Hok as [|? ? Hc Hok']; subst.
    assert (Hadj' : no_adjacent_ptexts cs) by (cbn in Hadj; destruct cs; [exact I|apply Hadj]).
    cbn [map concat place].
    assert (HC : match c with PText _ => False | _ => True end ->
       para_text_at_control p (pchunk_bytes c ++ concat (map pchunk_bytes cs))
         (((p, p + pchunk_units c), pchunk_value c) :: place (p + pchunk_units c) cs) Finished).
    { intros HN. destruct c as [t|c|w u0 u1 u2 tr|c chid param tr]; [destruct HN| | |]; cbn [pchunk_ok pchunk_bytes pchunk_units pchunk_value app] in *.
      - apply atc_char; [assumption|]. now apply IH.
      - destruct Hc as (Hw & H0 & H1 & H2 & Ht).
        replace (9 :: 0 :: (number_bytes 4 w ++ u0 :: u1 :: u2 ++ tr) ++ concat (map pchunk_bytes cs)) with
                (9 :: 0 :: number_bytes 4 w ++ u0 :: u1 :: u2 ++ tr ++ concat (map pchunk_bytes cs)).
        + apply atc_tab; auto. now apply IH.
        + destruct (number_bytes4 w) as (a & b & c & d & E). rewrite E. cbn [app]. now rewrite <- app_assoc.
      - destruct Hc as (Hc & Hn & Hi & Hp & Ht).
        destruct chid as [|i3 [|i2 [|i1 [|i0 [|? chid]]]]]; try (rewrite ?zlen_cons, ?zlen_nil in Hi; pose proof (zlen_nonneg _ chid); lia); try (cbn in Hi; lia).
        cbn [rev app]. rewrite <- app_assoc. apply atc_obj; auto. now apply IH. }
    split.
    + destruct c as [t|c|w u0 u1 u2 tr|c chid param tr].
      * cbn [pchunk_bytes pchunk_units pchunk_value] in *. destruct Hc as (Hne & Hs & H32).
        assert (HNT : match cs with PText _ :: _ => False | _ => True end).
        { destruct cs as [|[]]; try exact I. cbn in Hadj. tauto. }
        apply para_run; auto.
        -- now apply scalar_text_control_free.
        -- destruct cs as [|c' cs']; [left; reflexivity|right]. split.
           ++ inversion Hok' as [|? ? Hc' _]; subst.
              destruct c' as [t'|c'|w' u0' u1' u2' tr'|c' chid' param' tr']; [destruct HNT| | |]; cbn [map concat pchunk_bytes app pchunk_ok] in *.
              ** exists c'. eexists. split; [reflexivity|]. unfold one_unit_control in Hc'. cbn [In] in Hc'. lia.
              ** eexists. eexists. split; [reflexivity|]. lia.
              ** exists c'. eexists. split; [reflexivity|]. destruct Hc' as ((? & _) & _). lia.
           ++ rewrite zlen_utf16le. apply (even_double _ (zlen (utf16_units t))). reflexivity.
        -- intros (x & y & E & Hx). destruct cs as [|c' cs']; [discriminate|].
           inversion Hok' as [|? ? Hc' _]; subst. unfold undefined_control in Hx.
           destruct c' as [t'|c'|w' u0' u1' u2' tr'|c' chid' param' tr']; [destruct HNT| | |]; cbn [map concat pchunk_bytes app pchunk_ok] in *; injection E as E _; subst.
           ++ unfold one_unit_control in Hc'. cbn [In] in Hc'. lia.
           ++ lia.
           ++ destruct Hc' as ((_ & _ & N) & _). apply N. exact Hx.
        -- apply IH; auto.
      * apply (para_control p c (concat (map pchunk_bytes cs))); [|apply HC; exact I].
        cbn in Hc. unfold one_unit_control in Hc. cbn [In] in Hc. lia.
      * apply (para_control p 9); [lia|apply HC; exact I].
      * apply (para_control p c); [destruct Hc as ((? & _) & _); lia|apply HC; exact I].
    + destruct c; [intros []| | |]; intros _; apply HC; exact I.
Qed.

Theorem chunks_roundtrip : forall cs, Forall pchunk_ok cs -> no_adjacent_ptexts cs ->
  all_bytes (concat (map pchunk_bytes cs)) ->
  parse_chunks (concat (map pchunk_bytes cs)) = (place 0 cs, Finished).
Proof. intros cs H1 H2 Hb. apply parse_chunks_spec; [exact Hb|]. now apply spec_of_pchunks. Qed.

(** ** The table of control characters *)
Lemma control_kinds : forall c, control_kind c = match control_group c with Some k => Ok k | None => Raise KeyError end.
Proof.
  intros c. assert (D : 0 <= c < 32 \/ ~ 0 <= c < 32) by lia. destruct D as [D|D].
  - assert (I : In c (map Z.of_nat (seq 0 32))) by (apply in_map_iff; exists (Z.to_nat c); split; [lia|apply in_seq; lia]).
    assert (A : forallb (fun c => match control_kind c, control_group c with
                                  | Ok KChar, Some KChar | Ok KInline, Some KInline | Ok KExtended, Some KExtended
                                  | Raise KeyError, None => true | _, _ => false end) (map Z.of_nat (seq 0 32)) = true) by (vm_compute; reflexivity).
    rewrite forallb_forall in A. specialize (A c I). destruct (control_kind c) as [[]|[]], (control_group c) as [[]|]; try discriminate A; reflexivity.
  - assert (G : control_group c = None).
    { unfold control_group. cbn [existsb]. repeat (match goal with |- context [Z.eqb c ?n] => destruct (Z.eqb_spec c n); [lia|] end). reflexivity. }
    rewrite G. unfold control_kind, control_chars. cbn [zdict_get]. 
    repeat (match goal with |- context [Z.eqb ?n ?m] => destruct (Z.eqb_spec n m); [lia|] end). reflexivity.
Qed.

Lemma control_names : forall c, 0 <= c < 32 -> get_name_by_code c = zs (control_name c).
Proof.
  intros c D. assert (I : In c (map Z.of_nat (seq 0 32))) by (apply in_map_iff; exists (Z.to_nat c); split; [lia|apply in_seq; lia]).
  assert (A : forall c, In c (map Z.of_nat (seq 0 32)) -> get_name_by_code c = zs (control_name c)).
  { cbn [seq map]. intros x X. cbn [In] in X. repeat (destruct X as [<-|X]; [vm_compute; reflexivity|]). destruct X. }
  exact (A c I).
Qed.

Lemma control_group_range : forall c k, control_group c = Some k -> 0 <= c < 32.
Proof.
  intros c k H. assert (D : 0 <= c < 32 \/ ~ 0 <= c < 32) by lia. destruct D as [D|D]; [exact D|].
  unfold control_group in H. cbn [existsb] in H.
  repeat (match type of H with context [Z.eqb c ?n] => destruct (Z.eqb_spec c n); [lia|] end). discriminate H.
Qed.
