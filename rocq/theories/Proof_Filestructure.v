(** Proofs about the file header and the layers. *)
From Coq Require Import ZArith String List Bool Lia Sorted Permutation.
From Verif Require Import Base BaseFacts Model_Text Model_Dataio Spec_Dataio Proof_Text Proof_Dataio Proof_Record Model_Bintype Model_XmlText
  Model_Storage Model_Filestructure Spec_Filestructure.
Import ListNotations.
Open Scope string_scope.
Open Scope list_scope.
Open Scope Z_scope.

(** ** The header *)

Definition leafy (t : ty unit) : bool := match t with TPrim _ _ | TFlags _ _ _ => true | _ => false end.
Definition member (n : string) (t : ty unit) : bev unit := BLeaf unit (member_attrs unit n None None, t).

Lemma run_leaf : forall fuel n t rest i d s out v s', leafy t = true -> read_leaf unit t s = LeafOk v s' ->
  run unit (S fuel) tt (mkState unit (member n t :: rest) [(i, VDict d)] [] s out) =
  run unit fuel tt (mkState unit rest [(i, VDict (dict_set n v d))] [] s' (out ++ [OLeaf unit (Some n) t (s_pos s) v])).
Proof.
  intros fuel n t rest i d s out v s' HL HR. cbn [run].
  assert (E : step unit tt (mkState unit (member n t :: rest) [(i, VDict d)] [] s out) =
              Next unit (mkState unit rest [(i, VDict (dict_set n v d))] [] s' (out ++ [OLeaf unit (Some n) t (s_pos s) v]))).
  { destruct t; try discriminate HL; cbn [step member st_events bev_item st_stream st_stack st_out member_attrs a_when a_cond a_count a_name];
      rewrite HR; reflexivity. }
  rewrite E. reflexivity.
Qed.
Lemma run_leaf_error : forall fuel n t rest i d s out e s', leafy t = true -> read_leaf unit t s = LeafError s' e ->
  exists o s2, run unit (S fuel) tt (mkState unit (member n t :: rest) [(i, VDict d)] [] s out) = (o, s2, Failed (ParseError e (s_pos s))).
Proof.
  intros fuel n t rest i d s out e s' HL HR. cbn [run].
  assert (E : step unit tt (mkState unit (member n t :: rest) [(i, VDict d)] [] s out) =
              Stop unit (out ++ [OError unit (Some n) t (s_pos s) e]) s' (Failed (ParseError e (s_pos s)))).
  { destruct t; try discriminate HL; cbn [step member st_events bev_item st_stream st_stack st_out member_attrs a_when a_cond a_count a_name];
      rewrite HR; reflexivity. }
  rewrite E. eauto.
Qed.
Lemma run_leaf_raise : forall fuel n t rest i d s out e s', leafy t = true -> read_leaf unit t s = LeafRaise s' e ->
  exists o s2, run unit (S fuel) tt (mkState unit (member n t :: rest) [(i, VDict d)] [] s out) = (o, s2, Failed e).
Proof.
  intros fuel n t rest i d s out e s' HL HR. cbn [run].
  assert (E : step unit tt (mkState unit (member n t :: rest) [(i, VDict d)] [] s out) = Stop unit out s' (Failed e)).
  { destruct t; try discriminate HL; cbn [step member st_events bev_item st_stream st_stack st_out member_attrs a_when a_cond a_count a_name];
      rewrite HR; reflexivity. }
  rewrite E. eauto.
Qed.

Definition head_item : Model_Bintype.item unit := (no_attrs unit, file_header_type).
Definition T1 := TPrim unit (PBytes 32).
Definition T2 := TPrim unit PVersion.
Definition T3 := TFlags unit UINT32 header_flags.
Definition T4 := TPrim unit (PBytes 216).
Lemma header_events : get_typedef unit file_header_type None =
  [BStart unit head_item; member "signature" T1; member "version" T2; member "flags" T3; member "reserved" T4; BEnd unit head_item].
Proof. reflexivity. Qed.
Lemma run_start : forall fuel rest s, run unit (S fuel) tt (mkState unit (BStart unit head_item :: rest) [] [] s []) =
  run unit fuel tt (mkState unit rest [(head_item, VDict [])] [] s [OStart unit None file_header_type]).
Proof. reflexivity. Qed.
Lemma run_close : forall fuel d s out, run unit (S (S fuel)) tt (mkState unit [BEnd unit head_item] [(head_item, VDict d)] [] s out) =
  (out ++ [OEnd unit None file_header_type (VDict d)], s, Finished).
Proof. reflexivity. Qed.

Lemma header_dict_full : forall sig v1 v2 v3 v4 f1 f2 f3 f4 rest, zlen sig = 32 -> rest <> [] ->
  header_dict (sig ++ [v4; v3; v2; v1] ++ [f1; f2; f3; f4] ++ rest) =
  Ok [("signature", VBytes sig); ("version", VTuple [VInt v1; VInt v2; VInt v3; VInt v4]);
      ("flags", VFlags header_flags (le_decode [f1; f2; f3; f4])); ("reserved", VBytes (ztake 216 rest))].
Proof.
  intros sig v1 v2 v3 v4 f1 f2 f3 f4 rest HS HR.
  pose proof (readn_app 32 sig ([v4; v3; v2; v1] ++ [f1; f2; f3; f4] ++ rest) 0 HS ltac:(lia)) as R1.
  pose proof (readn_app 4 [v4; v3; v2; v1] ([f1; f2; f3; f4] ++ rest) (0 + 32) eq_refl ltac:(lia)) as R2.
  pose proof (readn_app 4 [f1; f2; f3; f4] rest (0 + 32 + 4) eq_refl ltac:(lia)) as R3.
  assert (R4 : exists s, readn 216 (mkStream rest (0 + 32 + 4 + 4)) = (Ok (ztake 216 rest), s)).
  { unfold readn, stream_read. cbn [s_rest s_pos].
    destruct (zlen (ztake 216 rest) =? 0) eqn:E; [|eexists; reflexivity].
    exfalso. apply Z.eqb_eq, zlen_zero in E. destruct rest as [|a rest]; [congruence|]. discriminate E. }
  destruct R4 as (s4 & R4).
  unfold header_dict, read_type, read_type_events. rewrite header_events. change (mkState unit ?l [] [] ?s []) with (mkState unit l [] [] s []).
  rewrite run_start.
  erewrite run_leaf; [|reflexivity|cbn [read_leaf T1 prim_value]; unfold open_bytes; rewrite R1; reflexivity].
  erewrite run_leaf; [|reflexivity|cbn [read_leaf T2 prim_value]; rewrite R2; reflexivity].
  erewrite run_leaf; [|reflexivity|cbn [read_leaf T3 prim_value]; change (calcsize UINT32) with 4; rewrite R3; reflexivity].
  erewrite run_leaf; [|reflexivity|cbn [read_leaf T4 prim_value]; rewrite R4; reflexivity].
  rewrite run_close. rewrite rev_app_distr. reflexivity.
Qed.

Lemma leaf_end2 : forall s, s_rest s = [] -> read_leaf unit T2 s = LeafError s (Eof (s_pos s)).
Proof. intros [l p] H. cbn in H. subst l. cbn [read_leaf T2 prim_value s_pos]. rewrite readn_nil. reflexivity. Qed.
Lemma header_short : forall b, zlen b < 41 -> exists e, header_dict b = Raise e /\ short_header (zlen b) e.
Proof.
  intros b HB. unfold header_dict, read_type, read_type_events. rewrite header_events, run_start. unfold open_bytes.
  pose proof (zlen_nonneg _ b) as H0.
  destruct (Z.eq_dec (zlen b) 0) as [HZ|HZ].
  { apply zlen_zero in HZ. subst b. destruct (run_leaf_error 8 "signature" T1 [member "version" T2; member "flags" T3; member "reserved" T4; BEnd unit head_item] head_item [] (mkStream [] 0) [OStart unit None file_header_type] (Eof 0) (mkStream [] 0) eq_refl eq_refl) as (o & s2 & E).
    rewrite E. eexists. split; [reflexivity|]. exact (sh_sign 0 ltac:(lia)). }
  destruct (Z_le_gt_dec (zlen b) 32) as [H1|H1].
  { pose proof (readn_short 32 b 0 ltac:(lia)) as R1.
    erewrite run_leaf; [|reflexivity|cbn [read_leaf T1 prim_value]; rewrite R1; reflexivity].
    match goal with |- context [run unit 8 tt (mkState unit (_ :: ?r) [(_, VDict ?d)] [] ?s ?out)] =>
      destruct (run_leaf_error 7 "version" T2 r head_item d s out (Eof (s_pos s)) s eq_refl (leaf_end2 s eq_refl)) as (o & s2 & E) end.
    rewrite E. eexists. split; [reflexivity|]. cbn [s_pos]. rewrite Z.add_0_l. apply sh_sign. lia. }
  assert (HS : exists sig r, b = sig ++ r /\ zlen sig = 32).
  { exists (ztake 32 b), (zdrop 32 b). split; [symmetry; apply ztake_zdrop|]. rewrite zlen_ztake. lia. }
  destruct HS as (sig & r & -> & HS). rewrite zlen_app in *.
  pose proof (readn_app 32 sig r 0 HS ltac:(lia)) as R1.
  erewrite run_leaf; [|reflexivity|cbn [read_leaf T1 prim_value]; rewrite R1; reflexivity].
  destruct r as [|v4 r]; [rewrite zlen_nil in *; lia|]. destruct r as [|v3 r]; [|destruct r as [|v2 r]; [|destruct r as [|v1 r]]].
  1-3: match goal with |- context [run unit 8 tt (mkState unit (_ :: ?r) [(_, VDict ?d)] [] ?s ?out)] =>
      edestruct (run_leaf_error 7 "version" T2 r head_item d s out IndexError _ eq_refl eq_refl) as (o & s2 & E); rewrite E end;
      eexists; (split; [reflexivity|]); apply sh_version; rewrite !zlen_cons, zlen_nil; lia.
  pose proof (readn_app 4 [v4; v3; v2; v1] r (0 + 32) eq_refl ltac:(lia)) as R2. cbn [app] in R2.
  erewrite run_leaf; [|reflexivity|cbn [read_leaf T2 prim_value]; rewrite R2; reflexivity].
  rewrite !zlen_cons in *.
  destruct (Z_le_gt_dec (zlen r) 3) as [H3|H3].
  { match goal with |- context [run unit 7 tt (mkState unit (_ :: ?l) [(_, VDict ?d)] [] ?s ?out)] =>
      assert (HR : exists s', read_leaf unit T3 s = LeafRaise s' KeyError);
      [|destruct HR as (s' & HR); destruct (run_leaf_raise 6 "flags" T3 l head_item d s out KeyError _ eq_refl HR) as (o & s2 & E)] end.
    - destruct r as [|f1 [|f2 [|f3 [|f4 r]]]]; try (eexists; reflexivity).
      pose proof (zlen_nonneg _ r). rewrite !zlen_cons in H3. lia.
    - rewrite E. eexists. split; [reflexivity|]. apply sh_flags. pose proof (zlen_nonneg _ r). lia. }
  assert (HF : exists f1 f2 f3 f4, r = [f1; f2; f3; f4]).
  { pose proof (zlen_nonneg _ r). destruct r as [|f1 [|f2 [|f3 [|f4 r]]]]; rewrite ?zlen_cons, ?zlen_nil in H3; try lia.
    destruct r as [|x r]; [eauto 6|]. rewrite !zlen_cons in *. pose proof (zlen_nonneg _ r). lia. }
  destruct HF as (f1 & f2 & f3 & f4 & ->).
  pose proof (readn_app 4 [f1; f2; f3; f4] [] (0 + 32 + 4) eq_refl ltac:(lia)) as R3. rewrite app_nil_r in R3.
  erewrite run_leaf; [|reflexivity|cbn [read_leaf T3 prim_value]; change (calcsize UINT32) with 4; rewrite R3; reflexivity].
  match goal with |- context [run unit 6 tt (mkState unit (_ :: ?r) [(_, VDict ?d)] [] ?s ?out)] =>
      destruct (run_leaf_error 5 "reserved" T4 r head_item d s out (Eof (s_pos s)) s eq_refl eq_refl) as (o & s2 & E) end.
  rewrite E. eexists. split; [reflexivity|]. cbn [s_pos]. rewrite !zlen_cons, zlen_nil in *. replace (zlen sig + _) with 40 by lia. exact sh_reserved.
Qed.

(** ** Decimal numerals *)

Lemma digits_fuel_acc : forall fuel b n acc, digits_fuel fuel b n acc = digits_fuel fuel b n [] ++ acc.
Proof.
  induction fuel as [|k IH]; intros b n acc; cbn [digits_fuel]; [reflexivity|].
  destruct (n <? b); [reflexivity|]. rewrite IH, (IH b (n / b) [n mod b]), <- app_assoc. reflexivity.
Qed.
Lemma digits_fuel_irrel : forall b, 2 <= b -> forall k1 k2 n acc, 0 <= n -> Z.log2 n < Z.of_nat k1 -> Z.log2 n < Z.of_nat k2 ->
  digits_fuel k1 b n acc = digits_fuel k2 b n acc.
Proof.
  intros b Hb. induction k1 as [|k1 IH]; intros k2 n acc H0 H1 H2; [pose proof (Z.log2_nonneg n); lia|].
  destruct k2 as [|k2]; [pose proof (Z.log2_nonneg n); lia|]. cbn [digits_fuel]. destruct (n <? b) eqn:E; [reflexivity|].
  pose proof (log2_div_lt b n Hb ltac:(lia)). apply IH; try lia; try (apply Z.div_pos; lia).
Qed.
Lemma digits_step : forall b n d, 2 <= b -> 0 < n -> 0 <= d < b -> digits b (b * n + d) = digits b n ++ [d].
Proof.
  intros b n d Hb Hn Hd. unfold digits. cbn [digits_fuel]. destruct (b * n + d <? b) eqn:E; [nia|].
  assert (Q : (b * n + d) / b = n) by (rewrite Z.mul_comm, Z.div_add_l, (Z.div_small d b); lia).
  assert (R : (b * n + d) mod b = d) by (rewrite Z.add_comm, Z.mul_comm, Z.mod_add, Z.mod_small; lia).
  rewrite Q, R, digits_fuel_acc. pose proof (log2_div_lt b (b * n + d) Hb ltac:(nia)) as HL. rewrite Q in HL.
  rewrite (digits_fuel_irrel b Hb (Z.to_nat (Z.log2 (b * n + d))) (S (Z.to_nat (Z.log2 n)))); [| |pose proof (Z.log2_nonneg n)|pose proof (Z.log2_nonneg n)]; try lia.
  cbn [digits_fuel]. destruct (n <? b); [reflexivity|]. rewrite (digits_fuel_acc _ _ _ [n mod b]). reflexivity.
Qed.
Lemma numeral_nonneg : forall t n, numeral t n -> 0 <= n.
Proof. intros t n H. induction H; lia. Qed.
Lemma numeral_fmt : forall t n, numeral t n -> fmt_d n = t.
Proof.
  intros t n H. induction H as [d Hd|l n d H IH Hn Hd].
  - unfold fmt_d. destruct (d <? 0) eqn:E; [lia|]. unfold digits. cbn [digits_fuel]. destruct (d <? 10) eqn:E2; [reflexivity|lia].
  - unfold fmt_d in *. destruct (n <? 0) eqn:E; [lia|]. destruct (10 * n + d <? 0) eqn:E2; [lia|].
    rewrite digits_step, map_app, IH by lia. reflexivity.
Qed.
Lemma numeral_exists : forall k n, 0 <= n < Z.of_nat k -> exists t, numeral t n.
Proof.
  induction k as [|k IH]; intros n Hn; [lia|]. destruct (Z_lt_ge_dec n 10) as [H|H].
  - exists [48 + n]. constructor. lia.
  - destruct (IH (n / 10)) as (t & Ht).
    { assert (0 < n / 10 < n) by (split; [apply Z.div_str_pos; lia|apply Z.div_lt; lia]). lia. }
    exists (t ++ [48 + n mod 10]). rewrite (Z.div_mod n 10) at 2 by lia. constructor; [exact Ht|apply Z.div_str_pos; lia|].
    pose proof (Z.mod_pos_bound n 10). lia.
Qed.
Lemma numeral_of : forall n, 0 <= n -> numeral (fmt_d n) n.
Proof. intros n Hn. destruct (numeral_exists (S (Z.to_nat n)) n ltac:(lia)) as (t & H). now rewrite (numeral_fmt t n H). Qed.
Lemma numeral_ascii : forall t n, numeral t n -> Forall (fun c => 48 <= c <= 57) t.
Proof. intros t n H. induction H; [constructor; [lia|constructor]|]. apply Forall_app. split; [exact IHnumeral|]. constructor; [lia|constructor]. Qed.

(** ** The text form *)

Lemma utf8_ascii : forall l, Forall (fun c => 0 <= c < 128) l -> utf8_encode l = Ok l.
Proof.
  intros l H. induction H as [|c l Hc Hl IH]; [reflexivity|]. cbn [utf8_encode]. unfold utf8_char. destruct (c <? 0x80) eqn:E; [|lia].
  cbn [bind]. rewrite IH. reflexivity.
Qed.
Lemma bit_value : forall i n, 0 <= i -> get_int_value i i n = if Z.testbit n i then 1 else 0.
Proof.
  intros i n Hi. rewrite bitfield_value by lia. replace (i - i + 1) with 1 by lia. change (2 ^ 1) with 2.
  rewrite Zmod_odd, <- Z.shiftr_div_pow2 by lia. rewrite <- Z.bit0_odd, Z.shiftr_spec by lia. reflexivity.
Qed.
Lemma bit_text : forall (b : bool), fmt_d (if b then 1 else 0) = [if b then 49 else 48].
Proof. intros []; reflexivity. Qed.

Lemma number4 : forall n, 0 <= n < 2 ^ 32 -> exists f1 f2 f3 f4, number_bytes 4 n = [f1; f2; f3; f4] /\ le_decode [f1; f2; f3; f4] = n.
Proof.
  intros n Hn. do 4 eexists. split; [reflexivity|].
  change (le_decode (number_bytes 4 n) = n). rewrite number_bytes_encode, le_decode_encode.
  - change (256 ^ Z.of_nat 4) with (2 ^ 32). apply Z.mod_small. lia.
  - change (256 ^ Z.of_nat 4) with (2 ^ 32). apply Z.mod_pos_bound. lia.
Qed.

Lemma header_bytes_dict : forall sig v1 v2 v3 v4 flags rest, zlen sig = 32 -> rest <> [] -> 0 <= flags < 2 ^ 32 ->
  header_dict (header_bytes sig v1 v2 v3 v4 flags rest) =
  Ok [("signature", VBytes sig); ("version", VTuple [VInt v1; VInt v2; VInt v3; VInt v4]);
      ("flags", VFlags header_flags flags); ("reserved", VBytes (ztake 216 rest))].
Proof.
  intros sig v1 v2 v3 v4 flags rest HS HR HF. destruct (number4 flags HF) as (f1 & f2 & f3 & f4 & E1 & E2).
  unfold header_bytes. rewrite E1, header_dict_full, E2 by assumption. reflexivity.
Qed.

Lemma header_text_lines : forall v1 v2 v3 v4 t1 t2 t3 t4 flags rest, rest <> [] -> 0 <= flags < 2 ^ 32 ->
  numeral t1 v1 -> numeral t2 v2 -> numeral t3 v3 -> numeral t4 v4 ->
  header_text (header_bytes magic v1 v2 v3 v4 flags rest) = Ok (header_lines flags (t1 ++ [46] ++ t2 ++ [46] ++ t3 ++ [46] ++ t4)).
Proof.
  intros v1 v2 v3 v4 t1 t2 t3 t4 flags rest HR HF N1 N2 N3 N4.
  unfold header_text, header_signature, header_flags_value, header_version. rewrite (header_bytes_dict magic v1 v2 v3 v4 flags rest eq_refl HR HF).
  cbn [bind dict_item dict_get String.eqb Ascii.eqb Bool.eqb].
  unfold version_text. rewrite (numeral_fmt t1 v1 N1), (numeral_fmt t2 v2 N2), (numeral_fmt t3 v3 N3), (numeral_fmt t4 v4 N4). cbn [bind].
  unfold flags_dictvalue. unfold header_flags at 1. cbn [map fst snd].
  rewrite !bit_value by lia. rewrite !bit_text.
  match goal with |- utf8_encode ?t = Ok ?u => assert (E : t = u) end.
  - match goal with |- context [zs "." ++ ?v] => idtac | _ => idtac end.
    change (zs ".") with [46]. set (v := t1 ++ [46] ++ t2 ++ [46] ++ t3 ++ [46] ++ t4). clearbody v.
    unfold sorted_items. cbn -[Z.testbit]. rewrite <- ?app_assoc. cbn -[Z.testbit]. rewrite <- ?app_assoc. reflexivity.
  - rewrite E. apply utf8_ascii. 
    pose proof (numeral_ascii t1 v1 N1). pose proof (numeral_ascii t2 v2 N2). pose proof (numeral_ascii t3 v3 N3). pose proof (numeral_ascii t4 v4 N4).
    assert (HB : forall (b : bool), 0 <= (if b then 49 else 48) < 128) by (intros []; lia).
    unfold header_lines, bit_line. repeat rewrite Forall_app. repeat split;
      try (repeat constructor; try apply HB; lia); (eapply Forall_impl; [|eassumption]; cbn; intros; lia).
Qed.
