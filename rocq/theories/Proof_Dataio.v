(** Proofs about primitives, bit fields, flags, enumerations, hex dumps. *)
From Coq Require Import ZArith String List Bool Lia.
From Verif Require Import Base BaseFacts Model_Text Model_Dataio Spec_Dataio Proof_Text.
Import ListNotations.
Open Scope Z_scope.

(** ** Primitives *)

Lemma number_bytes_encode : forall w v, number_bytes w v = le_encode w (v mod 256 ^ Z.of_nat w).
Proof.
  intros w. unfold number_bytes.
  assert (H : forall w k v, map (byte_of v) (seq k w) =
              le_encode w ((v / 256 ^ Z.of_nat k) mod 256 ^ Z.of_nat w)).
  { clear. induction w as [|w IH]; intros k v; [reflexivity|].
    cbn [seq map le_encode]. rewrite IH. unfold byte_of.
    set (x := v / 256 ^ Z.of_nat k).
    assert (P : 0 < 256 ^ Z.of_nat w) by (apply Z.pow_pos_nonneg; lia).
    assert (E : 256 ^ Z.of_nat (S w) = 256 * 256 ^ Z.of_nat w) by (rewrite Nat2Z.inj_succ, Z.pow_succ_r; lia).
    rewrite E. f_equal.
    - rewrite Z.rem_mul_r by lia. rewrite Z.add_mod, (Z.mul_comm 256 (_ mod _)), Z.mod_mul, Z.add_0_r, !Z.mod_mod by lia. reflexivity.
    - f_equal. rewrite Z.rem_mul_r by lia. rewrite Nat2Z.inj_succ, Z.pow_succ_r, Z.mul_comm, <- Z.div_div by lia.
      fold x. rewrite (Z.mul_comm 256 (_ mod _)), Z.div_add by lia.
      rewrite (Z.div_small (x mod 256)) by (apply Z.mod_pos_bound; lia). lia. }
  intros v. rewrite H. cbn. now rewrite Z.div_1_r.
Qed.

Lemma pow256 : forall w, 256 ^ Z.of_nat w = 2 ^ (8 * Z.of_nat w).
Proof. intros. rewrite Z.pow_mul_r by lia. reflexivity. Qed.

Lemma unpack_unique : forall f b, (0 < fmt_width f)%nat -> all_bytes b -> zlen b = calcsize f ->
  exists v, struct_unpack f b = Ok v /\ fmt_range f v /\ number_bytes (fmt_width f) v = b /\
    forall v', fmt_range f v' -> number_bytes (fmt_width f) v' = b -> v' = v.
Proof.
  intros f b Hw Hb HL. unfold struct_unpack. rewrite HL, Z.eqb_refl.
  assert (HLn : List.length b = fmt_width f) by (unfold zlen in HL; destruct f; cbn in *; lia).
  pose proof (le_decode_range b Hb) as R. pose proof (le_encode_decode b Hb) as ED.
  rewrite HLn in ED. unfold zlen in R. rewrite HLn in R.
  set (m := 256 ^ Z.of_nat (fmt_width f)) in *.
  assert (Pm : 0 < m) by (apply Z.pow_pos_nonneg; lia).
  assert (Huniq : forall v', number_bytes (fmt_width f) v' = b -> v' mod m = le_decode b).
  { intros v' E. rewrite number_bytes_encode in E. rewrite <- E. symmetry.
    apply le_decode_encode. apply Z.mod_pos_bound. exact Pm. }
  assert (Hnb : forall v, v mod m = le_decode b -> number_bytes (fmt_width f) v = b).
  { intros v E. rewrite number_bytes_encode. fold m. rewrite E. exact ED. }
  destruct f as [w|w|]; cbn [fmt_width fmt_range calcsize] in *.
  - exists (le_decode b). split; [reflexivity|]. split; [exact R|]. split.
    + apply Hnb. apply Z.mod_small. exact R.
    + intros v' R' E. rewrite <- (Huniq v' E). symmetry. apply Z.mod_small. exact R'.
  - assert (E2 : 2 ^ (8 * Z.of_nat w) = m) by (unfold m; now rewrite pow256).
    assert (E3 : 2 * 2 ^ (8 * Z.of_nat w - 1) = m).
    { rewrite <- Z.pow_succ_r by lia. rewrite <- E2. f_equal. lia. }
    exists (to_signed (8 * Z.of_nat w) (le_decode b)). split; [reflexivity|].
    unfold to_signed. rewrite E2. fold m.
    destruct (le_decode b <? 2 ^ (8 * Z.of_nat w - 1)) eqn:EB.
    + split; [lia|]. split; [apply Hnb; now apply Z.mod_small|].
      intros v' R' E. apply Huniq in E.
      destruct (Z_lt_ge_dec v' 0).
      * rewrite <- (Z.mod_add v' 1 m), Z.mod_small in E by lia. lia.
      * rewrite Z.mod_small in E by lia. lia.
    + split; [lia|]. split.
      * apply Hnb. rewrite <- (Z.mod_add _ 1 m), Z.mod_small by lia. lia.
      * intros v' R' E. apply Huniq in E.
        destruct (Z_lt_ge_dec v' 0).
        -- rewrite <- (Z.mod_add v' 1 m), Z.mod_small in E by lia. lia.
        -- rewrite Z.mod_small in E by lia. lia.
  - exists (le_decode b). split; [reflexivity|]. split; [exact R|]. split.
    + apply Hnb. apply Z.mod_small. exact R.
    + intros v' R' E. rewrite <- (Huniq v' E). symmetry. apply Z.mod_small. exact R'.
Qed.

Lemma calcsize_width : forall f, calcsize f = Z.of_nat (fmt_width f).
Proof. destruct f; reflexivity. Qed.

Theorem prim_read_exact : forall f d rest pos, (0 < fmt_width f)%nat ->
  all_bytes d -> List.length d = fmt_width f ->
  exists v, prim_read f (mkStream (d ++ rest) pos) = (Ok v, mkStream rest (pos + Z.of_nat (fmt_width f))) /\
    fmt_range f v /\ number_bytes (fmt_width f) v = d /\
    forall v', fmt_range f v' -> number_bytes (fmt_width f) v' = d -> v' = v.
Proof.
  intros f d rest pos Hw Hd HL.
  assert (HZ : zlen d = calcsize f) by (unfold zlen; rewrite calcsize_width; lia).
  destruct (unpack_unique f d Hw Hd HZ) as (v & E & R & B & U).
  exists v. split; [|auto]. unfold prim_read, readn, stream_read. cbn [s_rest s_pos].
  rewrite (ztake_app_eq _ _ d rest) by lia. rewrite (zdrop_app_eq _ _ d rest) by lia.
  replace (zlen d =? 0) with false by (rewrite HZ, calcsize_width; lia).
  rewrite E, HZ, calcsize_width. reflexivity.
Qed.

Theorem prim_read_of_number : forall f v rest pos, (0 < fmt_width f)%nat -> fmt_range f v ->
  prim_read f (mkStream (number_bytes (fmt_width f) v ++ rest) pos) =
  (Ok v, mkStream rest (pos + Z.of_nat (fmt_width f))).
Proof.
  intros f v rest pos Hw R.
  destruct (prim_read_exact f (number_bytes (fmt_width f) v) rest pos Hw) as (v' & E & _ & _ & U).
  - rewrite number_bytes_encode. apply le_encode_bytes.
  - unfold number_bytes. now rewrite map_length, seq_length.
  - rewrite E. rewrite (U v R eq_refl). reflexivity.
Qed.

Theorem prim_read_eof : forall f pos, prim_read f (mkStream [] pos) = (Raise (Eof pos), mkStream [] pos).
Proof. intros. unfold prim_read, readn, stream_read. cbn. now rewrite Z.add_0_r. Qed.

Theorem prim_read_cut : forall f b pos, 0 < zlen b < Z.of_nat (fmt_width f) ->
  prim_read f (mkStream b pos) = (Raise StructError, mkStream [] (pos + zlen b)).
Proof.
  intros f b pos H. unfold prim_read, readn, stream_read. cbn [s_rest s_pos].
  rewrite calcsize_width, ztake_all, zdrop_all by lia.
  replace (zlen b =? 0) with false by lia. unfold struct_unpack. rewrite calcsize_width.
  replace (zlen b =? Z.of_nat (fmt_width f)) with false by lia. reflexivity.
Qed.

(** ** Bit fields *)

Lemma ones_eq : forall n, 2 ^ n - 1 = Z.ones n.
Proof. intros. rewrite Z.ones_equiv. lia. Qed.

Theorem bitfield_bits : forall lsb msb v i, 0 <= lsb <= msb -> 0 <= i ->
  Z.testbit (get_int_value lsb msb v) i = (i <=? msb - lsb) && Z.testbit v (lsb + i).
Proof.
  intros lsb msb v i H Hi. unfold get_int_value. rewrite ones_eq, Z.land_spec, Z.shiftr_spec by lia.
  rewrite andb_comm, (Z.add_comm i). f_equal.
  destruct (i <=? msb - lsb) eqn:E.
  - apply Z.ones_spec_low. lia.
  - apply Z.ones_spec_high. lia.
Qed.

Theorem bitfield_value : forall lsb msb v, 0 <= lsb <= msb ->
  get_int_value lsb msb v = (v / 2 ^ lsb) mod 2 ^ (msb - lsb + 1).
Proof.
  intros. unfold get_int_value. rewrite ones_eq, Z.land_ones, Z.shiftr_div_pow2 by lia.
  do 2 f_equal. lia.
Qed.

Theorem bitfield_range : forall lsb msb v, 0 <= lsb <= msb -> 0 <= get_int_value lsb msb v < 2 ^ (msb - lsb + 1).
Proof.
  intros. rewrite bitfield_value by assumption. apply Z.mod_pos_bound. apply Z.pow_pos_nonneg; lia.
Qed.

Theorem bitfield_beyond : forall lsb msb v w, 0 <= w <= lsb -> lsb <= msb -> 0 <= v < 2 ^ w ->
  get_int_value lsb msb v = 0.
Proof.
  intros lsb msb v w Hw Hm Hv. rewrite bitfield_value by lia.
  assert (2 ^ w <= 2 ^ lsb) by (apply Z.pow_le_mono_r; lia).
  rewrite Z.div_small by lia. apply Z.mod_0_l. apply Z.pow_nonzero; lia.
Qed.

Lemma tiles_bits : forall a fs b, tiles a fs b -> 0 <= a -> forall v1 v2,
  Forall (fun f => get_int_value (fst f) (snd f) v1 = get_int_value (fst f) (snd f) v2) fs ->
  forall i, a <= i < b -> Z.testbit v1 i = Z.testbit v2 i.
Proof.
  induction 1 as [a|a msb rest b Ha _ IH]; intros H0 v1 v2 HF i Hi; [lia|].
  inversion HF as [|? ? HE HF']; subst. cbn in HE.
  destruct (Z_le_gt_dec i msb).
  - pose proof (bitfield_bits a msb v1 (i - a) ltac:(lia) ltac:(lia)) as B1.
    pose proof (bitfield_bits a msb v2 (i - a) ltac:(lia) ltac:(lia)) as B2.
    rewrite HE in B1. rewrite B1 in B2. replace (i - a <=? msb - a) with true in B2 by lia.
    cbn in B2. replace (a + (i - a)) with i in B2 by lia. congruence.
  - apply IH; auto; lia.
Qed.

Theorem tiling_determines : forall fs w v1 v2, tiles 0 fs w ->
  0 <= v1 < 2 ^ w -> 0 <= v2 < 2 ^ w ->
  Forall (fun f => get_int_value (fst f) (snd f) v1 = get_int_value (fst f) (snd f) v2) fs ->
  v1 = v2.
Proof.
  intros fs w v1 v2 HT H1 H2 HF. apply Z.bits_inj'. intros i Hi.
  destruct (Z_lt_ge_dec i w).
  - eapply tiles_bits; eauto; lia.
  - rewrite <- (Z.mod_small v1 (2 ^ w)), <- (Z.mod_small v2 (2 ^ w)) by assumption.
    destruct (Z_lt_ge_dec w 0).
    + rewrite Z.pow_neg_r in H1 by lia. lia.
    + rewrite !Z.mod_pow2_bits_high by lia. reflexivity.
Qed.

(** ** Flags declarations *)

Lemma parse_entry_ok : forall e rest, parse_flags_entry (entry_args e ++ rest) =
  Ok (fst (entry_field e), snd (entry_field e), rest).
Proof. intros [lsb [m|] [t|] name] rest; reflexivity. Qed.

Lemma parse_entry_inv : forall args name fld rest, parse_flags_entry args = Ok (name, fld, rest) ->
  exists e, args = entry_args e ++ rest /\ entry_field e = (name, fld).
Proof.
  intros args name fld rest H. unfold parse_flags_entry in H.
  destruct args as [|[lsb| | |] [|x r2]]; try discriminate.
  destruct x as [m|t|s|]; cbn [bind] in H; try discriminate.
  - destruct r2 as [|[?|t|s|] r4]; cbn [bind] in H; try discriminate.
    + destruct r4 as [|[| |s|] r6]; try discriminate. inversion H; subst.
      exists (mkEntry lsb (Some m) (Some t) name). auto.
    + inversion H; subst. exists (mkEntry lsb (Some m) None name). auto.
  - destruct r2 as [|[| |s|] r6]; try discriminate. inversion H; subst.
    exists (mkEntry lsb None (Some t) name). auto.
  - inversion H; subst. exists (mkEntry lsb None None name). auto.
Qed.

Lemma parse_entry_error : forall args e, parse_flags_entry args = Raise e -> e = AssertionError.
Proof.
  intros args e H. unfold parse_flags_entry in H.
  destruct args as [|[lsb| | |] [|x r2]]; try congruence.
  destruct x as [m|t|s|]; cbn [bind] in H; try congruence.
  - destruct r2 as [|[?|t|s|] r4]; cbn [bind] in H; try congruence.
    destruct r4 as [|[| |s|] r6]; congruence.
  - destruct r2 as [|[| |s|] r6]; congruence.
Qed.

Lemma entry_args_length : forall e, (2 <= List.length (entry_args e))%nat.
Proof. intros [? [?|] [?|] ?]; cbn; lia. Qed.

Lemma parse_loop_declared : forall es fuel, (List.length (declared es) <= fuel)%nat ->
  parse_flags_loop fuel (declared es) = (map entry_field es, Finished).
Proof.
  induction es as [|e es IH]; intros fuel Hf.
  - destruct fuel; reflexivity.
  - unfold declared in *. cbn [map concat] in *. fold (declared es) in *.
    pose proof (entry_args_length e) as HL. rewrite app_length in Hf.
    destruct fuel as [|k]; [lia|].
    cbn [parse_flags_loop]. rewrite parse_entry_ok.
    destruct (entry_args e ++ declared es) eqn:E.
    { apply (f_equal (@List.length _)) in E. rewrite app_length in E. cbn in E. lia. }
    fold (declared es) in IH. rewrite IH by (unfold declared in *; lia). cbn [gcons fst snd].
    destruct (entry_field e); reflexivity.
Qed.

Lemma parse_loop_inv : forall fuel args flds o, parse_flags_loop fuel args = (flds, o) ->
  (List.length args <= fuel)%nat ->
  exists es rest, args = declared es ++ rest /\ flds = map entry_field es /\
    ((rest = [] /\ o = Finished) \/
     (rest <> [] /\ o = Failed AssertionError /\ forall e r, rest <> entry_args e ++ r)).
Proof.
  induction fuel as [|k IH]; intros args flds o H HL.
  - destruct args; [|cbn in HL; lia]. inversion H; subst. exists [], []. auto.
  - destruct args as [|a args].
    + inversion H; subst. exists [], []. auto.
    + cbn [parse_flags_loop] in H. destruct (parse_flags_entry (a :: args)) as [[[name fld] rest]|e] eqn:E.
      * apply parse_entry_inv in E as (en & EA & EF).
        destruct (parse_flags_loop k rest) as [flds' o'] eqn:E'. inversion H; subst.
        pose proof (entry_args_length en) as HE.
        assert (HR : (List.length rest <= k)%nat).
        { rewrite EA in HL. rewrite app_length in HL. lia. }
        destruct (IH _ _ _ E' HR) as (es & rest' & E1 & E2 & E3).
        exists (en :: es), rest'. split.
        { rewrite EA, E1. unfold declared. cbn [map concat]. now rewrite app_assoc. }
        split; [cbn; now rewrite EF, E2|exact E3].
      * pose proof (parse_entry_error _ _ E) as ->. inversion H; subst. exists [], (a :: args).
        repeat split; auto. right. split; [discriminate|]. split; [reflexivity|].
        intros e r EQ. rewrite EQ, parse_entry_ok in E. discriminate.
Qed.

Theorem flags_parse_iff : forall args flds,
  parse_flags_args args = (flds, Finished) <-> exists es, args = declared es /\ flds = map entry_field es.
Proof.
  intros args flds. split.
  - intros H. destruct (parse_loop_inv _ _ _ _ H ltac:(lia)) as (es & rest & E1 & E2 & [[E3 _]|(_ & E & _)]);
      [|discriminate]. subst rest. rewrite app_nil_r in E1. eauto.
  - intros (es & -> & ->). apply parse_loop_declared. lia.
Qed.

Theorem flags_reject : forall args, (forall es, args <> declared es) ->
  exists flds, parse_flags_args args = (flds, Failed AssertionError) /\
               make_flags args = Raise AssertionError.
Proof.
  intros args HN. destruct (parse_flags_args args) as [flds o] eqn:E.
  destruct (parse_loop_inv _ _ _ _ E ltac:(lia)) as (es & rest & E1 & E2 & [[E3 _]|(_ & -> & _)]).
  - subst rest. rewrite app_nil_r in E1. elim (HN es E1).
  - exists flds. split; [reflexivity|]. unfold make_flags. now rewrite E.
Qed.

Lemma dict_get_set : forall V k k' (v : V) d, dict_get k (dict_set k' v d) =
  if String.eqb k k' then Some v else dict_get k d.
Proof.
  intros V k k' v d. induction d as [|[k0 v0] d IH]; cbn [dict_set dict_get].
  - reflexivity.
  - destruct (String.eqb k' k0) eqn:E0; cbn [dict_get].
    + apply String.eqb_eq in E0. subst k0. destruct (String.eqb k k'); reflexivity.
    + rewrite IH. destruct (String.eqb k k0) eqn:E1; [|reflexivity].
      destruct (String.eqb k k') eqn:E2; [|reflexivity].
      apply String.eqb_eq in E1. apply String.eqb_eq in E2. subst. rewrite String.eqb_refl in E0. discriminate.
Qed.

Lemma dict_of_get : forall V (l : list (string * V)) n,
  dict_get n (dict_of l) =
  fold_left (fun acc kv => if String.eqb n (fst kv) then Some (snd kv) else acc) l None.
Proof.
  intros V l n. unfold dict_of.
  assert (H : forall (l d : list (string * V)), dict_get n (fold_left (fun d kv => dict_set (fst kv) (snd kv) d) l d) =
              fold_left (fun acc kv => if String.eqb n (fst kv) then Some (snd kv) else acc) l (dict_get n d)).
  { clear. induction l as [|[k v] l IH]; intros d; [reflexivity|]. cbn [fold_left fst snd].
    rewrite IH, dict_get_set. reflexivity. }
  rewrite H. reflexivity.
Qed.

Lemma dict_set_notin : forall V k (v : V) d, ~ In k (map fst d) -> dict_set k v d = d ++ [(k, v)].
Proof.
  intros V k v d. induction d as [|[k0 v0] d IH]; intros H; [reflexivity|]. cbn in *.
  destruct (String.eqb k k0) eqn:E; [apply String.eqb_eq in E; subst; tauto|]. rewrite IH; tauto.
Qed.

Lemma dict_of_nodup : forall V (l : list (string * V)), NoDup (map fst l) -> dict_of l = l.
Proof.
  intros V l. unfold dict_of.
  assert (H : forall (l d : list (string * V)), NoDup (map fst (d ++ l)) ->
              fold_left (fun d kv => dict_set (fst kv) (snd kv) d) l d = d ++ l).
  { clear. induction l as [|[k v] l IH]; intros d H; [now rewrite app_nil_r|]. cbn [fold_left fst snd].
    rewrite dict_set_notin.
    - rewrite IH; rewrite <- app_assoc; [reflexivity|exact H].
    - rewrite map_app in H. apply NoDup_remove_2 in H. intros HI. apply H. apply in_or_app. now left. }
  intros HN. rewrite H; [reflexivity|exact HN].
Qed.

Theorem flags_type_fields : forall es,
  exists d, make_flags (declared es) = Ok d /\
    (forall n, dict_get n d = last_named n (map entry_field es)) /\
    (NoDup (map fe_name es) -> d = map entry_field es).
Proof.
  intros es. unfold make_flags, parse_flags_args. rewrite parse_loop_declared by lia.
  eexists. split; [reflexivity|]. split.
  - intros n. apply dict_of_get.
  - intros HN. apply dict_of_nodup. rewrite map_map. exact HN.
Qed.

(** ** Enumerations *)

Lemma zmem_in : forall z l, zmem z l = true <-> In z l.
Proof.
  intros. unfold zmem. rewrite existsb_exists. split.
  - intros (x & H & E). apply Z.eqb_eq in E. now subst.
  - intros H. exists z. split; [exact H|apply Z.eqb_refl].
Qed.

Lemma enumerate_pairs : forall items i, enumerate_from i items =
  combine items (map (fun k => i + Z.of_nat k) (seq 0 (List.length items))).
Proof.
  induction items as [|n items IH]; intros i; [reflexivity|].
  cbn [enumerate_from List.length seq map combine]. rewrite Z.add_0_r, IH. f_equal. f_equal.
  rewrite <- seq_shift, map_map. apply map_ext. intros k. lia.
Qed.

Lemma make_enum_pairs : forall items more, make_enum items more =
  enum_define_all (mkEnum [] [] []) (enum_pairs items more).
Proof. intros. unfold make_enum, enum_pairs. rewrite enumerate_pairs. reflexivity. Qed.

(** invariant: the state after declaring [done] *)
Definition enum_inv (done : list (string * Z)) (st : enum_state) : Prop :=
  en_instances_by_name st = done /\
  (forall v, In v (en_values st) <-> In v (map snd done)) /\
  (forall v, zdict_get v (en_names_by_instance st) = first_name done v).

Lemma dict_get_none : forall V (d : list (string * V)) k, dict_get k d = None <-> ~ In k (map fst d).
Proof.
  intros V d k. induction d as [|[k0 v0] d IH]; cbn.
  - tauto.
  - destruct (String.eqb k k0) eqn:E.
    + apply String.eqb_eq in E. subst. split; [discriminate|tauto].
    + apply String.eqb_neq in E. rewrite IH. split; [intros H [H'|H']; congruence || tauto|tauto].
Qed.

Lemma first_name_app : forall l1 l2 v, first_name (l1 ++ l2) v =
  match first_name l1 v with Some n => Some n | None => first_name l2 v end.
Proof.
  intros. unfold first_name. induction l1 as [|[n z] l1 IH]; [reflexivity|]. cbn.
  destruct (z =? v); [reflexivity|exact IH].
Qed.

Lemma first_name_none : forall l v, first_name l v = None <-> ~ In v (map snd l).
Proof.
  intros l v. unfold first_name. induction l as [|[n z] l IH]; cbn; [tauto|].
  destruct (z =? v) eqn:E.
  - apply Z.eqb_eq in E. split; [discriminate|tauto].
  - apply Z.eqb_neq in E. rewrite IH. tauto.
Qed.

Lemma zdict_get_app : forall V (d1 d2 : list (Z * V)) k, zdict_get k (d1 ++ d2) =
  match zdict_get k d1 with Some v => Some v | None => zdict_get k d2 end.
Proof.
  intros V d1 d2 k. induction d1 as [|[k' v'] d1 IH]; cbn; [reflexivity|]. destruct (k =? k'); auto.
Qed.

Lemma enum_define_inv : forall done st n v, enum_inv done st -> ~ In n (map fst done) ->
  exists st', enum_define st n v = Ok st' /\ enum_inv (done ++ [(n, v)]) st'.
Proof.
  intros done st n v (I1 & I2 & I3) HN. unfold enum_define. rewrite I1.
  apply dict_get_none in HN. rewrite HN.
  destruct (zmem v (en_values st)) eqn:E; eexists; (split; [reflexivity|]); unfold enum_inv; cbn [en_instances_by_name en_values en_names_by_instance].
  - split; [reflexivity|]. split.
    + intros w. rewrite I2, map_app, in_app_iff. cbn. split; [tauto|]. intros [H|[H|[]]]; [exact H|].
      subst w. apply I2. now apply zmem_in.
    + intros w. rewrite I3, first_name_app. destruct (first_name done w) eqn:EF; [reflexivity|].
      unfold first_name. cbn. destruct (v =? w) eqn:EV; [|reflexivity]. apply Z.eqb_eq in EV. subst w.
      exfalso. apply first_name_none in EF. apply EF, I2. now apply zmem_in.
  - split; [reflexivity|]. split.
    + intros w. rewrite !map_app, !in_app_iff, I2. cbn. tauto.
    + intros w. rewrite zdict_get_app, first_name_app, I3. destruct (first_name done w); [reflexivity|].
      unfold first_name. cbn. rewrite (Z.eqb_sym w v). destruct (v =? w); reflexivity.
Qed.

Lemma enum_define_dup : forall done st n v, enum_inv done st -> In n (map fst done) ->
  enum_define st n v = Raise AssertionError.
Proof.
  intros done st n v (I1 & _) HI. unfold enum_define. rewrite I1.
  destruct (dict_get n done) eqn:E; [reflexivity|]. apply dict_get_none in E. tauto.
Qed.

Lemma enum_all_spec : forall pairs done st, enum_inv done st -> NoDup (map fst done) ->
  (NoDup (map fst (done ++ pairs)) ->
     exists st', enum_define_all st pairs = Ok st' /\ enum_inv (done ++ pairs) st') /\
  (~ NoDup (map fst (done ++ pairs)) -> enum_define_all st pairs = Raise AssertionError).
Proof.
  induction pairs as [|[n v] pairs IH]; intros done st HI HD.
  - rewrite app_nil_r. cbn. split; [eauto|tauto].
  - cbn [enum_define_all].
    destruct (in_dec string_dec n (map fst done)) as [HIn|HOut].
    + rewrite (enum_define_dup _ _ _ _ HI HIn). cbn [bind]. split; [|reflexivity].
      intros HN. exfalso. rewrite map_app in HN. cbn in HN. apply NoDup_remove_2 in HN.
      apply HN, in_or_app. now left.
    + destruct (enum_define_inv done st n v HI HOut) as (st' & E & HI'). rewrite E. cbn [bind].
      specialize (IH (done ++ [(n, v)]) st' HI').
      rewrite <- app_assoc in IH. apply IH.
      rewrite map_app. cbn. apply NoDup_rev in HD. rewrite <- (rev_involutive (map fst done ++ [n])).
      apply NoDup_rev. rewrite rev_app_distr. cbn. constructor; [|exact HD].
      intros H. apply HOut. now apply in_rev.
Qed.

Lemma enum_inv_init : enum_inv [] (mkEnum [] [] []).
Proof. unfold enum_inv. cbn. repeat split; intros; tauto || reflexivity. Qed.

Theorem enum_correct : forall items more,
  (NoDup (map fst (enum_pairs items more)) ->
   exists st, make_enum items more = Ok st /\
     forall v, enum_int (enum_call st v) = v /\
               enum_name st (enum_call st v) = first_name (enum_pairs items more) v /\
               (enum_call st v = Declared v <-> In v (map snd (enum_pairs items more))) /\
               enum_call_obj st (enum_call st v) = enum_call st v /\
               enum_call st (enum_int (enum_call st v)) = enum_call st v) /\
  (~ NoDup (map fst (enum_pairs items more)) -> make_enum items more = Raise AssertionError).
Proof.
  intros items more. rewrite make_enum_pairs.
  destruct (enum_all_spec (enum_pairs items more) [] _ enum_inv_init (NoDup_nil _)) as [H1 H2].
  split; [|exact H2]. intros HN. destruct (H1 HN) as (st & E & I1 & I2 & I3). exists st.
  split; [exact E|]. intros v.
  assert (EI : enum_int (enum_call st v) = v) by (unfold enum_call; destruct (zmem v (en_values st)); reflexivity).
  split; [exact EI|]. split; [unfold enum_name; rewrite EI; apply I3|]. split.
  - rewrite <- (I2 v : _ <-> In v (map snd (enum_pairs items more))), <- zmem_in. unfold enum_call.
    destruct (zmem v (en_values st)); split; congruence.
  - split; [reflexivity|]. now rewrite EI.
Qed.

(** ** Hex dump *)

Lemma hexval_hexdigit : forall d, is_digit 16 d -> hexval (hexdigit_lower d) = Some d.
Proof.
  unfold is_digit. intros d H. unfold hexdigit_lower, hexval.
  destruct (d <? 10) eqn:E.
  - replace ((48 <=? 48 + d) && (48 + d <=? 57)) with true by lia. f_equal. lia.
  - replace ((48 <=? 87 + d) && (87 + d <=? 57)) with false by lia.
    replace ((97 <=? 87 + d) && (87 + d <=? 102)) with true by lia. f_equal. lia.
Qed.

Lemma fmt_x2_byte : forall b, is_byte b -> exists x y, fmt_x 2 b = [hexdigit_lower x; hexdigit_lower y] /\
  is_digit 16 x /\ is_digit 16 y /\ 16 * x + y = b.
Proof.
  unfold is_byte. intros b Hb. destruct (fmt_x_digits 2 b ltac:(lia)) as (ds & E & V & F & L).
  pose proof (digits_length 16 b 2 ltac:(lia) ltac:(lia) ltac:(lia)) as HL.
  replace (Z.max 2 (zlen (digits 16 b))) with 2 in L by lia.
  destruct ds as [|x [|y [|z ds]]]; try (unfold zlen in L; cbn in L; lia).
  exists x, y. rewrite E. inversion F as [|? ? Fx F']; subst. inversion F' as [|? ? Fy _]; subst.
  unfold of_digits in *. cbn [fold_left] in *. repeat split; auto; unfold is_digit in *; lia.
Qed.

Lemma parse_hex_line_ok : forall data, all_bytes data -> parse_hex_line (hex_line data) = Some data.
Proof.
  intros data H. unfold hex_line. induction H as [|b data Hb Hd IH]; [reflexivity|].
  destruct (fmt_x2_byte b Hb) as (x & y & E & Fx & Fy & V).
  cbn [map]. destruct data as [|c data].
  - cbn [map join]. rewrite E. cbn [parse_hex_line]. rewrite !hexval_hexdigit by assumption. now rewrite V.
  - cbn [map] in *. rewrite join_cons2, E. cbn [app]. cbn [parse_hex_line].
    rewrite !hexval_hexdigit by assumption.
    rewrite IH, zlen_cons, V. pose proof (zlen_nonneg _ data).
    replace ((32 =? 32) && (0 <? 1 + zlen data)) with true by lia. reflexivity.
Qed.

Definition chunk16 := cut16_ok.

Lemma dump_chunks : forall fuel crust off data, (List.length data <= fuel)%nat ->
  exists chunks, dumpbytes_loop fuel crust off data =
     (map (fun p => crust_prefix crust (off + Z.of_nat (fst p)) ++ hex_line (snd p))
          (combine (seq 0 (List.length chunks)) chunks), Finished) /\
     concat chunks = data /\ cut16_ok chunks /\
     (forall c, In c chunks -> c = [] -> data = []).
Proof.
  induction fuel as [|k IH]; intros crust off data HL.
  - destruct data; [|cbn in HL; lia]. cbn. exists [[]]. cbn. rewrite Z.add_0_r. repeat split; auto. lia.
  - cbn [dumpbytes_loop]. destruct (16 <? zlen data) eqn:E.
    + assert (HT : zlen (ztake 16 data) = 16) by (rewrite zlen_ztake; lia).
      pose proof (zlen_zdrop _ 16 data) as HD.
      destruct (IH crust (off + 1) (zdrop 16 data)) as (chunks & E1 & E2 & E3 & E4).
      { unfold zlen in *. lia. }
      exists (ztake 16 data :: chunks). split; [|split; [|split]].
      * rewrite E1. cbn [List.length seq combine map fst snd]. unfold gcons. cbn [fst snd]. f_equal. f_equal.
        { now rewrite Z.add_0_r. }
        rewrite <- seq_shift.
        assert (HM : forall (l : list nat) (m : list (list Z)),
          combine (map S l) m = map (fun p => (S (fst p), snd p)) (combine l m)).
        { induction l; intros [|? ?]; cbn; congruence. }
        rewrite HM, map_map. apply map_ext. intros [i c]. cbn [fst snd]. do 2 f_equal. lia.
      * cbn [concat]. rewrite E2. apply ztake_zdrop.
      * cbn [cut16_ok]. destruct chunks; [destruct E3|]. split; [exact HT|exact E3].
      * intros c [<-|Hc] Ec; [rewrite Ec in HT; cbn in HT; lia|].
        pose proof (E4 c Hc Ec) as HX. rewrite HX, zlen_nil in HD. lia.
    + exists [data]. cbn [List.length seq combine map fst snd Z.of_nat]. rewrite Z.add_0_r.
      repeat split; auto.
      * cbn. now rewrite app_nil_r.
      * cbn. lia.
      * intros c [<-|[]]; auto.
Qed.

Lemma all_bytes_chunks : forall chunks data, concat chunks = data -> all_bytes data ->
  Forall all_bytes chunks.
Proof.
  induction chunks as [|c chunks IH]; intros data E H; constructor; cbn in E; subst data; apply all_bytes_app in H.
  - tauto.
  - eapply IH; [reflexivity|tauto].
Qed.

Theorem hexdump_plain : forall data, all_bytes data ->
  exists chunks, snd (dumpbytes data false) = Finished /\
    map parse_hex_line (fst (dumpbytes data false)) = map Some chunks /\
    concat chunks = data /\ cut16_ok chunks /\ (forall c, In c chunks -> c = [] -> data = []).
Proof.
  intros data Hb. destruct (dump_chunks (List.length data) false 0 data ltac:(lia)) as (chunks & E1 & E2 & E3 & E4).
  exists chunks. unfold dumpbytes, gapp. rewrite E1. cbn [fst snd]. repeat split; auto.
  cbn [app crust_prefix]. rewrite map_map.
  pose proof (all_bytes_chunks _ _ E2 Hb) as HF. clear - HF.
  assert (HG : forall k, map (fun x => parse_hex_line (hex_line (snd x))) (combine (seq k (List.length chunks)) chunks) = map Some chunks).
  { induction HF as [|c chunks Hc HF IH]; intros k; [reflexivity|].
    cbn [List.length seq combine map snd]. rewrite parse_hex_line_ok by assumption. f_equal. apply IH. }
  apply HG.
Qed.

Lemma hexdigit_not_colon : forall d, is_digit 16 d -> hexdigit_lower d <> 58.
Proof. unfold is_digit, hexdigit_lower. intros d H. destruct (d <? 10) eqn:E; lia. Qed.

Lemma parse_offset_digits : forall ds acc data, Forall (is_digit 16) ds -> all_bytes data ->
  parse_offset_line acc (map hexdigit_lower ds ++ 58 :: 32 :: hex_line data) =
  Some (fold_left (fun a d => a * 16 + d) ds acc, data).
Proof.
  intros ds acc data F Hb. revert acc. induction F as [|d ds Hd F IH]; intros acc.
  - cbn [map app parse_offset_line fold_left]. rewrite parse_hex_line_ok by assumption. reflexivity.
  - cbn [map app fold_left]. replace (acc * 16 + d) with (16 * acc + d) by lia. rewrite <- IH.
    pose proof (hexdigit_not_colon d Hd) as NC. pose proof (hexval_hexdigit d Hd) as HV.
    cbn [parse_offset_line]. rewrite HV. replace (hexdigit_lower d =? 58) with false by lia. reflexivity.
Qed.

Theorem hexdump_crust : forall data, all_bytes data ->
  exists chunks header, snd (dumpbytes data true) = Finished /\
    fst (dumpbytes data true) = header :: tl (fst (dumpbytes data true)) /\
    map (parse_offset_line 0) (tl (fst (dumpbytes data true))) =
      map (fun p => Some (16 * Z.of_nat (fst p), snd p)) (combine (seq 0 (List.length chunks)) chunks) /\
    concat chunks = data /\ cut16_ok chunks.
Proof.
  intros data Hb. destruct (dump_chunks (List.length data) true 0 data ltac:(lia)) as (chunks & E1 & E2 & E3 & E4).
  exists chunks. unfold dumpbytes, gapp. rewrite E1. cbn [fst snd app tl]. eexists. repeat split; auto.
  rewrite map_map. apply map_ext_in. intros [i c] HIn. cbn [fst snd].
  assert (Hc : all_bytes c).
  { apply in_combine_r in HIn. pose proof (all_bytes_chunks _ _ E2 Hb) as HF.
    rewrite Forall_forall in HF. auto. }
  unfold crust_prefix. destruct (fmt_x_digits 5 (0 + Z.of_nat i) ltac:(lia)) as (ds & Eds & V & F & _).
  rewrite Eds. replace ((map hexdigit_lower ds ++ zs "0: ") ++ hex_line c)
    with (map hexdigit_lower (ds ++ [0]) ++ 58 :: 32 :: hex_line c).
  2:{ rewrite map_app, <- !app_assoc. reflexivity. }
  rewrite parse_offset_digits; [|apply Forall_app; split; [exact F|constructor; [unfold is_digit; lia|constructor]]|exact Hc].
  rewrite fold_left_app. cbn [fold_left]. fold (of_digits 16 ds). rewrite V. do 2 f_equal. lia.
Qed.

(** ** Colours *)

Lemma land_byte : forall v k, 0 <= k -> Z.shiftr (Z.land v (Z.shiftl 0xff k)) k = (v / 2 ^ k) mod 256.
Proof.
  intros v k Hk. rewrite Z.shiftr_land, Z.shiftr_shiftl_l, Z.sub_diag, Z.shiftl_0_r by lia.
  change 0xff with (Z.ones 8). rewrite Z.land_ones, Z.shiftr_div_pow2 by lia. reflexivity.
Qed.

Theorem color_parts : forall b0 b1 b2 b3, is_byte b0 -> is_byte b1 -> is_byte b2 -> is_byte b3 ->
  forall pos rest, exists v, prim_read INT32 (mkStream ([b0; b1; b2; b3] ++ rest) pos) = (Ok v, mkStream rest (pos + 4)) /\
    color_r v = b0 /\ color_g v = b1 /\ color_b v = b2 /\ color_a v = b3 /\
    parse_color (color_str v) = Some (b0, b1, b2).
Proof.
  intros b0 b1 b2 b3 H0 H1 H2 H3 pos rest.
  destruct (prim_read_exact INT32 [b0; b1; b2; b3] rest pos) as (v & E & R & B & _).
  { cbn; lia. } { repeat constructor; unfold is_byte in *; lia. } { reflexivity. }
  exists v. split; [exact E|]. unfold number_bytes in B. cbn [fmt_width INT32 seq map] in B.
  unfold byte_of in B. inversion B as [[B0 B1 B2 B3]].
  assert (Er : color_r v = b0).
  { unfold color_r. change 0xff with (Z.ones 8). rewrite Z.land_ones by lia. rewrite <- B0.
    change (256 ^ Z.of_nat 0) with 1. now rewrite Z.div_1_r. }
  assert (Eg : color_g v = b1).
  { unfold color_g. change 0xff00 with (Z.shiftl 0xff 8). rewrite land_byte by lia. exact B1. }
  assert (Eb : color_b v = b2).
  { unfold color_b. change 0xff0000 with (Z.shiftl 0xff 16). rewrite land_byte by lia. exact B2. }
  assert (Ea : color_a v = b3).
  { unfold color_a. change 0xff000000 with (Z.shiftl 0xff 24). rewrite land_byte by lia. exact B3. }
  rewrite B0, B1, B2, B3.
  repeat split; auto.
  unfold color_str. rewrite Er, Eg, Eb.
  destruct (fmt_x2_byte b0 H0) as (x0 & y0 & F0 & X0 & Y0 & V0).
  destruct (fmt_x2_byte b1 H1) as (x1 & y1 & F1 & X1 & Y1 & V1).
  destruct (fmt_x2_byte b2 H2) as (x2 & y2 & F2 & X2 & Y2 & V2).
  rewrite F0, F1, F2. cbn [app parse_color]. rewrite !hexval_hexdigit by assumption.
  now rewrite V0, V1, V2.
Qed.
