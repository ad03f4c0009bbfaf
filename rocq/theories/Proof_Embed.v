(** Proofs about embedded binary data. *)
From Coq Require Import ZArith String List Bool Lia.
From Verif Require Import Base BaseFacts Model_Text Spec_Text Proof_Text Model_Dataio Proof_Dataio Model_Bintype Model_Layouts Model_Models Spec_Bintype Spec_Models Spec_Layouts Proof_Models Proof_Layouts Model_Embed Spec_Embed.
Import ListNotations.
Open Scope string_scope.
Open Scope list_scope.
Open Scope Z_scope.

(** ** Base64 *)

Definition upto (n : nat) : list Z := map Z.of_nat (seq 0 n).
Lemma upto_in : forall n z, 0 <= z < Z.of_nat n -> In z (upto n).
Proof. intros n z H. unfold upto. apply in_map_iff. exists (Z.to_nat z). split; [lia|]. apply in_seq. lia. Qed.

Lemma b64_value_char : forall v, 0 <= v < 64 -> b64_value (b64_char v) = Some v /\ b64_char v <> 61.
Proof.
  assert (H : forallb (fun v => match b64_value (b64_char v) with Some w => (w =? v) && negb (b64_char v =? 61) | None => false end) (upto 64) = true)
    by (vm_compute; reflexivity).
  rewrite forallb_forall in H. intros v Hv. specialize (H v (upto_in 64 v Hv)). destruct (b64_value (b64_char v)) as [w|]; [|discriminate].
  apply andb_prop in H. destruct H as [H1 H2]. apply Z.eqb_eq in H1. apply negb_true_iff, Z.eqb_neq in H2. subst. auto.
Qed.

Lemma lor_4 : forall x y, 0 <= x < 4 -> 0 <= y < 16 -> Z.lor (Z.shiftl x 4) y = x * 16 + y.
Proof.
  assert (H : forallb (fun x => forallb (fun y => Z.lor (Z.shiftl x 4) y =? x * 16 + y) (upto 16)) (upto 4) = true) by (vm_compute; reflexivity).
  rewrite forallb_forall in H. intros x y Hx Hy. specialize (H x (upto_in 4 x Hx)). rewrite forallb_forall in H.
  apply Z.eqb_eq. exact (H y (upto_in 16 y Hy)).
Qed.

Lemma lor_2 : forall x y, 0 <= x < 16 -> 0 <= y < 4 -> Z.lor (Z.shiftl x 2) y = x * 4 + y.
Proof.
  assert (H : forallb (fun x => forallb (fun y => Z.lor (Z.shiftl x 2) y =? x * 4 + y) (upto 4)) (upto 16) = true) by (vm_compute; reflexivity).
  rewrite forallb_forall in H. intros x y Hx Hy. specialize (H x (upto_in 16 x Hx)). rewrite forallb_forall in H.
  apply Z.eqb_eq. exact (H y (upto_in 4 y Hy)).
Qed.

Lemma shr2 : forall a, Z.shiftr a 2 = a / 4. Proof. intros. now rewrite Z.shiftr_div_pow2 by lia. Qed.
Lemma shr4 : forall a, Z.shiftr a 4 = a / 16. Proof. intros. now rewrite Z.shiftr_div_pow2 by lia. Qed.
Lemma shr6 : forall a, Z.shiftr a 6 = a / 64. Proof. intros. now rewrite Z.shiftr_div_pow2 by lia. Qed.
Lemma land3 : forall a, Z.land a 3 = a mod 4. Proof. intros. exact (Z.land_ones a 2 ltac:(lia)). Qed.
Lemma land15 : forall a, Z.land a 15 = a mod 16. Proof. intros. exact (Z.land_ones a 4 ltac:(lia)). Qed.
Lemma land63 : forall a, Z.land a 63 = a mod 64. Proof. intros. exact (Z.land_ones a 6 ltac:(lia)). Qed.
Lemma shl4 : forall a, Z.shiftl a 4 = a * 16. Proof. intros. now rewrite Z.shiftl_mul_pow2 by lia. Qed.
Lemma shl2 : forall a, Z.shiftl a 2 = a * 4. Proof. intros. now rewrite Z.shiftl_mul_pow2 by lia. Qed.

Ltac eucl := Z.to_euclidean_division_equations; lia.

Lemma triple_encode : forall a b c r, is_byte a -> is_byte b -> is_byte c ->
  b64encode (a :: b :: c :: r) =
    b64_char (a / 4) :: b64_char (a mod 4 * 16 + b / 16) :: b64_char (b mod 16 * 4 + c / 64) :: b64_char (c mod 64) :: b64encode r.
Proof.
  unfold is_byte. intros a b c r Ha Hb Hc. cbn [b64encode app]. rewrite shr2, land3, shr4, land15, shr6, land63.
  rewrite lor_4, lor_2 by eucl. reflexivity.
Qed.

Lemma b64_decode_full : forall c0 c1 c2 c3 r v0 v1 v2 v3, b64_value c0 = Some v0 -> b64_value c1 = Some v1 -> b64_value c2 = Some v2 ->
  b64_value c3 = Some v3 -> c3 <> 61 ->
  b64_decode (c0 :: c1 :: c2 :: c3 :: r) =
    match b64_decode r with
    | Some rest => let n := v0 * 262144 + v1 * 4096 + v2 * 64 + v3 in Some (n / 65536 :: n / 256 mod 256 :: n mod 256 :: rest)
    | None => None
    end.
Proof.
  intros c0 c1 c2 c3 r v0 v1 v2 v3 H0 H1 H2 H3 H. cbn [b64_decode]. rewrite H0, H1, H2, H3.
  destruct (c3 =? 61) eqn:E; [apply Z.eqb_eq in E; contradiction|]. reflexivity.
Qed.

Theorem b64_roundtrip : forall data, all_bytes data -> b64_decode (b64encode data) = Some data.
Proof.
  assert (H : forall n data, (length data <= n)%nat -> all_bytes data -> b64_decode (b64encode data) = Some data).
  { induction n as [|n IH]; intros data Hn Hd.
    - destruct data; [reflexivity|cbn in Hn; lia].
    - destruct data as [|a [|b [|c r]]]; [reflexivity| | |].
      + inversion Hd as [|? ? Ha _]; subst. unfold is_byte in Ha. cbn [b64encode]. rewrite shr2, land3, shl4.
        destruct (b64_value_char (a / 4)) as [E0 _]; [eucl|]. destruct (b64_value_char (a mod 4 * 16)) as [E1 _]; [eucl|].
        cbn [b64_decode]. rewrite E0, E1. cbn [Z.eqb Pos.eqb].
        replace (a mod 4 * 16 mod 16 =? 0) with true by (symmetry; apply Z.eqb_eq; eucl). do 2 f_equal. eucl.
      + inversion Hd as [|? ? Ha Hd2]; subst. inversion Hd2 as [|? ? Hb _]; subst. unfold is_byte in Ha, Hb.
        cbn [b64encode]. rewrite shr2, land3, shr4, land15, shl2, lor_4 by eucl.
        destruct (b64_value_char (a / 4)) as [E0 _]; [eucl|]. destruct (b64_value_char (a mod 4 * 16 + b / 16)) as [E1 _]; [eucl|].
        destruct (b64_value_char (b mod 16 * 4)) as [E2 N2]; [eucl|].
        cbn [b64_decode]. rewrite E0, E1. change (61 =? 61) with true. cbv iota.
        destruct (b64_char (b mod 16 * 4) =? 61) eqn:X; [apply Z.eqb_eq in X; contradiction|]. rewrite E2. cbv zeta.
        match goal with |- (if ?x then _ else _) = _ => replace x with true by (symmetry; apply Z.eqb_eq; eucl) end.
        do 2 f_equal; [eucl|]. f_equal. eucl.
      + inversion Hd as [|? ? Ha Hd2]; subst. inversion Hd2 as [|? ? Hb Hd3]; subst. inversion Hd3 as [|? ? Hc Hr]; subst.
        rewrite triple_encode by assumption. unfold is_byte in Ha, Hb, Hc.
        destruct (b64_value_char (a / 4)) as [E0 _]; [eucl|]. destruct (b64_value_char (a mod 4 * 16 + b / 16)) as [E1 _]; [eucl|].
        destruct (b64_value_char (b mod 16 * 4 + c / 64)) as [E2 _]; [eucl|]. destruct (b64_value_char (c mod 64)) as [E3 N3]; [eucl|].
        rewrite (b64_decode_full _ _ _ _ _ _ _ _ _ E0 E1 E2 E3 N3). rewrite (IH r) by (try assumption; cbn in Hn; lia).
        cbv zeta. f_equal. f_equal; [eucl|]. f_equal; [eucl|]. f_equal. eucl. }
  intros data Hd. exact (H _ _ (le_n _) Hd).
Qed.

(** ** Lines *)

Lemma truncate_ok : forall n s, (length s < n)%nat ->
  concat (truncate_lines n s) = s /\ lines_of_64 (truncate_lines n s) /\ (s <> [] -> truncate_lines n s <> []).
Proof.
  induction n as [|n IH]; intros s Hn; [lia|]. cbn [truncate_lines]. destruct s as [|x s]; [repeat split; congruence|].
  destruct (64 <? zlen (x :: s)) eqn:E.
  - apply Z.ltb_lt in E. assert (L : (length (zdrop 64 (x :: s)) < n)%nat).
    { assert (Q : zlen (zdrop 64 (x :: s)) = zlen (x :: s) - 64) by (rewrite zlen_zdrop; lia). unfold zlen in Q, E. lia. }
    destruct (IH _ L) as (I1 & I2 & I3). assert (N : zdrop 64 (x :: s) <> []).
    { intros Q. assert (Q' : zlen (zdrop 64 (x :: s)) = zlen (x :: s) - 64) by (rewrite zlen_zdrop; lia). rewrite Q in Q'. cbn in Q'. unfold zlen in *. cbn in *. lia. }
    specialize (I3 N). split; [|split].
    + cbn [concat]. rewrite I1. apply ztake_zdrop.
    + cbn [lines_of_64]. destruct (truncate_lines n (zdrop 64 (x :: s))) as [|l r] eqn:T; [congruence|]. split; [rewrite zlen_ztake; lia|exact I2].
    + congruence.
  - apply Z.ltb_ge in E. split; [cbn [concat]; apply app_nil_r|]. split; [|congruence]. cbn [lines_of_64]. unfold zlen in *. cbn [length] in *. lia.
Qed.

Lemma join_separated : forall l, join [10] l = separated l.
Proof. induction l as [|x [|y l] IH]; [reflexivity|reflexivity|]. rewrite join_cons2, IH. reflexivity. Qed.

Theorem b64_text_ok : forall data, all_bytes data -> base64_text (b64_text data) data.
Proof.
  intros data H. unfold b64_text. destruct (truncate_ok (S (length (b64encode data))) (b64encode data)) as (E1 & E2 & _); [lia|].
  exists (truncate_lines (S (length (b64encode data))) (b64encode data)). rewrite join_separated. split; [reflexivity|]. split; [exact E2|].
  rewrite E1. now apply b64_roundtrip.
Qed.

(** The characters of a text that holds bytes: base64 characters and newlines;
    dropping the newlines leaves what is decoded. *)
Lemma without_newlines : forall lines, Forall (fun l => ~ In 10 l) lines -> filter (fun c => negb (c =? 10)) (separated lines) = concat lines.
Proof.
  assert (F : forall l, ~ In 10 l -> filter (fun c => negb (c =? 10)) l = l).
  { induction l as [|c l IH]; intros H; [reflexivity|]. cbn [filter In] in *. destruct (c =? 10) eqn:E; [apply Z.eqb_eq in E; tauto|]. cbn [negb]. f_equal. apply IH. tauto. }
  induction 1 as [|l lines Hl Hs IH]; [reflexivity|]. destruct lines as [|m lines].
  - cbn [separated concat]. rewrite app_nil_r. now apply F.
  - change (separated (l :: m :: lines)) with (l ++ [10] ++ separated (m :: lines)). rewrite !filter_app, IH, (F l Hl). reflexivity.
Qed.

Lemma decode_no_newline : forall n s d, (length s <= n)%nat -> b64_decode s = Some d -> ~ In 10 s.
Proof.
  assert (V : forall c v, b64_value c = Some v -> c <> 10) by (intros c v H ->; discriminate).
  induction n as [|n IH]; intros s d Hn H; [destruct s; [intros []|cbn in Hn; lia]|].
  destruct s as [|c0 [|c1 [|c2 [|c3 r]]]]; try discriminate; [intros []|]. cbn [b64_decode] in H.
  destruct (b64_value c0) as [v0|] eqn:E0; [|discriminate]. destruct (b64_value c1) as [v1|] eqn:E1; [|discriminate].
  apply V in E0, E1. cbn [In]. destruct (c3 =? 61) eqn:X3.
  - apply Z.eqb_eq in X3. destruct r; [|discriminate]. destruct (c2 =? 61) eqn:X2; [apply Z.eqb_eq in X2; cbn; lia|].
    destruct (b64_value c2) as [v2|] eqn:E2; [|discriminate]. apply V in E2. cbn; lia.
  - destruct (b64_value c2) as [v2|] eqn:E2; [|discriminate]. destruct (b64_value c3) as [v3|] eqn:E3; [|discriminate]. apply V in E2, E3.
    destruct (b64_decode r) as [d'|] eqn:Er; [|discriminate]. assert (Hr : ~ In 10 r) by (apply (IH r d'); [cbn in Hn; lia|exact Er]).
    intros [Q|[Q|[Q|[Q|Q]]]]; try lia. contradiction.
Qed.

Theorem base64_text_decodes : forall t data, base64_text t data ->
  b64_decode (filter (fun c => negb (c =? 10)) t) = Some data.
Proof.
  intros t data (lines & -> & _ & D). rewrite !filter_app. cbn [filter Z.eqb Pos.eqb negb app]. rewrite app_nil_r, without_newlines; [exact D|].
  apply Forall_forall. intros l Hl Q. apply (decode_no_newline _ _ _ (le_n _) D). apply in_concat. exists l. auto.
Qed.

(** ** Names *)

Lemma hex_value_digit : forall d, is_digit 16 d -> hex_value (hexdigit_upper d) = Some d.
Proof.
  intros d H. unfold is_digit in H. assert (A : forallb (fun v => match hex_value (hexdigit_upper v) with Some w => w =? v | None => false end) (upto 16) = true)
    by (vm_compute; reflexivity).
  rewrite forallb_forall in A. specialize (A d (upto_in 16 d H)). destruct (hex_value (hexdigit_upper d)) as [w|]; [|discriminate].
  apply Z.eqb_eq in A. now subst.
Qed.

Lemma fmt_X_digits : forall w n, 0 <= n ->
  exists ds, fmt_X w n = map hexdigit_upper ds /\ of_digits 16 ds = n /\ Forall (is_digit 16) ds /\
             zlen ds = Z.max w (zlen (digits 16 n)).
Proof.
  intros w n Hn. destruct (digits_spec 16 n) as (E1 & E2 & E3 & _); [lia|lia|].
  exists (repeat_z 0 (w - zlen (digits 16 n)) ++ digits 16 n).
  unfold fmt_X, zero_pad. rewrite zlen_map, map_app, <- (repeat_z_map hexdigit_upper).
  split; [reflexivity|]. split; [now rewrite of_digits_zeros|]. split.
  - apply Forall_app. split; [apply zero_digits; lia|exact E2].
  - rewrite zlen_app, zlen_repeat_z. lia.
Qed.

Theorem name_ok : forall id ext, 0 <= id < 65536 -> stream_name id ext (bindata_name id ext).
Proof.
  intros id ext H. destruct (fmt_X_digits 4 id) as (ds & E1 & E2 & E3 & E4); [lia|].
  assert (L : zlen ds = 4) by (pose proof (digits_length 16 id 4); lia).
  exists (fmt_X 4 id). split; [|reflexivity]. rewrite E1. unfold zlen in L.
  destruct ds as [|d3 [|d2 [|d1 [|d0 [|x ds]]]]]; cbn in L; try lia.
  inversion E3 as [|? ? H3 E3a]; subst. inversion E3a as [|? ? H2 E3b]; subst. inversion E3b as [|? ? H1 E3c]; subst. inversion E3c as [|? ? H0 _]; subst.
  exists (hexdigit_upper d3), (hexdigit_upper d2), (hexdigit_upper d1), (hexdigit_upper d0), d3, d2, d1, d0.
  repeat split; try (now apply hex_value_digit). unfold of_digits. cbn [fold_left]. lia.
Qed.

(** ** Events *)

Lemma storage_flag_view : forall word flags groups x name, view_of word = Flags flags groups -> look "storage" groups = Some (x, name) ->
  storage_flag word = Ok x.
Proof.
  intros word flags groups x name Hw Hg. destruct word as [| |fields n| | | | | |]; try discriminate Hw. cbn [view_of] in Hw. injection Hw as _ Hw. subst groups.
  cbn [storage_flag]. unfold flag_field in *. induction fields as [|[k [[lsb msb] t]] fields IH]; [discriminate|]. cbn [map] in Hg. unfold look in *. cbn [find fst dict_get] in *.
  destruct (String.eqb "storage" k); [|now apply IH]. cbn in Hg. congruence.
Qed.

Lemma embed_event_ok : forall read e, (forall n d, read n = Ok d -> all_bytes d) -> event_of_record e -> embedding read e (embed_event read e).
Proof.
  intros read [st model attrs] HR HE. unfold event_of_record in HE. cbn [b_model b_attrs] in HE. unfold embed_event. cbn [b_start b_model b_attrs].
  destruct st; cbn [andb]; [|now constructor; left]. destruct (String.eqb model "BinData") eqn:Em.
  2:{ apply String.eqb_neq in Em. constructor. now right. }
  apply String.eqb_eq in Em. subst model. destruct (HE eq_refl) as (flags & content & Ha & Hc). pose proof Ha as Ha'.
  destruct Ha as (word & groups & name & Hw & Hg & Hat). subst attrs.
  match goal with |- context[getitem "flags" ?l] => change (getitem "flags" l) with (Ok word) end.
  cbn [bind]. rewrite (storage_flag_view _ _ _ _ _ Hw Hg). cbn [bind].
  destruct (Z.eqb_spec (flags mod 16) 1) as [E|E].
  - destruct (Hc E) as (id & ext & -> & Hid). 
    match goal with |- context[getitem "bindata" ?l] => change (getitem "bindata" l) with (Ok (VDict (embedded_content id ext))) end.
    cbn [bind as_dict]. change (getitem "storage_id" (embedded_content id ext)) with (Ok (VInt id)).
    change (getitem "ext" (embedded_content id ext)) with (Ok (VText ext)). cbn [bind as_int as_text].
    destruct (read (bindata_name id ext)) as [data|x] eqn:R; cbn [bind].
    + eapply em_embedded; [exact E|apply (name_ok id ext Hid)|exact R|apply b64_text_ok; exact (HR _ _ R)|exact Ha'|]. reflexivity.
    + eapply em_unreadable; [exact E|apply (name_ok id ext Hid)|exact R|exact Ha'].
  - eapply em_not_embedded; eassumption.
Qed.

Theorem embed_ok : forall read es o, (forall n d, read n = Ok d -> all_bytes d) -> Forall event_of_record es ->
  embeddings read es o (fst (embed_bindata read es o)) (snd (embed_bindata read es o)).
Proof.
  intros read es o HR. induction 1 as [|e es He Hs IH]; [constructor|]. cbn [embed_bindata].
  pose proof (embed_event_ok read e HR He) as H. destruct (embed_event read e) as [e'|x]; [|now constructor].
  destruct (embed_bindata read es o) as [out o']. cbn [fst snd gcons] in *. now constructor.
Qed.

(** ** Records *)

Lemma view_members : forall v d, view_of v = Members d -> exists e, v = VDict e /\ views e = d.
Proof. intros v d H. destruct v; try discriminate. cbn in H. injection H as H. eauto. Qed.
Lemma view_int : forall v n, view_of v = Int n -> v = VInt n.
Proof. intros v n H. destruct v; try discriminate. cbn in H. congruence. Qed.
Lemma view_text : forall v t, view_of v = Text t -> v = VText t.
Proof. intros v t H. destruct v; try discriminate. cbn in H. congruence. Qed.

Lemma not_older_0 : forall version, version_ok version -> not_older version (0, 0, 0, 0) = true.
Proof.
  intros version [HL HB]. destruct version as [|w [|x [|y [|z [|? ?]]]]]; try discriminate HL.
  unfold all_bytes in HB. repeat match goal with H : Forall _ (_ :: _) |- _ => inversion H; subst; clear H end. unfold is_byte in *. unfold not_older.
  destruct (0 <? w) eqn:E1; [reflexivity|]. apply Z.ltb_ge in E1. replace (0 =? w) with true by (symmetry; apply Z.eqb_eq; lia). cbn [andb orb].
  destruct (0 <? x) eqn:E2; [reflexivity|]. apply Z.ltb_ge in E2. replace (0 =? x) with true by (symmetry; apply Z.eqb_eq; lia). cbn [andb orb].
  destruct (0 <? y) eqn:E3; [reflexivity|]. apply Z.ltb_ge in E3. replace (0 =? y) with true by (symmetry; apply Z.eqb_eq; lia). cbn [andb orb]. cbn [andb orb]. apply Z.leb_le. lia.
Qed.

Lemma field_always : forall version p name k fs env b, version_ok version ->
  fields version p (always name k :: fs) env b =
  match parse version p k env b with
  | Some (x, r) => fields version p fs (match x with Some x => dict_set name x env | None => env end) r
  | None => None
  end.
Proof.
  intros version p name k fs env b HV. unfold always.
  transitivity (if not_older version (0, 0, 0, 0) then
                  match holds p env Always with
                  | Some true => match parse version p k env b with
                                 | Some (x, r) => fields version p fs (match x with Some x => dict_set name x env | None => env end) r
                                 | None => None
                                 end
                  | Some false => fields version p fs env b
                  | None => None
                  end
                else fields version p fs env b); [reflexivity|].
  rewrite (not_older_0 _ HV). reflexivity.
Qed.

Lemma unsigned_2 : forall b n r, all_bytes b -> unsigned 2 b = Some (n, r) -> 0 <= n < 65536 /\ all_bytes r.
Proof.
  intros b n r HB H. destruct b as [|b0 [|b1 b]]; try discriminate. cbn in H. injection H as <- <-.
  inversion HB as [|? ? H0 HB1]; subst. inversion HB1 as [|? ? H1 HB2]; subst. unfold is_byte in *. split; [lia|exact HB2].
Qed.

(** Every BinData record read from its payload has such attributes. *)
Theorem bindata_record : forall version parent payload m st, version_ok version -> node_ok parent -> all_bytes payload ->
  reads version parent 18 payload (Ok m) -> m_type m = "BinData" /\ event_of_record (mkBev st (m_type m) (m_content m)).
Proof.
  intros version parent payload m st HV HN HB H. pose proof (content_is _ _ _ _ _ HV HN HB H) as E.
  assert (T : m_type m = "BinData").
  { inversion H as [|? ? ? ? ? ? ? ? R| | |]; subst; [reflexivity|]. exfalso. change (type_of_tag 18) with "BinData" in R. inversion R. }
  split; [exact T|]. intros _. cbn [b_attrs]. rewrite T in E.
  change (record_parts 18 "BinData") with [record_fields "BinData"] in E. rewrite parse_all_one, parse_fields in E.
  change (record_fields "BinData") with
    [always "flags" b_BinData_Flags; always "bindata" (Choice "flags" "storage" [(0, k_BinDataLink); (1, k_BinDataEmbedding); (2, k_BinDataStorage)])] in E.
  rewrite field_always in E by exact HV. unfold b_BinData_Flags in E at 1. cbn [parse] in E.
  destruct (unsigned 2 payload) as [[n r]|] eqn:U; [|discriminate]. destruct (unsigned_2 _ _ _ HB U) as [Hn Hr].
  rewrite field_always in E by exact HV. rewrite parse_choice in E. cbn [dict_set] in E.
  set (gs := map (group_view n) _) in E.
  assert (G : exists nm, look "storage" gs = Some (n mod 16, nm)).
  { eexists. transitivity (Some (snd (group_view n (enum "storage" 0 3 "BinData.StorageType")))); [reflexivity|].
    unfold group_view, enum, bits_of. cbn [snd]. change (n / 2 ^ 0) with (n / 1). rewrite Z.div_1_r. reflexivity. }
  destruct G as (nm & G).
  assert (LG : look_group "flags" "storage" [("flags", Flags n gs)] = Some (n mod 16)).
  { unfold look_group. change (look "flags" [("flags", Flags n gs)]) with (Some (Flags n gs)). cbv iota beta. rewrite G. reflexivity. }
  rewrite LG in E. clear LG. clearbody gs. exists n.
  match type of E with as_env match ?q with _ => _ end = _ => destruct q as [[x r']|] eqn:EC; [|discriminate E] end.
  destruct (m_content m) as [|[k1 word] rest] eqn:EM.
  { destruct x; cbn in E; discriminate E. }
  assert (K : k1 = "flags" /\ view_of word = Flags n gs /\ views rest = match x with Some v => [("bindata", v)] | None => [] end).
  { destruct x; cbn in E; injection E as <- <- E'; auto. }
  destruct K as (-> & Hw & Hrest). clear E.
  assert (C : exists content, rest = match content with Some v => [("bindata", v)] | None => [] end /\ option_map view_of content = x).
  { destruct x as [v|]; destruct rest as [|[k2 y] [|? ?]]; try discriminate Hrest.
    - cbn in Hrest. injection Hrest as -> Hv. exists (Some y). cbn. split; [reflexivity|congruence].
    - exists None. auto. }
  destruct C as (content & -> & Hc). exists content. split.
  - exists word, gs, nm. auto.
  - intros E1. rewrite E1 in EC. cbn [choose Z.eqb Pos.eqb] in EC. unfold k_BinDataEmbedding in EC. rewrite parse_fields in EC.
    rewrite field_always in EC by exact HV. unfold u16 in EC at 1. cbn [parse] in EC.
    destruct (unsigned 2 r) as [[id r2]|] eqn:U2; [|discriminate]. destruct (unsigned_2 _ _ _ Hr U2) as [Hid _].
    rewrite field_always in EC by exact HV. unfold text in EC. cbn [parse] in EC. destruct (prefixed r2) as [[ext r3]|]; [|discriminate].
    cbn in EC. injection EC as EC _. rewrite <- EC in Hc. destruct content as [v|]; [|discriminate]. cbn in Hc. injection Hc as Hc.
    apply view_members in Hc. destruct Hc as (d & -> & Hd). exists id, ext. split; [|exact Hid]. do 2 f_equal.
    destruct d as [|[ka va] [|[kb vb] [|? ?]]]; try discriminate Hd. cbn in Hd. injection Hd as -> Ha -> Hb.
    apply view_int in Ha. apply view_text in Hb. subst. reflexivity.
Qed.
