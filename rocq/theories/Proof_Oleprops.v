(** Proofs about reading OLE property sets. *)
From Coq Require Import ZArith String List Bool Lia.
From Verif Require Import Base BaseFacts Model_Text Model_Dataio Model_Bintype Model_XmlText Model_Oleprops
  Spec_Text Spec_Dataio Spec_Bintype Spec_Filestructure Spec_Oleprops Proof_Utf16 Proof_Text Proof_Dataio Proof_Record Proof_Bintype Proof_Bintype2 Proof_Filestructure.
Import ListNotations.
Open Scope string_scope.
Open Scope list_scope.
Open Scope Z_scope.

(** ** Sufficient fuel *)
Lemma ev_const : forall {X} (x : X), eventually (fun _ => x) x.
Proof. intros. exists O. reflexivity. Qed.
Lemma ev_bind : forall {X Y} (f : nat -> fres X) (x : X) (g : nat -> X -> fres Y) y,
  eventually f (Some (Ok x)) -> eventually (fun n => g n x) y -> eventually (fun n => fbind (f n) (g n)) y.
Proof.
  intros X Y f x g y [n Hn] [m Hm]. exists (Nat.max n m). intros k Hk.
  rewrite (Hn k) by lia. cbn [fbind]. apply Hm. lia.
Qed.
Lemma ev_bind_raise : forall {X Y} (f : nat -> fres X) (e : exn) (g : nat -> X -> fres Y),
  eventually f (Some (Raise e)) -> eventually (fun n => fbind (f n) (g n)) (Some (Raise e)).
Proof. intros X Y f e g [n Hn]. exists n. intros k Hk. rewrite (Hn k) by lia. reflexivity. Qed.
Lemma ev_ext : forall {X} (f g : nat -> X) x, (forall n, f n = g n) -> eventually g x -> eventually f x.
Proof. intros X f g x E [n H]. exists n. intros. rewrite E. apply H. assumption. Qed.
Lemma ev_fst : forall {X Y} (f : nat -> X * Y) x y, eventually f (x, y) -> eventually (fun n => fst (f n)) x.
Proof. intros X Y f x y [n H]. exists n. intros. rewrite H by assumption. reflexivity. Qed.
Lemma ev_add : forall {X} (f : nat -> X) x n, (forall k, f (n + k)%nat = x) -> eventually f x.
Proof. intros X f x n H. exists n. intros m Hm. replace m with (n + (m - n))%nat by lia. apply H. Qed.

Lemma ev_fmap : forall {X Y} (f : nat -> X -> fres Y) l ys,
  Forall2 (fun x y => eventually (fun n => f n x) (Some (Ok y))) l ys -> eventually (fun n => fmap (f n) l) (Some (Ok ys)).
Proof.
  intros X Y f l ys H. induction H; cbn [fmap].
  - apply ev_const.
  - apply ev_bind with (x := y); [exact H|]. apply ev_bind with (x := l'); [exact IHForall2|]. apply ev_const.
Qed.
Lemma ev_fmap_raise : forall {X Y} (f : nat -> X -> fres Y) l ys x r e,
  Forall2 (fun x y => eventually (fun n => f n x) (Some (Ok y))) l ys -> eventually (fun n => f n x) (Some (Raise e)) ->
  eventually (fun n => fmap (f n) (l ++ x :: r)) (Some (Raise e)).
Proof.
  intros X Y f l ys x r e H E. induction H; cbn [fmap app].
  - apply ev_bind_raise. exact E.
  - apply ev_bind with (x := y); [exact H|]. apply ev_bind_raise. exact IHForall2.
Qed.

(** ** Reading declared structures *)
Lemma seek_at : forall b off x, at_offset b off x -> exists after, seek b off = mkStream (x ++ after) off.
Proof.
  intros b off x (before & after & -> & L). exists after. unfold seek. f_equal. apply zdrop_app_eq. symmetry. exact L.
Qed.

Lemma rtype_ser : forall t v x rest pos, wf unit t -> ser unit tt None None None t (Some v) x rest ->
  eventually (fun n => rtype n t (mkStream (x ++ rest) pos)) (Some (Ok v), mkStream rest (pos + zlen x)).
Proof. intros. destruct (written_reads_back unit tt None t v x rest pos H H0) as [n Hn]. apply (ev_add _ _ n). exact Hn. Qed.

Lemma ser_uint : forall w n parent rest, (0 < w)%nat -> 0 <= n < 256 ^ Z.of_nat w ->
  ser unit tt None parent None (TPrim unit (PFmt (FmtUInt w))) (Some (VInt n)) (number_bytes w n) rest.
Proof.
  intros. apply ser_prim; [exact I|]. apply (pb_int (FmtUInt w)); [discriminate|assumption|].
  unfold fmt_range. cbn. exact H0.
Qed.
Lemma ser_u32 : forall n parent rest, is_u32 n ->
  ser unit tt None parent None (TPrim unit (PFmt UINT32)) (Some (VInt n)) (u32 n) rest.
Proof. intros. apply (ser_uint 4); [lia|]. unfold is_u32 in H. change (256 ^ Z.of_nat 4) with (2 ^ 32). exact H. Qed.
Lemma ser_u16 : forall n parent rest, 0 <= n < 2 ^ 16 ->
  ser unit tt None parent None (TPrim unit (PFmt UINT16)) (Some (VInt n)) (u16 n) rest.
Proof. intros. apply (ser_uint 2); [lia|]. change (256 ^ Z.of_nat 2) with (2 ^ 16). exact H. Qed.
Lemma ser_byte : forall n parent rest, is_byte n ->
  ser unit tt None parent None (TPrim unit (PFmt BYTE)) (Some (VInt n)) [n] rest.
Proof.
  intros. replace [n] with (number_bytes 1 n).
  - apply (ser_uint 1); [lia|]. unfold is_byte in H. cbn. lia.
  - unfold number_bytes. cbn. unfold byte_of. cbn. unfold is_byte in H. rewrite Z.div_1_r, Z.mod_small by lia. reflexivity.
Qed.

Lemma ser_items_of : forall {X} (t : ty unit) (val : X -> value) (enc : X -> list Z) (xs : list X) acc rest,
  (forall x rest parent, In x xs -> ser unit tt None parent None t (Some (val x)) (enc x) rest) ->
  ser_items unit tt None t (length xs) acc (acc ++ map val xs) (concat (map enc xs)) rest.
Proof.
  intros X t val enc xs. induction xs as [|x xs IH]; intros acc rest H; cbn [length map concat].
  - rewrite app_nil_r. apply seri_nil.
  - apply seri_cons with (v := Some (val x)); [apply H; left; reflexivity|]. cbn [appended].
    replace (acc ++ val x :: map val xs) with ((acc ++ [val x]) ++ map val xs) by (rewrite <- app_assoc; reflexivity).
    apply IH. intros y r p Hy. apply H. right. exact Hy.
Qed.

Lemma ser_list : forall {X} (t : ty unit) (val : X -> value) (enc : X -> list Z) (xs : list X) parent rest,
  zlen xs < 2 ^ 32 ->
  (forall x rest parent, In x xs -> ser unit tt None parent None t (Some (val x)) (enc x) rest) ->
  ser unit tt None parent None (TVar unit UINT32 t) (Some (VList (map val xs))) (u32 (zlen xs) ++ concat (map enc xs)) rest.
Proof.
  intros X t val enc xs parent rest L H. apply ser_var with (n := zlen xs); [exact I| |].
  - assert (S : ser unit tt None None None (TPrim unit (PFmt UINT32)) (Some (VInt (zlen xs))) (u32 (zlen xs)) (concat (map enc xs) ++ rest)).
    { apply ser_u32. split; [apply zlen_nonneg|exact L]. }
    inversion S; subst. assumption.
  - replace (Z.to_nat (zlen xs)) with (length xs) by (unfold zlen; lia). change (map val xs) with ([] ++ map val xs).
    apply ser_items_of. exact H.
Qed.

Lemma map_single : forall {A} (l : list A), concat (map (fun x => [x]) l) = l.
Proof. induction l; cbn; congruence. Qed.

Lemma ser_guid : forall u parent rest, zlen u = 16 -> all_bytes u ->
  ser unit tt None parent None (TFixed unit (TPrim unit (PFmt BYTE)) 16) (Some (VTuple (map VInt u))) u rest.
Proof.
  intros u parent rest L B. apply ser_fixed; [exact I|].
  replace (Z.to_nat 16) with (length u) by (unfold zlen in L; lia).
  rewrite <- (map_single u) at 3. change (map VInt u) with ([] ++ map VInt u). apply ser_items_of.
  intros x r p Hx. apply ser_byte. unfold all_bytes in B. rewrite Forall_forall in B. apply B. exact Hx.
Qed.

(** One member after another. *)
Ltac member v := eapply serm_cons with (v := Some v); [reflexivity| |].

Lemma wf_types : wf unit property_desc_type /\ wf unit typed_property_value_type /\ wf unit dictionary_entry_type /\ wf unit dictionary_type /\
  wf unit property_set_header_type /\ wf unit property_set_desc_type /\ wf unit property_set_stream_header_type.
Proof. cbn. tauto. Qed.

Definition desc_value (d : Z * Z) : value := VDict [("id", VInt (fst d)); ("offset", VInt (snd d))].
Lemma ser_desc : forall d parent rest, is_u32 (fst d) -> is_u32 (snd d) ->
  ser unit tt None parent None property_desc_type (Some (desc_value d)) (desc_bytes d) rest.
Proof.
  intros [i o] parent rest Hi Ho. cbn in Hi, Ho. apply ser_struct; [exact I|]. unfold desc_bytes. cbn [fst snd].
  rewrite <- (app_nil_r (u32 o)).
  eapply serm_cons with (v := Some (VInt i)); [reflexivity|apply ser_u32; exact Hi|].
  eapply serm_cons with (v := Some (VInt o)); [reflexivity|apply ser_u32; exact Ho|]. apply serm_nil.
Qed.

Definition entry_value (e : Z * list Z) : value := VDict [("id", VInt (fst e)); ("name", VList (map VInt (snd e)))].
Lemma ser_entry : forall e parent rest, entry_ok e ->
  ser unit tt None parent None dictionary_entry_type (Some (entry_value e)) (entry_bytes e) rest.
Proof.
  intros [i n] parent rest (Hi & Hn & B). cbn in Hi, Hn, B. apply ser_struct; [exact I|]. unfold entry_bytes. cbn [fst snd].
  rewrite <- (app_nil_r (u32 (zlen n) ++ n)).
  eapply serm_cons with (v := Some (VInt i)); [reflexivity|apply ser_u32; exact Hi|].
  eapply serm_cons with (v := Some (VList (map VInt n))); [reflexivity| |apply serm_nil].
  rewrite <- (map_single n) at 3. apply (ser_list (TPrim unit (PFmt BYTE)) VInt (fun x => [x]) n); [exact Hn|].
  intros x r p Hx. apply ser_byte. unfold all_bytes in B. rewrite Forall_forall in B. apply B. exact Hx.
Qed.

Definition dictionary_value (l : list (Z * list Z)) : value := VDict [("entries", VList (map entry_value l))].
Lemma ser_dictionary : forall l parent rest, zlen l < 2 ^ 32 -> Forall entry_ok l ->
  ser unit tt None parent None dictionary_type (Some (dictionary_value l)) (dictionary_bytes l) rest.
Proof.
  intros l parent rest L F. apply ser_struct; [exact I|]. unfold dictionary_bytes. rewrite <- (app_nil_r (u32 _ ++ _)).
  eapply serm_cons with (v := Some (VList (map entry_value l))); [reflexivity| |apply serm_nil].
  apply ser_list; [exact L|]. intros x r p Hx. apply ser_entry. rewrite Forall_forall in F. apply F. exact Hx.
Qed.

Definition set_header_value (size : Z) (descs : list (Z * Z)) : value :=
  VDict [("bytesize", VInt size); ("propDescList", VList (map desc_value descs))].
Lemma ser_set_header : forall size descs parent rest, set_header_ok size descs ->
  ser unit tt None parent None property_set_header_type (Some (set_header_value size descs)) (set_header_bytes size descs) rest.
Proof.
  intros size descs parent rest (S & L & F). apply ser_struct; [exact I|]. unfold set_header_bytes.
  rewrite <- (app_nil_r (u32 (zlen descs) ++ _)).
  eapply serm_cons with (v := Some (VInt size)); [reflexivity|apply ser_u32; exact S|].
  eapply serm_cons with (v := Some (VList (map desc_value descs))); [reflexivity| |apply serm_nil].
  apply ser_list; [exact L|]. intros x r p Hx. rewrite Forall_forall in F. destruct (F x Hx). apply ser_desc; assumption.
Qed.

Definition set_desc_value (d : list Z * Z) : value := VDict [("fmtid", VTuple (map VInt (guid_bytes (fst d)))); ("offset", VInt (snd d))].
Lemma guid_bytes_ok : forall u, is_guid u -> zlen (guid_bytes u) = 16 /\ all_bytes (guid_bytes u) /\ uuid_from_bytes_le (guid_bytes u) = Ok u.
Proof.
  intros u [L B].
  do 16 (destruct u as [|? u]; [exfalso; unfold zlen in L; cbn in L; lia|]).
  destruct u as [|? u]; [|exfalso; unfold zlen in L; cbn [length] in L; lia].
  unfold guid_bytes, zslice, ztake, zdrop. cbn. split; [reflexivity|]. split; [|reflexivity].
  unfold all_bytes in *. repeat match goal with H : Forall _ (_ :: _) |- _ => inversion H; clear H; subst end.
  repeat (constructor; [assumption|]). constructor.
Qed.
Lemma ser_set_desc : forall d parent rest, is_guid (fst d) -> is_u32 (snd d) ->
  ser unit tt None parent None property_set_desc_type (Some (set_desc_value d)) (guid_bytes (fst d) ++ u32 (snd d)) rest.
Proof.
  intros [g o] parent rest G O. cbn [fst snd] in *. destruct (guid_bytes_ok g G) as (L & B & _). apply ser_struct; [exact I|].
  rewrite <- (app_nil_r (u32 o)).
  eapply serm_cons with (v := Some (VTuple (map VInt (guid_bytes g)))); [reflexivity|apply ser_guid; assumption|].
  eapply serm_cons with (v := Some (VInt o)); [reflexivity|apply ser_u32; exact O|]. apply serm_nil.
Qed.
Definition stream_header_value (h : stream_header) : value :=
  VDict [("byteOrder", VInt (psh_byteOrder h)); ("version", VInt (psh_version h)); ("systemIdentifier", VInt (psh_systemIdentifier h));
         ("clsid", VTuple (map VInt (guid_bytes (psh_clsid h)))); ("propsetDescList", VList (map set_desc_value (psh_descs h)))].
Lemma ser_stream_header : forall h parent rest, stream_header_ok h ->
  ser unit tt None parent None property_set_stream_header_type (Some (stream_header_value h)) (stream_header_bytes h) rest.
Proof.
  intros h parent rest (O & V & S & G & L & F). destruct (guid_bytes_ok _ G) as (GL & GB & _).
  apply ser_struct; [exact I|]. unfold stream_header_bytes.
  rewrite <- (app_nil_r (u32 (zlen (psh_descs h)) ++ _)).
  eapply serm_cons with (v := Some (VInt (psh_byteOrder h))); [reflexivity|apply ser_u16; exact O|].
  eapply serm_cons with (v := Some (VInt (psh_version h))); [reflexivity|apply ser_u16; exact V|].
  eapply serm_cons with (v := Some (VInt (psh_systemIdentifier h))); [reflexivity|apply ser_u32; exact S|].
  eapply serm_cons with (v := Some (VTuple (map VInt (guid_bytes (psh_clsid h))))); [reflexivity|apply ser_guid; assumption|].
  eapply serm_cons with (v := Some (VList (map set_desc_value (psh_descs h)))); [reflexivity| |apply serm_nil].
  apply (ser_list property_set_desc_type set_desc_value (fun d => guid_bytes (fst d) ++ u32 (snd d))); [exact L|].
  intros x r p Hx. rewrite Forall_forall in F. destruct (F x Hx). apply ser_set_desc; assumption.
Qed.

(** Converting the read dictionaries. *)
Lemma map_res_map : forall {X Y W} (f : Y -> res W) (g : X -> Y) (h : X -> W) l, (forall x, In x l -> f (g x) = Ok (h x)) ->
  map_res f (map g l) = Ok (map h l).
Proof.
  induction l as [|x l IH]; intros H; [reflexivity|]. cbn [map map_res]. rewrite H by (left; reflexivity). cbn [bind].
  rewrite IH by (intros y Hy; apply H; right; exact Hy). reflexivity.
Qed.
Lemma ints_of : forall l, map_res int_of_value (map VInt l) = Ok l.
Proof. intros. rewrite (map_res_map int_of_value VInt (fun x => x)) by reflexivity. rewrite map_id. reflexivity. Qed.
Lemma entries_of : forall l, dictionary_entries (dictionary_value l) = Ok (entry_names l).
Proof.
  intros. unfold dictionary_entries, items_of, item_of, dictionary_value. cbn [dict_get String.eqb Ascii.eqb Bool.eqb bind].
  apply map_res_map. intros [i n] _. unfold entry_value, dictionary_entry. cbn.
  rewrite ints_of. reflexivity.
Qed.
Lemma set_header_of : forall size descs, property_set_header (set_header_value size descs) = Ok (size, descs).
Proof.
  intros. unfold property_set_header, int_item, items_of, item_of, set_header_value. cbn -[map_res map property_desc].
  rewrite (map_res_map property_desc desc_value (fun x => x)) by (intros [i o] _; reflexivity). rewrite map_id. reflexivity.
Qed.
Lemma stream_header_of : forall h, stream_header_ok h -> property_set_stream_header (stream_header_value h) = Ok h.
Proof.
  intros h (_ & _ & _ & G & _ & F). destruct (guid_bytes_ok _ G) as (_ & _ & E).
  unfold property_set_stream_header, int_item, uuid_item, items_of, item_of, stream_header_value.
  cbn -[map_res map property_set_desc uuid_from_bytes_le guid_bytes].
  rewrite ints_of. cbn [bind]. rewrite E. cbn [bind].
  rewrite (map_res_map property_set_desc set_desc_value (fun x => x)).
  - rewrite map_id. destruct h; reflexivity.
  - intros [g o] Hx. rewrite Forall_forall in F. destruct (F _ Hx) as [G' _]. cbn [fst] in G'. destruct (guid_bytes_ok _ G') as (_ & _ & E').
    unfold property_set_desc, uuid_item, items_of, item_of, set_desc_value, int_item, item_of.
    cbn -[map_res map uuid_from_bytes_le guid_bytes]. rewrite ints_of. cbn [bind]. rewrite E'. reflexivity.
Qed.

(** ** Values *)
Lemma ev_let : forall {X Y W} (f : nat -> X * Y) x y (g : nat -> X -> Y -> W) z,
  eventually f (x, y) -> eventually (fun n => g n x y) z -> eventually (fun n => let (r, s) := f n in g n r s) z.
Proof.
  intros X Y W f x y g z [n Hn] [m Hm]. exists (Nat.max n m). intros k Hk. rewrite (Hn k) by lia. apply Hm. lia.
Qed.

Lemma ev_read_int : forall f n rest pos, f <> FmtDouble -> (0 < fmt_width f)%nat -> fmt_range f n ->
  eventually (fun k => read_int k f (mkStream (number_bytes (fmt_width f) n ++ rest) pos)) (Some (Ok n), mkStream rest (pos + Z.of_nat (fmt_width f))).
Proof.
  intros f n rest pos F W R. unfold read_int.
  apply ev_let with (x := Some (Ok (VInt n))) (y := mkStream rest (pos + Z.of_nat (fmt_width f))).
  - rewrite <- (zlen_number_bytes (fmt_width f) n). apply rtype_ser; [exact I|]. apply ser_prim; [exact I|]. constructor; assumption.
  - apply ev_const.
Qed.
Lemma ev_read_u32 : forall n rest pos, is_u32 n ->
  eventually (fun k => read_int k UINT32 (mkStream (u32 n ++ rest) pos)) (Some (Ok n), mkStream rest (pos + 4)).
Proof.
  intros. apply (ev_read_int UINT32); [discriminate|cbn; lia|]. unfold fmt_range. cbn -[Z.pow]. change (256 ^ 4) with (2 ^ 32). exact H.
Qed.

Lemma low_bits : forall w, get_int_value 0 16 w = w mod 2 ^ 17.
Proof. intros w. rewrite bitfield_value by lia. change (2 ^ 0) with 1. rewrite Z.div_1_r. reflexivity. Qed.

Definition type_value (w : Z) : value := VDict [("type", VFlags [("code", (0, 16, None))] w)].
Lemma ev_read_type_word : forall w rest pos, is_u32 w ->
  eventually (fun k => rtype k typed_property_value_type (mkStream (u32 w ++ rest) pos)) (Some (Ok (type_value w)), mkStream rest (pos + 4)).
Proof.
  intros w rest pos H. change 4 with (Z.of_nat 4). rewrite <- (zlen_number_bytes 4 w). fold (u32 w). apply rtype_ser; [apply wf_types|].
  apply ser_struct; [exact I|]. rewrite <- (app_nil_r (u32 w)).
  eapply serm_cons with (v := Some (VFlags [("code", (0, 16, None))] w)); [reflexivity| |apply serm_nil].
  apply ser_flags; [exact I|]. apply (pb_int UINT32); [discriminate|cbn; lia|].
  unfold fmt_range. cbn -[Z.pow]. change (256 ^ 4) with (2 ^ 32). exact H.
Qed.
Lemma type_code : forall w, typed_property_code (type_value w) = Ok (w mod 2 ^ 17).
Proof. intros. cbn -[get_int_value Z.pow Z.modulo]. rewrite low_bits. reflexivity. Qed.

Lemma number_bytes_8 : forall n, number_bytes 8 n = u32 (n mod 2 ^ 32) ++ u32 (n / 2 ^ 32).
Proof.
  intros n. unfold u32, number_bytes. cbn [seq map app]. unfold byte_of.
  assert (E : forall i, 0 <= i < 4 -> (n mod 2 ^ 32 / 256 ^ i) mod 256 = (n / 256 ^ i) mod 256).
  { intros i Hi. assert (K : i = 0 \/ i = 1 \/ i = 2 \/ i = 3) by lia.
    pose proof (Z.div_mod n (2 ^ 32) ltac:(lia)) as D. set (q := n / 2 ^ 32) in *. set (r := n mod 2 ^ 32) in *.
    destruct K as [-> | [-> | [-> | ->]]].
    - change (256 ^ 0) with 1. rewrite !Z.div_1_r. rewrite D. replace (2 ^ 32 * q + r) with (r + (2 ^ 24 * q) * 256) by lia. rewrite Z.mod_add by lia. reflexivity.
    - change (256 ^ 1) with 256. rewrite D. replace (2 ^ 32 * q + r) with (r + (2 ^ 24 * q) * 256) by lia. rewrite Z.div_add by lia.
      replace (2 ^ 24 * q) with ((2 ^ 16 * q) * 256) by lia. rewrite Z.mod_add by lia. reflexivity.
    - change (256 ^ 2) with 65536. rewrite D. replace (2 ^ 32 * q + r) with (r + (2 ^ 16 * q) * 65536) by lia. rewrite Z.div_add by lia.
      replace (2 ^ 16 * q) with ((2 ^ 8 * q) * 256) by lia. rewrite Z.mod_add by lia. reflexivity.
    - change (256 ^ 3) with 16777216. rewrite D. replace (2 ^ 32 * q + r) with (r + (2 ^ 8 * q) * 16777216) by lia. rewrite Z.div_add by lia.
      replace (2 ^ 8 * q) with (q * 256) by lia. rewrite Z.mod_add by lia. reflexivity. }
  assert (E2 : forall i j, 0 <= j -> i = 4 + j -> (n / 2 ^ 32 / 256 ^ j) mod 256 = (n / 256 ^ i) mod 256).
  { intros i j Hj ->. rewrite Z.div_div by (try apply Z.pow_pos_nonneg; lia). rewrite (Z.pow_add_r 256 4 j) by lia. reflexivity. }
  change (Z.of_nat 0) with 0. change (Z.of_nat 1) with 1. change (Z.of_nat 2) with 2. change (Z.of_nat 3) with 3.
  change (Z.of_nat 4) with 4. change (Z.of_nat 5) with 5. change (Z.of_nat 6) with 6. change (Z.of_nat 7) with 7.
  rewrite !E by lia. rewrite (E2 4 0), (E2 5 1), (E2 6 2), (E2 7 3) by lia. reflexivity.
Qed.
Lemma join_words : forall n, 0 <= n < 2 ^ 64 -> Z.lor (Z.shiftl (n / 2 ^ 32) 32) (n mod 2 ^ 32) = n.
Proof.
  intros n H. apply Z.bits_inj'. intros k Hk. rewrite Z.lor_spec, Z.shiftl_spec by lia.
  rewrite <- Z.land_ones, Z.land_spec by lia. destruct (Z_lt_le_dec k 32) as [L|L].
  - rewrite Z.testbit_neg_r, Z.ones_spec_low by lia. cbn. rewrite andb_true_r. reflexivity.
  - rewrite Z.ones_spec_high, andb_false_r, orb_false_r by lia. rewrite <- Z.shiftr_div_pow2, Z.shiftr_spec by lia. f_equal. lia.
Qed.

Lemma utf16le_bytes_are_bytes : forall cs, Forall scalar cs -> all_bytes (utf16le_bytes cs).
Proof.
  intros cs H. unfold utf16le_bytes. pose proof (units_bound cs H) as B. induction B as [|u us Hu _ IH]; [constructor|].
  cbn [map concat]. unfold all_bytes. apply Forall_app. split; [|exact IH]. unfold le16.
  repeat constructor; [apply Z.mod_pos_bound; lia|apply Z.mod_pos_bound; lia|apply Z.div_pos; lia|apply Z.div_lt_upper_bound; lia].
Qed.

Lemma ev_typed_value : forall code v x, typed_value code v x -> forall rest pos,
  exists w y, x = u32 w ++ y /\ is_u32 w /\ w mod 2 ^ 17 = code /\
  eventually (fun k => read_value k code (mkStream (y ++ rest) pos)) (Some (Ok v)).
Proof.
  intros code v x H rest pos. destruct H.
  - exists w, (u32 n). split; [reflexivity|]. split; [assumption|]. split; [assumption|]. unfold read_value. cbn [Z.eqb VT_I4 Pos.eqb].
    apply ev_bind with (x := n); [|apply ev_const]. eapply ev_fst. apply (ev_read_int INT32); [discriminate|cbn; lia|].
    unfold fmt_range. cbn -[Z.pow Z.mul]. change (256 ^ 4) with (2 * 2 ^ 31). lia.
  - exists w, (u32 (zlen (utf16_units (cs ++ [nul]))) ++ utf16le_bytes (cs ++ [nul])). split; [reflexivity|].
    split; [assumption|]. split; [assumption|]. unfold read_value. cbn [Z.eqb VT_I4 VT_LPWSTR Pos.eqb]. rewrite <- app_assoc.
    eapply ev_let; [apply ev_read_u32; split; [apply zlen_nonneg|assumption]|].
    apply ev_bind with (x := zlen (utf16_units (cs ++ [nul]))); [apply ev_const|].
    unfold stream_read. cbn [fst s_rest]. rewrite ztake_app_eq by (rewrite zlen_utf16le; lia).
    assert (E : utf16le_decode (utf16le_bytes (cs ++ [nul])) = Ok (cs ++ [nul])).
    { apply utf16le_decode_iff; [|split; [reflexivity|assumption]]. apply utf16le_bytes_are_bytes. assumption. }
    rewrite E. cbn [flift fbind fret]. rewrite removelast_last. apply ev_const.
  - exists w, (u32 0). split; [reflexivity|].
    split; [assumption|]. split; [assumption|]. unfold read_value. cbn [Z.eqb VT_I4 VT_LPWSTR Pos.eqb].
    eapply ev_let; [apply ev_read_u32; unfold is_u32; lia|].
    apply ev_bind with (x := 0); [apply ev_const|]. unfold stream_read. cbn [fst s_rest].
    replace (ztake (0 * 2) rest) with (@nil Z) by (destruct rest; reflexivity). apply ev_const.
  - exists w, (number_bytes 8 n). split; [reflexivity|].
    split; [assumption|]. split; [assumption|]. unfold read_value. cbn [Z.eqb VT_I4 VT_LPWSTR VT_FILETIME Pos.eqb].
    rewrite number_bytes_8, <- app_assoc.
    assert (B : 0 <= n / 2 ^ 32 < 2 ^ 32) by (split; [apply Z.div_pos; lia|apply Z.div_lt_upper_bound; lia]).
    eapply ev_let; [apply ev_read_u32; apply Z.mod_pos_bound; lia|].
    apply ev_bind with (x := n mod 2 ^ 32); [apply ev_const|].
    apply ev_bind with (x := n / 2 ^ 32); [eapply ev_fst; apply ev_read_u32; exact B|].
    rewrite join_words by assumption. apply ev_const.
Qed.

Lemma ev_property : forall b off p, p_id p <> 0 -> stored b (off + p_offset p) (p_id p) (p_code p) (p_value p) ->
  eventually (fun k => read_property k b off (p_id p, p_offset p) (p_label p)) (Some (Ok p)).
Proof.
  intros b off p N S. remember (p_id p) as id eqn:EI. remember (p_code p) as oc eqn:EC. remember (p_value p) as v eqn:EV.
  destruct S; [congruence|].
  destruct (seek_at _ _ _ H1) as [after E]. unfold read_property. cbn [fst snd]. rewrite E.
  destruct (ev_typed_value _ _ _ H0 after (off + p_offset p + 4)) as (w & y & -> & W & C & R). rewrite <- app_assoc.
  eapply ev_let; [apply ev_read_type_word; exact W|].
  apply ev_bind with (x := type_value w); [apply ev_const|].
  apply ev_bind with (x := code); [rewrite type_code, C; apply ev_const|].
  apply ev_bind with (x := v); [exact R|]. destruct p. cbn in *. subst. apply ev_const.
Qed.
Lemma ev_dictionary : forall b off p, p_id p = 0 -> stored b (off + p_offset p) (p_id p) (p_code p) (p_value p) ->
  eventually (fun k => read_dictionary k b off (p_id p, p_offset p) (p_label p)) (Some (Ok p)).
Proof.
  intros b off p N S. remember (p_id p) as id eqn:EI. remember (p_code p) as oc eqn:EC. remember (p_value p) as v eqn:EV.
  destruct S; [|congruence].
  destruct (seek_at _ _ _ H1) as [after E]. unfold read_dictionary. cbn [fst snd]. rewrite E.
  apply ev_bind with (x := dictionary_value l).
  - eapply ev_fst. apply rtype_ser; [apply wf_types|]. apply ser_dictionary; assumption.
  - apply ev_bind with (x := entry_names l); [rewrite entries_of; apply ev_const|].
    destruct p. cbn in *. subst. apply ev_const.
Qed.

(** An unknown type. *)
Lemma ev_unknown_type : forall b off i o label w, is_u32 w -> at_offset b (off + o) (u32 w) ->
  ~ In (w mod 2 ^ 17) [3; 31; 64] ->
  eventually (fun k => read_property k b off (i, o) label) (Some (Raise KeyError)).
Proof.
  intros b off i o label w W A N. destruct (seek_at _ _ _ A) as [after E]. unfold read_property. cbn [fst snd]. rewrite E.
  eapply ev_let; [apply ev_read_type_word; exact W|].
  apply ev_bind with (x := type_value w); [apply ev_const|].
  apply ev_bind with (x := w mod 2 ^ 17); [rewrite type_code; apply ev_const|].
  apply ev_bind_raise. unfold read_value, VT_I4, VT_LPWSTR, VT_FILETIME.
  destruct (Z.eqb_spec (w mod 2 ^ 17) 3); [exfalso; apply N; cbn; lia|].
  destruct (Z.eqb_spec (w mod 2 ^ 17) 0x1F); [exfalso; apply N; cbn; lia|].
  destruct (Z.eqb_spec (w mod 2 ^ 17) 0x40); [exfalso; apply N; cbn; lia|]. apply ev_const.
Qed.

(** A text cut by the end of the stream. *)
Lemma ev_cut_text : forall b off i o label w len before cs last, is_u32 w -> w mod 2 ^ 17 = 31 -> is_u32 len ->
  b = before ++ u32 w ++ u32 len ++ utf16le_bytes (cs ++ [last]) -> zlen before = off + o ->
  Forall scalar (cs ++ [last]) -> zlen (utf16_units (cs ++ [last])) <= len ->
  eventually (fun k => read_property k b off (i, o) label) (Some (Ok (mkProperty i o label (Some 31) (PVText cs)))).
Proof.
  intros b off i o label w len before cs last W C L -> A S T. unfold read_property. cbn [fst snd].
  assert (E : seek (before ++ u32 w ++ u32 len ++ utf16le_bytes (cs ++ [last])) (off + o) =
              mkStream (u32 w ++ u32 len ++ utf16le_bytes (cs ++ [last])) (off + o)).
  { unfold seek. f_equal. apply zdrop_app_eq. symmetry. exact A. }
  rewrite E. eapply ev_let; [apply ev_read_type_word; exact W|].
  apply ev_bind with (x := type_value w); [apply ev_const|].
  apply ev_bind with (x := 31); [rewrite type_code, C; apply ev_const|].
  apply ev_bind with (x := PVText cs); [|apply ev_const]. unfold read_value. cbn [Z.eqb VT_I4 VT_LPWSTR Pos.eqb].
  eapply ev_let; [apply ev_read_u32; exact L|].
  apply ev_bind with (x := len); [apply ev_const|].
  unfold stream_read. cbn [fst s_rest]. rewrite ztake_all by (rewrite zlen_utf16le; lia).
  assert (D : utf16le_decode (utf16le_bytes (cs ++ [last])) = Ok (cs ++ [last])).
  { apply utf16le_decode_iff; [|split; [reflexivity|assumption]]. apply utf16le_bytes_are_bytes. assumption. }
  rewrite D. cbn [flift fbind fret]. rewrite removelast_last. apply ev_const.
Qed.

(** ** Insertion-ordered dictionaries *)
Lemma zdict_get_set : forall {V} k v (d : list (Z * V)) k', zdict_get k' (zdict_set k v d) = if k' =? k then Some v else zdict_get k' d.
Proof.
  induction d as [|[k0 v0] d IH]; intros k'; cbn [zdict_set zdict_get]; [reflexivity|].
  destruct (Z.eqb_spec k k0) as [<-|N]; cbn [zdict_get].
  - destruct (k' =? k); reflexivity.
  - destruct (Z.eqb_spec k' k0) as [->|N']; [|apply IH]. destruct (Z.eqb_spec k0 k); [congruence|reflexivity].
Qed.
Lemma zdict_set_keys : forall {V} k v (d : list (Z * V)), map fst (zdict_set k v d) =
  if in_dec Z.eq_dec k (map fst d) then map fst d else map fst d ++ [k].
Proof.
  induction d as [|[k0 v0] d IH]; [reflexivity|]. cbn [zdict_set map fst].
  destruct (Z.eqb_spec k k0) as [<-|N].
  - cbn [map fst]. destruct (in_dec Z.eq_dec k (k :: map fst d)) as [|X]; [reflexivity|]. exfalso. apply X. left. reflexivity.
  - cbn [map fst]. rewrite IH. destruct (in_dec Z.eq_dec k (map fst d)) as [i|i]; destruct (in_dec Z.eq_dec k (k0 :: map fst d)) as [j|j].
    + reflexivity.
    + exfalso. apply j. right. exact i.
    + exfalso. destruct j; [congruence|contradiction].
    + reflexivity.
Qed.
Lemma first_listed_last : forall ids k, first_listed (ids ++ [k]) = if in_dec Z.eq_dec k ids then first_listed ids else first_listed ids ++ [k].
Proof.
  intros. unfold first_listed. rewrite rev_app_distr. cbn [rev app nodup].
  destruct (in_dec Z.eq_dec k (rev ids)) as [i|i]; destruct (in_dec Z.eq_dec k ids) as [j|j].
  - reflexivity.
  - exfalso. apply j. apply in_rev. exact i.
  - exfalso. apply i. rewrite <- in_rev. exact j.
  - reflexivity.
Qed.
Lemma in_first_listed : forall ids k, In k (first_listed ids) <-> In k ids.
Proof. intros. unfold first_listed. rewrite <- in_rev, nodup_In, <- in_rev. reflexivity. Qed.
Lemma nodup_first_listed : forall ids, NoDup (first_listed ids).
Proof. intros. unfold first_listed. apply NoDup_rev. apply NoDup_nodup. Qed.

Definition dict_from {E V} (key : E -> Z) (val : E -> V) (l : list E) : list (Z * V) := fold_left (fun d e => zdict_set (key e) (val e) d) l [].
Lemma dict_from_last : forall {E V} (key : E -> Z) (val : E -> V) l e, dict_from key val (l ++ [e]) = zdict_set (key e) (val e) (dict_from key val l).
Proof. intros. unfold dict_from. rewrite fold_left_app. reflexivity. Qed.
Lemma dict_from_keys : forall {E V} (key : E -> Z) (val : E -> V) l, map fst (dict_from key val l) = first_listed (map key l).
Proof.
  intros. induction l as [|e l IH] using rev_ind; [reflexivity|].
  rewrite dict_from_last, zdict_set_keys, IH, map_app. cbn [map]. rewrite first_listed_last.
  destruct (in_dec Z.eq_dec (key e) (first_listed (map key l))) as [i|i]; destruct (in_dec Z.eq_dec (key e) (map key l)) as [j|j]; try reflexivity.
  - exfalso. apply j. apply in_first_listed. exact i.
  - exfalso. apply i. apply in_first_listed. exact j.
Qed.
Lemma dict_from_get : forall {E V} (key : E -> Z) (val : E -> V) l1 e l2, ~ In (key e) (map key l2) ->
  zdict_get (key e) (dict_from key val (l1 ++ e :: l2)) = Some (val e).
Proof.
  intros E V key val l1 e l2. induction l2 as [|x l2 IH] using rev_ind; intros N.
  - rewrite dict_from_last, zdict_get_set, Z.eqb_refl. reflexivity.
  - replace (l1 ++ e :: l2 ++ [x]) with ((l1 ++ e :: l2) ++ [x]) by (rewrite <- app_assoc; reflexivity).
    rewrite dict_from_last, zdict_get_set. rewrite map_app, in_app_iff in N. cbn [map In] in N.
    destruct (Z.eqb_spec (key e) (key x)); [exfalso; apply N; right; left; congruence|]. apply IH. tauto.
Qed.
Lemma zdict_get_none : forall {V} k (d : list (Z * V)), ~ In k (map fst d) -> zdict_get k d = None.
Proof.
  induction d as [|[k0 v0] d IH]; intros N; [reflexivity|]. cbn [zdict_get]. cbn [map fst In] in N.
  destruct (Z.eqb_spec k k0); [exfalso; apply N; left; congruence|]. apply IH. tauto.
Qed.
Lemma zdict_get_in : forall {V} k v (d : list (Z * V)), NoDup (map fst d) -> (zdict_get k d = Some v <-> In (k, v) d).
Proof.
  induction d as [|[k0 v0] d IH]; intros N; [split; [discriminate|intros []]|]. cbn [map fst] in N. inversion N; subst. cbn [zdict_get In].
  destruct (Z.eqb_spec k k0) as [->|D].
  - split; [intros E; injection E as <-; left; reflexivity|]. intros [E|E]; [congruence|]. exfalso. apply H1. apply (in_map fst) in E. exact E.
  - rewrite IH by assumption. split; [intros; right; assumption|]. intros [E|E]; [congruence|exact E].
Qed.

Definition descmap (descs : list (Z * Z)) : list (Z * (Z * Z)) := dict_from fst (fun e => e) descs.
Lemma descmap_get : forall descs i o, last_with i o descs -> zdict_get i (descmap descs) = Some (i, o).
Proof. intros descs i o (l1 & l2 & -> & N). apply (dict_from_get fst (fun e => e) l1 (i, o) l2). exact N. Qed.
Lemma last_with_exists : forall {V} (l : list (Z * V)) k, In k (map fst l) -> exists v, last_with k v l.
Proof.
  intros V l k. induction l as [|[k0 v0] l IH] using rev_ind; [intros []|]. rewrite map_app, in_app_iff. cbn [map fst In].
  intros H. destruct (Z.eq_dec k k0) as [->|N].
  - exists v0, l, []. split; [reflexivity|intros []].
  - destruct H as [H|[H|[]]]; [|congruence]. destruct (IH H) as (v & l1 & l2 & -> & D). exists v, l1, (l2 ++ [(k0, v0)]).
    split; [rewrite <- app_assoc; reflexivity|]. rewrite map_app, in_app_iff. cbn. intros [X|[X|[]]]; [contradiction|congruence].
Qed.
Lemma last_with_unique : forall {K V} (k : K) (v v' : V) l, last_with k v l -> last_with k v' l -> v = v'.
Proof.
  intros K V k v v' l (l1 & l2 & -> & N) (l3 & l4 & E & N').
  revert l3 E. induction l1 as [|x l1 IH]; intros l3 E; destruct l3 as [|y l3]; cbn in E.
  - congruence.
  - injection E as E1 E2. exfalso. apply N. rewrite E2, map_app, in_app_iff. right. left. reflexivity.
  - injection E as E1 E2. exfalso. apply N'. rewrite <- E2, map_app, in_app_iff. right. left. reflexivity.
  - injection E as E1 E2. apply (IH l3). exact E2.
Qed.

Lemma find_last : forall {V} (formats : list (list Z * V)) fmtid,
  match find (fun f => if list_eq_dec Z.eq_dec (fst f) fmtid then true else false) (rev formats) with
  | Some f => last_with fmtid (snd f) formats
  | None => forall ids, ~ last_with fmtid ids formats
  end.
Proof.
  intros V formats fmtid. induction formats as [|[g v] formats IH] using rev_ind.
  - cbn. intros ids (l1 & l2 & E & _). destruct l1; discriminate.
  - rewrite rev_app_distr. cbn [rev app find fst]. destruct (list_eq_dec Z.eq_dec g fmtid) as [->|N].
    + exists formats, []. split; [reflexivity|intros []].
    + destruct (find _ (rev formats)) as [f|].
      * destruct IH as (l1 & l2 & -> & D). exists l1, (l2 ++ [(g, v)]). split; [rewrite <- app_assoc; reflexivity|].
        rewrite map_app, in_app_iff. cbn. intros [X|[X|[]]]; [contradiction|congruence].
      * intros ids (l1 & l2 & E & D). destruct l2 as [|x l2 _] using rev_ind.
        -- apply app_inj_tail in E. destruct E as [_ E]. injection E as E1 E2. contradiction.
        -- change ((fmtid, ids) :: l2 ++ [x]) with (((fmtid, ids) :: l2) ++ [x]) in E. rewrite app_assoc in E.
           apply app_inj_tail in E. destruct E as [E _]. apply (IH ids). exists l1, l2. split; [exact E|].
           rewrite map_app, in_app_iff in D. tauto.
Qed.

Lemma label_found : forall formats fmtid id l, labelled formats fmtid id l -> zdict_get id (id_labels formats fmtid) = l.
Proof.
  intros formats fmtid id l H. unfold id_labels, property_set_format. pose proof (find_last formats fmtid) as F.
  destruct (find _ (rev formats)) as [[g ids]|]; cbn [snd] in F |- *.
  - fold (dict_from (@fst Z (list Z)) (@snd Z (list Z)) ids). destruct l as [t|]; cbn [labelled] in H.
    + destruct H as (ids' & H1 & l1 & l2 & -> & D). pose proof (last_with_unique _ _ _ _ F H1) as ->.
      apply (dict_from_get fst snd l1 (id, t) l2). exact D.
    + apply zdict_get_none. rewrite dict_from_keys, in_first_listed. apply H. exact F.
  - destruct l as [t|]; [|reflexivity]. destruct H as (ids' & H1 & _). exfalso. apply (F ids'). exact H1.
Qed.

(** ** A property set *)
Lemma filter_one : forall a (l : list Z), NoDup l -> filter (Z.eqb a) l = if in_dec Z.eq_dec a l then [a] else [].
Proof.
  intros a l H. induction H as [|x l N _ IH]; [reflexivity|]. cbn [filter].
  destruct (Z.eqb_spec a x) as [<-|D].
  - rewrite IH. destruct (in_dec Z.eq_dec a l); [contradiction|]. destruct (in_dec Z.eq_dec a (a :: l)) as [|X]; [reflexivity|].
    exfalso. apply X. left. reflexivity.
  - rewrite IH. destruct (in_dec Z.eq_dec a l) as [i|i]; destruct (in_dec Z.eq_dec a (x :: l)) as [j|j]; try reflexivity.
    + exfalso. apply j. right. exact i.
    + exfalso. destruct j; [congruence|contradiction].
Qed.
Lemma map_filter_fst : forall {V} (f : Z -> bool) (d : list (Z * V)), map fst (filter (fun e => f (fst e)) d) = filter f (map fst d).
Proof. induction d as [|[k v] d IH]; [reflexivity|]. cbn. destruct (f k); cbn; congruence. Qed.
Lemma filter_filter : forall {A} (f g : A -> bool) l, filter f (filter g l) = filter (fun x => g x && f x) l.
Proof. induction l as [|x l IH]; [reflexivity|]. cbn. destruct (g x); cbn; [destruct (f x)|]; rewrite ?IH; reflexivity. Qed.

(** The descriptors of the other properties. *)
Definition others (descs : list (Z * Z)) : list (Z * Z) :=
  map snd (filter (fun e => negb (fst e =? PID_DICTIONARY)) (filter (fun e => negb (fst e =? PID_CODEPAGE)) (descmap descs))).

Lemma descmap_keys : forall descs, map fst (descmap descs) = first_listed (map fst descs).
Proof. intros. apply (dict_from_keys fst (fun e => e)). Qed.
Lemma descmap_entry : forall descs k d, In (k, d) (descmap descs) -> k = fst d /\ last_with (fst d) (snd d) descs.
Proof.
  intros descs k d H.
  assert (N : NoDup (map fst (descmap descs))) by (rewrite descmap_keys; apply nodup_first_listed).
  apply (zdict_get_in k d _ N) in H.
  assert (I : In k (map fst descs)).
  { apply in_first_listed. rewrite <- descmap_keys. apply (zdict_get_in k d _ N) in H. apply (in_map fst) in H. exact H. }
  destruct (last_with_exists descs k I) as [o O]. rewrite (descmap_get _ _ _ O) in H. injection H as <-. split; [reflexivity|exact O].
Qed.

Lemma others_match : forall formats b fmtid off descs pc,
  map p_id pc = filter (fun i => negb (i =? 0) && negb (i =? 1)) (first_listed (map fst descs)) ->
  Forall (listed_property formats b fmtid off descs) pc ->
  others descs = map (fun p => (p_id p, p_offset p)) pc.
Proof.
  intros formats b fmtid off descs pc E F. unfold others. rewrite filter_filter.
  rewrite <- descmap_keys in E.
  assert (E' : map p_id pc = map fst (filter (fun e => negb (fst e =? 1) && negb (fst e =? 0)) (descmap descs))).
  { rewrite (map_filter_fst (fun i => negb (i =? 1) && negb (i =? 0))). rewrite E. apply filter_ext. intros. apply andb_comm. }
  clear E. change PID_CODEPAGE with 1. change PID_DICTIONARY with 0.
  assert (K : forall e, In e (filter (fun e => negb (fst e =? 1) && negb (fst e =? 0)) (descmap descs)) -> fst e = fst (snd e) /\ last_with (fst (snd e)) (snd (snd e)) descs).
  { intros [k d] H. apply filter_In in H. apply (descmap_entry _ k d). apply H. }
  revert E' K. generalize (filter (fun e : Z * (Z * Z) => negb (fst e =? 1) && negb (fst e =? 0)) (descmap descs)). intros l.
  revert pc F. induction l as [|[k [i o]] l IH]; intros pc F E K; destruct pc as [|p pc]; cbn in E; try discriminate; [reflexivity|].
  injection E as E1 E2. inversion F as [|? ? [L _] F']; subst. cbn [map snd].
  destruct (K (p_id p, (i, o)) (or_introl eq_refl)) as [K1 K2]. cbn in K1, K2. subst i.
  rewrite (last_with_unique _ _ _ _ K2 L). f_equal. apply IH; [exact F'|exact E2|]. intros e H. apply K. right. exact H.
Qed.

Lemma Forall_split3 : forall {A B} (f : A -> B) l x y z, map f l = x ++ y ++ z ->
  exists a b c, l = a ++ b ++ c /\ map f a = x /\ map f b = y /\ map f c = z.
Proof.
  intros A B f l x y z E. apply map_eq_app in E. destruct E as (a & r & -> & E1 & E2).
  apply map_eq_app in E2. destruct E2 as (b & c & -> & E3 & E4). exists a, b, c. auto.
Qed.

Lemma get_listed : forall descs i, zdict_get i (descmap descs) = None \/ exists o, zdict_get i (descmap descs) = Some (i, o) /\ last_with i o descs.
Proof.
  intros. destruct (in_dec Z.eq_dec i (map fst descs)) as [H|H].
  - right. destruct (last_with_exists descs i H) as [o O]. exists o. split; [apply descmap_get|]; exact O.
  - left. apply zdict_get_none. rewrite descmap_keys, in_first_listed. exact H.
Qed.
Lemma get_absent : forall descs i, ~ In i (map fst descs) -> zdict_get i (descmap descs) = None.
Proof. intros. apply zdict_get_none. rewrite descmap_keys, in_first_listed. exact H. Qed.

Lemma zdict_get_filter : forall {V} k j (d : list (Z * V)), k <> j -> zdict_get k (filter (fun e => negb (fst e =? j)) d) = zdict_get k d.
Proof.
  induction d as [|[k0 v0] d IH]; intros N; [reflexivity|]. cbn [filter fst zdict_get].
  destruct (Z.eqb_spec k0 j) as [->|D]; cbn [negb zdict_get].
  - destruct (Z.eqb_spec k j); [contradiction|]. apply IH. exact N.
  - destruct (k =? k0); [reflexivity|apply IH; exact N].
Qed.

(** The first two phases. *)
Definition codepage_phase (k : nat) (formats : list property_set_format) (b fmtid : list Z) (off : Z) (descs : list (Z * Z)) : fres (list property) :=
  match zdict_get 1 (descmap descs) with
  | Some d => fbind (read_property k b off d (zdict_get (fst d) (id_labels formats fmtid))) (fun p => fret [p])
  | None => fret []
  end.
Definition dictionary_phase (k : nat) (formats : list property_set_format) (b fmtid : list Z) (off : Z) (descs : list (Z * Z)) : fres (list property) :=
  match zdict_get 0 (descmap descs) with
  | Some d => fbind (read_dictionary k b off d (zdict_get (fst d) (id_labels formats fmtid))) (fun p => fret [p])
  | None => fret []
  end.
Definition others_phase (k : nat) (formats : list property_set_format) (b fmtid : list Z) (off : Z) (descs : list (Z * Z)) (dictionary : list property) : fres (list property) :=
  fmap (fun d =>
    match dictionary with
    | [] => fraise AttributeError
    | _ => read_property k b off d (zdict_get (fst d) (id_labels formats fmtid))
    end) (others descs).
Lemma read_set_phases : forall formats b fmtid off size descs r,
  set_at b off size descs ->
  eventually (fun k =>
    fbind (codepage_phase k formats b fmtid off descs) (fun codepage =>
    fbind (dictionary_phase k formats b fmtid off descs) (fun dictionary =>
    fbind (others_phase k formats b fmtid off descs dictionary) (fun rest =>
    fret (mkPropertySet fmtid off size descs (codepage ++ dictionary ++ rest)))))) r ->
  eventually (fun k => read_property_set k formats b (fmtid, off)) r.
Proof.
  intros formats b fmtid off size descs r [OK A] H. destruct (seek_at _ _ _ A) as [after E].
  unfold read_property_set. cbn [fst snd]. rewrite E.
  apply ev_bind with (x := set_header_value size descs).
  - eapply ev_fst. apply rtype_ser; [apply wf_types|]. apply ser_set_header. exact OK.
  - apply ev_bind with (x := (size, descs)); [rewrite set_header_of; apply ev_const|]. cbn [fst snd].
    unfold zdict_pop. change PID_CODEPAGE with 1. change PID_DICTIONARY with 0.
    fold (dict_from (@fst Z Z) (fun e : Z * Z => e) descs). fold (descmap descs).
    eapply ev_ext; [|exact H]. intros k. cbv beta.
    rewrite (zdict_get_filter 0 1) by lia.
    reflexivity.
Qed.

Lemma ev_codepage : forall formats b fmtid off descs pa,
  map p_id pa = filter (Z.eqb 1) (first_listed (map fst descs)) -> Forall (listed_property formats b fmtid off descs) pa ->
  eventually (fun k => codepage_phase k formats b fmtid off descs) (Some (Ok pa)).
Proof.
  intros formats b fmtid off descs pa E F. unfold codepage_phase.
  rewrite filter_one in E by apply nodup_first_listed.
  destruct (in_dec Z.eq_dec 1 (first_listed (map fst descs))) as [i|i].
  - destruct pa as [|p [|q pa]]; try discriminate. cbn in E. injection E as E. inversion F as [|? ? (L & S & B) _]; subst.
    rewrite E in L. rewrite (descmap_get _ _ _ L). cbn [fst]. rewrite (label_found _ _ _ (p_label p)) by (rewrite <- E; exact B).
    apply ev_bind with (x := p); [|apply ev_const]. rewrite <- E. apply ev_property; [lia|exact S].
  - destruct pa; [|discriminate]. rewrite get_absent by (rewrite <- in_first_listed; exact i). apply ev_const.
Qed.
Lemma ev_dictionary_phase : forall formats b fmtid off descs pb,
  map p_id pb = filter (Z.eqb 0) (first_listed (map fst descs)) -> Forall (listed_property formats b fmtid off descs) pb ->
  eventually (fun k => dictionary_phase k formats b fmtid off descs) (Some (Ok pb)).
Proof.
  intros formats b fmtid off descs pb E F. unfold dictionary_phase.
  rewrite filter_one in E by apply nodup_first_listed.
  destruct (in_dec Z.eq_dec 0 (first_listed (map fst descs))) as [i|i].
  - destruct pb as [|p [|q pb]]; try discriminate. cbn in E. injection E as E. inversion F as [|? ? (L & S & B) _]; subst.
    rewrite E in L. rewrite (descmap_get _ _ _ L). cbn [fst]. rewrite (label_found _ _ _ (p_label p)) by (rewrite <- E; exact B).
    apply ev_bind with (x := p); [|apply ev_const]. rewrite <- E. apply ev_dictionary; [exact E|exact S].
  - destruct pb; [|discriminate]. rewrite get_absent by (rewrite <- in_first_listed; exact i). apply ev_const.
Qed.

Lemma ev_others_items : forall formats b fmtid off descs (dictionary ps : list property), dictionary <> [] ->
  Forall (fun p => p_id p <> 0) ps -> Forall (listed_property formats b fmtid off descs) ps ->
  Forall2 (fun d p => eventually (fun k => match dictionary with [] => fraise AttributeError
     | _ => read_property k b off d (zdict_get (fst d) (id_labels formats fmtid)) end) (Some (Ok p)))
   (map (fun p => (p_id p, p_offset p)) ps) ps.
Proof.
  intros formats b fmtid off descs dictionary ps D N F. induction F as [|p ps (L & S & B) F IH]; [constructor|].
  inversion N; subst. cbn [map]. constructor; [|apply IH; assumption]. destruct dictionary; [congruence|].
  cbn [fst]. rewrite (label_found _ _ _ _ B). apply ev_property; assumption.
Qed.
Lemma others_ids : forall ps (ids : list Z), map p_id ps = filter (fun i => negb (i =? 0) && negb (i =? 1)) ids -> Forall (fun p => p_id p <> 0) ps.
Proof.
  intros ps ids E. apply Forall_forall. intros p H. apply (in_map p_id) in H. rewrite E in H. apply filter_In in H. lia.
Qed.

Theorem read_set : forall formats b s, set_reads_as formats b s ->
  eventually (fun k => read_property_set k formats b (ps_fmtid s, ps_offset s)) (Some (Ok s)).
Proof.
  intros formats b [fmtid off size descs props] (A & D & E & F). cbn [ps_fmtid ps_offset ps_bytesize ps_descs ps_properties] in *.
  unfold reading_order in E. destruct (Forall_split3 _ _ _ _ _ E) as (pa & pb & pc & -> & E1 & E2 & E3).
  apply Forall_app in F. destruct F as [F1 F]. apply Forall_app in F. destruct F as [F2 F3].
  eapply read_set_phases; [exact A|].
  apply ev_bind with (x := pa); [apply ev_codepage; assumption|].
  apply ev_bind with (x := pb); [apply ev_dictionary_phase; assumption|].
  apply ev_bind with (x := pc); [|apply ev_const].
  unfold others_phase. rewrite (others_match formats b fmtid off descs pc) by assumption.
  destruct D as [D|D].
  - assert (pb <> []).
    { intros ->. cbn in E2. rewrite filter_one in E2 by apply nodup_first_listed.
      destruct (in_dec Z.eq_dec 0 (first_listed (map fst descs))) as [i|i]; [discriminate|]. apply i. apply in_first_listed. exact D. }
    apply (ev_fmap (fun k d => match pb with [] => fraise AttributeError
      | _ => read_property k b off d (zdict_get (fst d) (id_labels formats fmtid)) end)).
    apply (ev_others_items formats b fmtid off descs); [assumption|apply others_ids in E3; exact E3|exact F3].
  - assert (pc = []).
    { destruct pc as [|p pc]; [reflexivity|]. exfalso.
      assert (I : In (p_id p) (map p_id (p :: pc))) by (left; reflexivity). rewrite E3 in I. apply filter_In in I.
      destruct I as [I1 I2]. apply (proj1 (in_first_listed _ _)) in I1. apply D in I1. rewrite I1 in I2. discriminate. }
    subst pc. exists O. reflexivity.
Qed.

Theorem read_stream : forall formats b s, stream_reads_as formats b s ->
  eventually (fun k => read_property_set_stream k formats b) (Some (Ok s)).
Proof.
  intros formats b [h sets] (OK & A & E & F). cbn [pss_header pss_sets] in *.
  destruct (seek_at _ _ _ A) as [after S]. unfold read_property_set_stream.
  replace (open_bytes b) with (seek b 0) by (unfold seek; destruct b; reflexivity). rewrite S.
  apply ev_bind with (x := stream_header_value h).
  - eapply ev_fst. apply rtype_ser; [apply wf_types|]. apply ser_stream_header. exact OK.
  - apply ev_bind with (x := h); [rewrite stream_header_of by exact OK; apply ev_const|].
    apply ev_bind with (x := sets); [|apply ev_const].
    apply ev_fmap. rewrite <- E. clear E OK A. induction F as [|s sets H F IH]; [constructor|].
    cbn [map]. constructor; [|exact IH]. apply read_set. exact H.
Qed.

(** ** Failures *)
Theorem no_dictionary : forall formats b fmtid off size descs i,
  set_at b off size descs -> ~ has_dictionary descs -> In i (map fst descs) -> i <> 1 ->
  (In 1 (map fst descs) -> exists p, p_id p = 1 /\ listed_property formats b fmtid off descs p) ->
  eventually (fun k => read_property_set k formats b (fmtid, off)) (Some (Raise AttributeError)).
Proof.
  intros formats b fmtid off size descs i A N I D P. eapply read_set_phases; [exact A|].
  assert (C : exists pa, eventually (fun k => codepage_phase k formats b fmtid off descs) (Some (Ok pa))).
  { destruct (in_dec Z.eq_dec 1 (map fst descs)) as [j|j].
    - destruct (P j) as (p & E & L). exists [p]. apply ev_codepage; [|constructor; [exact L|constructor]].
      rewrite filter_one by apply nodup_first_listed. cbn [map]. rewrite E.
      destruct (in_dec Z.eq_dec 1 (first_listed (map fst descs))) as [|X]; [reflexivity|]. exfalso. apply X. apply in_first_listed. exact j.
    - exists []. unfold codepage_phase. rewrite get_absent by exact j. apply ev_const. }
  destruct C as [pa C]. apply ev_bind with (x := pa); [exact C|].
  apply ev_bind with (x := []); [unfold dictionary_phase; rewrite get_absent by exact N; apply ev_const|].
  apply ev_bind_raise. unfold others_phase.
  assert (O : exists d r, others descs = d :: r).
  { assert (K : In i (map fst (filter (fun e : Z * (Z * Z) => negb (fst e =? PID_DICTIONARY)) (filter (fun e => negb (fst e =? PID_CODEPAGE)) (descmap descs))))).
    { rewrite (map_filter_fst (fun k => negb (k =? PID_DICTIONARY))), (map_filter_fst (fun k => negb (k =? PID_CODEPAGE))), descmap_keys.
      apply filter_In. split; [apply filter_In; split; [apply in_first_listed; exact I|]|].
      - unfold PID_CODEPAGE. lia.
      - unfold PID_DICTIONARY. assert (i <> 0) by (intros ->; apply N; exact I). lia. }
    unfold others. destruct (filter _ (filter _ _)) as [|d r]; [destruct K|]. exists (snd d), (map snd r). reflexivity. }
  destruct O as (d & r & ->). apply ev_const.
Qed.

Lemma split_behind : forall {A} (i : A) X C D later, X ++ C = D ++ i :: later -> ~ In i X ->
  exists C1, D = X ++ C1 /\ C = C1 ++ i :: later.
Proof.
  intros A i X. induction X as [|x X IH]; intros C D later E N; cbn in E; [exists D; auto|].
  destruct D as [|d D]; cbn in E; injection E as E1 E2.
  - exfalso. apply N. left. congruence.
  - subst d. destruct (IH _ _ _ E2) as (C1 & -> & ->); [intros H; apply N; right; exact H|]. exists C1. auto.
Qed.

Theorem unknown_type : forall formats b fmtid off size descs before i later o w,
  set_at b off size descs -> reading_order descs = map p_id before ++ i :: later ->
  Forall (listed_property formats b fmtid off descs) before -> (has_dictionary descs \/ i = 1) ->
  i <> 0 -> last_with i o descs -> is_u32 w -> at_offset b (off + o) (u32 w) -> ~ In (w mod 2 ^ 17) [3; 31; 64] ->
  eventually (fun k => read_property_set k formats b (fmtid, off)) (Some (Raise KeyError)).
Proof.
  intros formats b fmtid off size descs before i later o w A E F H N L W AT U. eapply read_set_phases; [exact A|].
  unfold reading_order in E.
  assert (I : In i (map fst descs)) by (destruct L as (l1 & l2 & -> & _); rewrite map_app, in_app_iff; right; left; reflexivity).
  destruct (Z.eq_dec i 1) as [->|D].
  - apply ev_bind_raise. unfold codepage_phase. rewrite (descmap_get _ _ _ L).
    apply ev_bind_raise. eapply ev_unknown_type; eassumption.
  - rewrite app_assoc in E.
    apply split_behind in E; [|rewrite in_app_iff, !filter_In; lia]. destruct E as (C1 & E1 & E2).
    rewrite <- app_assoc in E1. destruct (Forall_split3 _ _ _ _ _ E1) as (pa & pb & pc & -> & E3 & E4 & E5).
    apply Forall_app in F. destruct F as [F1 F]. apply Forall_app in F. destruct F as [F2 F3].
    apply ev_bind with (x := pa); [apply ev_codepage; assumption|].
    apply ev_bind with (x := pb); [apply ev_dictionary_phase; assumption|].
    apply ev_bind_raise. unfold others_phase.
    assert (B : pb <> []).
    { intros ->. cbn in E4. rewrite filter_one in E4 by apply nodup_first_listed.
      destruct (in_dec Z.eq_dec 0 (first_listed (map fst descs))) as [j|j]; [discriminate|].
      destruct H as [H|H]; [|contradiction]. apply j. apply in_first_listed. exact H. }
    subst C1.
    assert (O : exists r, others descs = map (fun p => (p_id p, p_offset p)) pc ++ (i, o) :: r).
    { unfold others. rewrite filter_filter. change PID_CODEPAGE with 1. change PID_DICTIONARY with 0.
      rewrite <- descmap_keys in E2.
      assert (E' : map fst (filter (fun e => negb (fst e =? 1) && negb (fst e =? 0)) (descmap descs)) = map p_id pc ++ i :: later).
      { rewrite (map_filter_fst (fun i => negb (i =? 1) && negb (i =? 0))). rewrite <- E2. apply filter_ext. intros. apply andb_comm. }
      assert (K : forall e, In e (filter (fun e => negb (fst e =? 1) && negb (fst e =? 0)) (descmap descs)) -> fst e = fst (snd e) /\ last_with (fst (snd e)) (snd (snd e)) descs).
      { intros [k d] X. apply filter_In in X. apply (descmap_entry _ k d). apply X. }
      revert E' K. generalize (filter (fun e : Z * (Z * Z) => negb (fst e =? 1) && negb (fst e =? 0)) (descmap descs)).
      clear E1 E2 E3 E4. revert F3. induction pc as [|p pc IH]; intros F3 l E' K; destruct l as [|[k [i' o']] l]; cbn in E'; try discriminate.
      - injection E' as E1 E2. destruct (K (k, (i', o')) (or_introl eq_refl)) as [K1 K2]. cbn in K1, K2. subst k i'.
        rewrite (last_with_unique _ _ _ _ K2 L). eexists. reflexivity.
      - injection E' as E1 E2. destruct (K (k, (i', o')) (or_introl eq_refl)) as [K1 K2]. cbn in K1, K2. subst k i'.
        inversion F3 as [|? ? (L1 & _) F4]; subst. destruct (IH F4 l E2) as [r R]; [intros e X; apply K; right; exact X|].
        exists r. cbn [map snd app]. rewrite R. rewrite (last_with_unique _ _ _ _ K2 L1). reflexivity. }
    destruct O as [r ->].
    apply (ev_fmap_raise (fun k d => match pb with [] => fraise AttributeError
      | _ => read_property k b off d (zdict_get (fst d) (id_labels formats fmtid)) end)) with (ys := pc).
    + apply (ev_others_items formats b fmtid off descs); [exact B| |exact F3].
      apply Forall_forall. intros p X. apply (in_map p_id) in X.
      assert (Y : In (p_id p) (filter (fun i : Z => negb (i =? 0) && negb (i =? 1)) (first_listed (map fst descs)))).
      { rewrite E2. apply in_app_iff. left. exact X. }
      apply filter_In in Y. lia.
    + destruct pb; [congruence|]. eapply ev_unknown_type; eassumption.
Qed.

(** ** Looking up *)
Theorem lookup_listed : forall formats b s p, set_reads_as formats b s -> In p (ps_properties s) -> getitem (ps_properties s) (p_id p) = Ok (p_value p).
Proof.
  intros formats b s p (_ & _ & E & _) I. unfold getitem.
  assert (N : NoDup (map p_id (ps_properties s))).
  { rewrite E. unfold reading_order. set (ids := first_listed (map fst (ps_descs s))).
    assert (M : NoDup ids) by apply nodup_first_listed.
    assert (S : forall A (l m : list A), NoDup l -> NoDup m -> (forall x, In x l -> ~ In x m) -> NoDup (l ++ m)).
    { clear. intros A l m H. induction H as [|x l X _ IH]; intros Hm D; [exact Hm|]. cbn. constructor.
      - rewrite in_app_iff. intros [K|K]; [contradiction|]. apply (D x); [left; reflexivity|exact K].
      - apply IH; [exact Hm|]. intros y Y. apply D. right. exact Y. }
    apply S; [apply NoDup_filter; exact M| |].
    - apply S; [apply NoDup_filter; exact M|apply NoDup_filter; exact M|]. intros x. rewrite !filter_In. lia.
    - intros x. rewrite in_app_iff, !filter_In. lia. }
  revert N I. generalize (ps_properties s). induction l as [|q l IH]; intros N I; [destruct I|].
  cbn [find]. cbn [map] in N. inversion N; subst. destruct (Z.eqb_spec (p_id q) (p_id p)) as [X|X].
  - destruct I as [->|I]; [reflexivity|]. exfalso. apply H1. rewrite X. apply (in_map p_id). exact I.
  - destruct I as [->|I]; [congruence|]. apply IH; assumption.
Qed.
Theorem lookup_missing : forall formats b s i, set_reads_as formats b s -> ~ In i (map fst (ps_descs s)) -> getitem (ps_properties s) i = Raise KeyError.
Proof.
  intros formats b s i (_ & _ & E & _) N. unfold getitem.
  destruct (find (fun p => p_id p =? i) (ps_properties s)) as [p|] eqn:F; [|reflexivity]. exfalso. apply find_some in F. destruct F as [I X].
  apply N. apply (in_map p_id) in I. rewrite E in I. assert (p_id p = i) by lia. subst i.
  unfold reading_order in I. rewrite !in_app_iff, !filter_In, !in_first_listed in I. tauto.
Qed.
Theorem every_id_read : forall formats b s i, set_reads_as formats b s -> In i (map fst (ps_descs s)) -> exists p, In p (ps_properties s) /\ p_id p = i.
Proof.
  intros formats b s i (_ & _ & E & _) I.
  assert (X : In i (map p_id (ps_properties s))).
  { rewrite E. unfold reading_order. rewrite !in_app_iff, !filter_In, !in_first_listed.
    destruct (Z.eq_dec i 1); [left; split; [exact I|lia]|]. destruct (Z.eq_dec i 0); [right; left; split; [exact I|lia]|].
    right; right. split; [exact I|lia]. }
  apply in_map_iff in X. destruct X as (p & Y & Z'). exists p. auto.
Qed.

(** ** Every byte string gets an answer *)
Definition answers {X} (f : nat -> fres X) : Prop := exists r, eventually f (Some r).
Lemma an_bind : forall {X Y} (f : nat -> fres X) (g : nat -> X -> fres Y), answers f -> (forall x, answers (fun n => g n x)) -> answers (fun n => fbind (f n) (g n)).
Proof.
  intros X Y f g [[x|e] F] G.
  - destruct (G x) as [r R]. exists r. eapply ev_bind; eassumption.
  - exists (Raise e). apply ev_bind_raise. exact F.
Qed.
Lemma an_const : forall {X} (r : res X), answers (fun _ => Some r).
Proof. intros. exists r. apply ev_const. Qed.
Lemma an_fmap : forall {X Y} (f : nat -> X -> fres Y) l, (forall x, answers (fun n => f n x)) -> answers (fun n => fmap (f n) l).
Proof.
  intros X Y f l H. induction l as [|x l IH]; [apply an_const|]. cbn [fmap]. apply an_bind; [apply H|]. intros y.
  apply an_bind; [exact IH|]. intros ys. apply an_const.
Qed.

Lemma rtype_answers : forall t s, wf unit t -> sane unit t -> all_bytes (s_rest s) ->
  exists r s', eventually (fun k => rtype k t s) (Some r, s') /\ match r with Ok _ => all_bytes (s_rest s') | Raise _ => True end.
Proof.
  intros t s W S B. destruct (read_type_is unit tt None t s W B S) as [n Hn].
  destruct (rd unit tt None None None None t s) as [[tr s'] [[[v|]|e]|]]; try (exfalso; exact (Hn O)).
  - exists (Ok v), s'. split; [apply (ev_add _ _ n); intros k; apply Hn|].
    destruct (Hn O) as [E _]. destruct (leaves_tile unit tt None t s _ tr s' W S B E) as (_ & c & C & _).
    rewrite C in B. unfold all_bytes in *. apply Forall_app in B. apply B.
  - exists (Raise e), s'. split; [|exact I]. apply (ev_add _ _ n). intros k. apply Hn.
Qed.
Lemma sane_types : sane unit typed_property_value_type /\ sane unit dictionary_type /\
  sane unit property_set_header_type /\ sane unit property_set_stream_header_type /\ sane unit (TPrim unit (PFmt UINT32)) /\ sane unit (TPrim unit (PFmt INT32)).
Proof. cbn. unfold int_fmt. cbn. repeat split; try discriminate; lia. Qed.
Lemma all_bytes_drop : forall n b, all_bytes b -> all_bytes (zdrop n b).
Proof. intros n b H. unfold all_bytes in *. rewrite <- (ztake_zdrop _ n b) in H. apply Forall_app in H. apply H. Qed.

Lemma read_int_answers : forall f s, f = UINT32 \/ f = INT32 -> all_bytes (s_rest s) ->
  exists r s', eventually (fun k => read_int k f s) (Some r, s') /\ match r with Ok _ => all_bytes (s_rest s') | Raise _ => True end.
Proof.
  intros f s F B. assert (S : sane unit (TPrim unit (PFmt f))) by (destruct F as [-> | ->]; apply sane_types).
  destruct (rtype_answers (TPrim unit (PFmt f)) s I S B) as (r & s' & E & C).
  exists (match r with Ok v => int_of_value v | Raise e => Raise e end), s'. split.
  - unfold read_int. eapply ev_let; [exact E|]. destruct r; apply ev_const.
  - destruct r as [v|e]; [|exact I]. destruct (int_of_value v); [exact C|exact I].
Qed.

Lemma read_value_answers : forall code s, all_bytes (s_rest s) -> answers (fun k => read_value k code s).
Proof.
  intros code s B. unfold read_value. destruct (code =? VT_I4).
  - destruct (read_int_answers INT32 s (or_intror eq_refl) B) as (r & s' & E & _).
    apply an_bind; [exists r; eapply ev_fst; exact E|]. intros x. apply an_const.
  - destruct (code =? VT_LPWSTR).
    + destruct (read_int_answers UINT32 s (or_introl eq_refl) B) as (r & s' & E & _).
      assert (A : answers (fun k : nat => fbind (Some r) (fun length : Z => let data := fst (stream_read (length * 2) s') in
         fbind (flift (utf16le_decode data)) (fun t : list Z => fret (PVText (removelast t)))))).
      { apply an_bind; [apply an_const|]. intros x. apply an_bind; [apply an_const|]. intros y. apply an_const. }
      destruct A as [q Q]. exists q. eapply ev_let; [exact E|]. exact Q.
    + destruct (code =? VT_FILETIME); [|apply an_const].
      destruct (read_int_answers UINT32 s (or_introl eq_refl) B) as (r & s' & E & C).
      assert (A : answers (fun k : nat => fbind (Some r) (fun lword : Z => fbind (fst (read_int k UINT32 s')) (fun hword : Z =>
         fret (PVTime (Z.lor (Z.shiftl hword 32) lword)))))).
      { destruct r as [l|e]; [|apply an_const]. cbn [fbind]. apply an_bind.
        - destruct (read_int_answers UINT32 s' (or_introl eq_refl) C) as (r' & s2 & E' & _). exists r'. eapply ev_fst. exact E'.
        - intros h. apply an_const. }
      destruct A as [q Q]. exists q. eapply ev_let; [exact E|]. exact Q.
Qed.
Lemma read_property_answers : forall b off d label, all_bytes b -> answers (fun k => read_property k b off d label).
Proof.
  intros b off d label B. unfold read_property.
  destruct (rtype_answers typed_property_value_type (seek b (off + snd d)) (proj1 (proj2 wf_types)) (proj1 sane_types) (all_bytes_drop _ _ B)) as (r & s' & E & C).
  assert (A : answers (fun k => fbind (Some r) (fun v => fbind (flift (typed_property_code v)) (fun code => fbind (read_value k code s') (fun x =>
     fret (mkProperty (fst d) (snd d) label (Some code) x)))))).
  { destruct r as [v|e]; [|apply an_const]. cbn [fbind]. apply an_bind; [apply an_const|]. intros code. apply an_bind; [apply read_value_answers; exact C|].
    intros x. apply an_const. }
  destruct A as [q Q]. exists q. eapply ev_let; [exact E|]. exact Q.
Qed.
Lemma read_dictionary_answers : forall b off d label, all_bytes b -> answers (fun k => read_dictionary k b off d label).
Proof.
  intros b off d label B. unfold read_dictionary.
  destruct (rtype_answers dictionary_type (seek b (off + snd d))) as (r & s' & E & C); [apply wf_types|apply sane_types|apply all_bytes_drop; exact B|].
  apply an_bind; [exists r; eapply ev_fst; exact E|]. intros v. apply an_bind; [apply an_const|]. intros es. apply an_const.
Qed.
Lemma read_set_answers : forall formats b d, all_bytes b -> answers (fun k => read_property_set k formats b d).
Proof.
  intros formats b [fmtid off] B. unfold read_property_set. cbn [fst snd].
  destruct (rtype_answers property_set_header_type (seek b off)) as (r & s' & E & C); [apply wf_types|apply sane_types|apply all_bytes_drop; exact B|].
  apply an_bind; [exists r; eapply ev_fst; exact E|]. intros v. apply an_bind; [apply an_const|]. intros h.
  unfold zdict_pop. apply an_bind.
  - destruct (zdict_get _ _) as [d|]; [|apply an_const]. apply an_bind; [apply read_property_answers; exact B|]. intros p. apply an_const.
  - intros codepage. apply an_bind.
    + destruct (zdict_get _ _) as [d|]; [|apply an_const]. apply an_bind; [apply read_dictionary_answers; exact B|]. intros p. apply an_const.
    + intros dictionary. apply an_bind; [|intros o; apply an_const].
      apply (an_fmap (fun k d => match dictionary with [] => fraise AttributeError
        | _ => read_property k b off d (zdict_get (fst d) (id_labels formats fmtid)) end)).
      intros d. destruct dictionary; [apply an_const|]. apply read_property_answers. exact B.
Qed.
Theorem read_stream_answers : forall formats b, all_bytes b -> exists r, eventually (fun k => read_property_set_stream k formats b) (Some r).
Proof.
  intros formats b B. change (answers (fun k => read_property_set_stream k formats b)). unfold read_property_set_stream.
  destruct (rtype_answers property_set_stream_header_type (open_bytes b)) as (r & s' & E & C); [apply wf_types|apply sane_types|exact B|].
  apply an_bind; [exists r; eapply ev_fst; exact E|]. intros v. apply an_bind; [apply an_const|]. intros h.
  apply an_bind; [|intros sets; apply an_const]. apply an_fmap. intros d. apply read_set_answers. exact B.
Qed.
