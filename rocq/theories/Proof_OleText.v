(** Proofs about the text of property sets and of the summary information. *)
From Coq Require Import ZArith String List Bool Lia Permutation Sorted.
From Verif Require Import Base BaseFacts Model_Text Model_Dataio Model_Bintype Model_XmlText Model_Oleprops
  Spec_Text Spec_Dataio Spec_Bintype Spec_Filestructure Spec_Oleprops Proof_Text Proof_Dataio Proof_Filestructure Proof_XmlText Proof_Oleprops.
Import ListNotations.
Open Scope string_scope.
Open Scope list_scope.
Open Scope Z_scope.

Lemma hex_digit_ok : forall d, is_digit 16 d -> hex_digit (hexdigit_lower d) d.
Proof. intros d H. unfold is_digit in H. unfold hex_digit, hexdigit_lower. destruct (d <? 10) eqn:E; lia. Qed.
Lemma hex_number_ok : forall ds, Forall (is_digit 16) ds -> ds <> [] -> hex_number (map hexdigit_lower ds) (of_digits 16 ds).
Proof.
  induction ds as [|d ds IH] using rev_ind; intros F N; [congruence|].
  apply Forall_app in F. destruct F as [F1 F2]. inversion F2; subst.
  destruct ds as [|x ds].
  - cbn. constructor. apply hex_digit_ok. assumption.
  - rewrite map_app, of_digits_app. cbn [map]. change (zlen [d]) with 1. rewrite Z.pow_1_r.
    replace (of_digits 16 (x :: ds) * 16 + of_digits 16 [d]) with (16 * of_digits 16 (x :: ds) + d) by (change (of_digits 16 [d]) with (0 * 16 + d); lia).
    apply hex_more; [apply IH; [exact F1|discriminate]|apply hex_digit_ok; assumption].
Qed.
Lemma hex_field_ok : forall w n, 0 <= n -> hex_field (Z.max 1 w) (fmt_x w n) n.
Proof.
  intros w n Hn. destruct (digits_spec 16 n ltac:(lia) Hn) as (E1 & E2 & E3 & E4).
  destruct (fmt_x_digits w n Hn) as (ds & D1 & D2 & D3 & D4).
  assert (L : 1 <= zlen (digits 16 n)).
  { destruct (digits 16 n); [congruence|]. rewrite zlen_cons. pose proof (zlen_nonneg _ l). lia. }
  split; [|split].
  - rewrite D1, <- D2. apply hex_number_ok; [exact D3|]. intros ->. change (zlen (@nil Z)) with 0 in D4. lia.
  - rewrite D1, zlen_map, D4. lia.
  - intros H1 H2. rewrite D1, zlen_map, D4 in H1, H2.
    unfold fmt_x, zero_pad. rewrite zlen_map. replace (repeat_z 48 (w - zlen (digits 16 n))) with (@nil Z)
      by (unfold repeat_z; replace (Z.to_nat (w - zlen (digits 16 n))) with O by lia; reflexivity).
    cbn [app]. destruct (digits 16 n) as [|d l] eqn:E; [congruence|]. cbn [map hd].
    assert (H3 : is_digit 16 d) by (inversion E2; assumption). clear E1 D1 D2.
    assert (P : 0 < n).
    { destruct (Z.eq_dec n 0) as [->|]; [|lia]. exfalso. assert (X : digits 16 0 = [0]) by reflexivity. rewrite X in E. injection E as <- <-.
      change (zlen [0]) with 1 in H1, H2. lia. }
    specialize (E4 P). cbn in E4. unfold is_digit in H3. unfold hexdigit_lower. destruct (d <? 10) eqn:X; lia.
Qed.
Lemma hex8 : forall n, 0 <= n -> hex_field 8 (fmt_x 8 n) n.
Proof. intros. apply (hex_field_ok 8). assumption. Qed.

Lemma decimal_ok : forall n, decimal (fmt_d n) n.
Proof.
  intros n. destruct (Z_lt_ge_dec n 0) as [H|H].
  - right. split; [exact H|]. exists (fmt_d (- n)). split; [apply numeral_of; lia|].
    unfold fmt_d. destruct (n <? 0) eqn:E; [|lia]. destruct (- n <? 0) eqn:E2; [lia|]. reflexivity.
  - left. split; [lia|]. apply numeral_of. lia.
Qed.

Lemma byte_hex : forall b, is_byte b -> hex_field 2 (fmt_x 2 b) b /\ zlen (fmt_x 2 b) = 2.
Proof.
  intros b H. unfold is_byte in H. split; [apply (hex_field_ok 2); lia|].
  destruct (fmt_x2_byte b H) as (x & y & E & _). rewrite E. reflexivity.
Qed.

Lemma guid_text_ok : forall u, is_guid u -> guid_text (uuid_str u) u.
Proof.
  intros u [L B]. exists (map (fmt_x 2) u). split.
  - unfold all_bytes in B. clear L. induction B as [|b u Hb _ IH]; [constructor|]. cbn [map]. constructor; [apply byte_hex; exact Hb|exact IH].
  - do 16 (destruct u as [|? u]; [exfalso; unfold zlen in L; cbn in L; lia|]).
    destruct u as [|? u]; [|exfalso; unfold zlen in L; cbn [length] in L; lia].
    unfold all_bytes in B. repeat match goal with H : Forall _ (_ :: _) |- _ => inversion H; clear H; subst end.
    unfold uuid_str. cbn [map].
    repeat match goal with H : is_byte ?b |- _ =>
      destruct (fmt_x2_byte b H) as (? & ? & -> & _); clear H end.
    reflexivity.
Qed.

(** Sorting by offset. *)
Lemma insert_property_spec : forall p l, StronglySorted (fun p q => p_offset p <= p_offset q) l ->
  Permutation (l ++ [p]) (insert_property p l) /\ StronglySorted (fun p q => p_offset p <= p_offset q) (insert_property p l) /\
  forall o, filter (fun q => p_offset q =? o) (insert_property p l) = filter (fun q => p_offset q =? o) (l ++ [p]).
Proof.
  intros p l S. induction S as [|q l S IH H]; cbn [insert_property app].
  - split; [apply Permutation_refl|]. split; [repeat constructor|reflexivity].
  - destruct (p_offset p <? p_offset q) eqn:E.
    + split; [|split].
      * change (p :: q :: l) with ([p] ++ q :: l). change (q :: l ++ [p]) with ((q :: l) ++ [p]). apply Permutation_app_comm.
      * constructor; [constructor; assumption|]. constructor; [lia|]. eapply Forall_impl; [|exact H]. cbn. intros. lia.
      * intros o. cbn [filter app]. rewrite filter_app. cbn [filter].
        destruct (Z.eqb_spec (p_offset p) o) as [X|X].
        -- assert (K : filter (fun q0 => p_offset q0 =? o) l = []).
           { clear - H E X. induction l as [|r l IH]; [reflexivity|]. inversion H; subst. cbn [filter].
             destruct (Z.eqb_spec (p_offset r) (p_offset p)); [lia|]. apply IH. assumption. }
           rewrite K. destruct (Z.eqb_spec (p_offset q) o); [lia|]. reflexivity.
        -- rewrite app_nil_r. reflexivity.
    + destruct IH as (P & S' & F). split; [|split].
      * constructor. exact P.
      * constructor; [exact S'|]. eapply Permutation_Forall; [exact P|]. apply Forall_app. split; [exact H|]. constructor; [lia|constructor].
      * intros o. cbn [filter]. rewrite F. reflexivity.
Qed.
Lemma sorted_ok : forall l, by_offset l (sorted_properties l).
Proof.
  intros l. unfold sorted_properties, by_offset.
  induction l as [|p l IH] using rev_ind.
  - split; [constructor|]. split; [constructor|reflexivity].
  - rewrite fold_left_app. cbn [fold_left]. destruct IH as (P & S & F).
    destruct (insert_property_spec p _ S) as (P' & S' & F'). split; [|split; [exact S'|]].
    + eapply Permutation_trans; [|exact P']. apply Permutation_app_tail. exact P.
    + intros o. rewrite F', !filter_app, F. reflexivity.
Qed.

Section Text.
  Variable time_text : Z -> res (list Z).

  Lemma value_text_ok : forall v, (forall e, v <> PVDict e) -> (forall n, v = PVTime n -> exists t, time_text n = Ok t) ->
    exists t, value_text time_text v = Ok t /\ shown time_text v t.
  Proof.
    intros [n|t|n|e] D T.
    - exists (fmt_d n). split; [reflexivity|]. constructor. apply decimal_ok.
    - exists t. split; [reflexivity|constructor].
    - destruct (T n eq_refl) as [t E]. exists t. split; [exact E|constructor; exact E].
    - exfalso. apply (D e). reflexivity.
  Qed.

  Definition printable (off : Z) (p : property) : Prop :=
    0 <= off + p_offset p /\ 0 <= p_id p /\ (if Z.eqb (p_id p) 0 then exists e, p_value p = PVDict e else forall e, p_value p <> PVDict e) /\
    forall n, p_value p = PVTime n -> exists t, time_text n = Ok t.

  Lemma property_lines_ok : forall off p, printable off p ->
    exists lines, property_lines time_text off p = (lines, Finished) /\ property_text time_text off p lines.
  Proof.
    intros off [i o l c v] (H1 & H2 & H3 & H4). cbn [p_id p_offset p_value] in *. unfold property_lines. cbn [p_id p_offset p_value p_label].
    change PID_DICTIONARY with 0. destruct (Z.eqb_spec i 0) as [->|N].
    - destruct H3 as [e ->]. eexists. split; [reflexivity|]. rewrite <- !app_assoc. apply pt_dictionary; [apply hex8; exact H1|apply hex8; lia|].
      clear H4. induction e as [|[j n] e IH]; [constructor|]. cbn [map]. constructor; [|exact IH]. cbn [fst snd]. constructor. apply decimal_ok.
    - destruct (value_text_ok v H3 H4) as (t & -> & S). eexists. split; [reflexivity|]. rewrite <- !app_assoc.
      change (zs ")" ++ zs ": " ++ t) with (zs "): " ++ t). apply pt_value; [exact N|apply hex8; exact H1|apply hex8; exact H2|exact S].
  Qed.

  Lemma gconcat_all : forall {A B} (f : A -> gen B) (R : A -> list B -> Prop) l,
    (forall x, In x l -> exists y, f x = (y, Finished) /\ R x y) ->
    exists ys, gconcat (map f l) = (concat ys, Finished) /\ Forall2 R l ys.
  Proof.
    intros A B f R l. induction l as [|x l IH]; intros H.
    - exists []. split; [reflexivity|constructor].
    - destruct (H x (or_introl eq_refl)) as (y & E & S). destruct IH as (ys & E' & F); [intros z Z'; apply H; right; exact Z'|].
      exists (y :: ys). split; [|constructor; assumption]. cbn [map gconcat concat]. rewrite E, E'. reflexivity.
  Qed.

  Lemma set_lines_ok : forall s, is_guid (ps_fmtid s) -> 0 <= ps_offset s -> (forall p, In p (ps_properties s) -> printable (ps_offset s) p) ->
    exists lines, property_set_lines time_text s = (lines, Finished) /\ set_text time_text s lines.
  Proof.
    intros s G O P. unfold property_set_lines. destruct (sorted_ok (ps_properties s)) as (S1 & S2 & S3).
    destruct (gconcat_all (property_lines time_text (ps_offset s)) (property_text time_text (ps_offset s)) (sorted_properties (ps_properties s))) as (ys & E & F).
    { intros x X. apply property_lines_ok. apply P. apply (Permutation_in x (Permutation_sym S1)). exact X. }
    rewrite E. eexists. split; [reflexivity|]. unfold gapp. cbn [fst app].
    replace (repeat_z 45 (zlen (zs "Property Set " ++ uuid_str (ps_fmtid s)))) with (repeat 45 (13 + length (uuid_str (ps_fmtid s)))%nat).
    - change (zs ": " ++ zs "Property Set " ++ uuid_str (ps_fmtid s)) with (zs ": Property Set " ++ uuid_str (ps_fmtid s)).
      apply st with (sorted := sorted_properties (ps_properties s)); [apply hex8; exact O|apply guid_text_ok; exact G|split; [|split]; assumption|exact F].
    - unfold repeat_z. f_equal. rewrite zlen_app. change (zlen (zs "Property Set ")) with 13. unfold zlen. lia.
  Qed.

  Lemma stored_printable : forall formats b s p, set_reads_as formats b s -> 0 <= ps_offset s -> In p (ps_properties s) ->
    times_ok time_text (ps_properties s) -> printable (ps_offset s) p.
  Proof.
    intros formats b s p (([_ [_ D]] & _) & _ & E & F) O I T. rewrite Forall_forall in F. destruct (F p I) as (L & S & _).
    destruct L as (l1 & l2 & LE & _). rewrite Forall_forall in D. destruct (D (p_id p, p_offset p)) as [D1 D2].
    { rewrite LE. apply in_app_iff. right. left. reflexivity. }
    cbn in D1, D2. unfold is_u32 in *. split; [lia|]. split; [lia|]. split.
    - inversion S; subst.
      + cbn. eexists. reflexivity.
      + destruct (Z.eqb_spec (p_id p) 0); [contradiction|]. intros e X. rewrite X in *. match goal with TV : typed_value _ (PVDict _) _ |- _ => inversion TV end.
    - intros n X. eapply T; eassumption.
  Qed.

  Theorem stream_text_ok : forall formats b s, stream_reads_as formats b s -> (forall set, In set (pss_sets s) -> times_ok time_text (ps_properties set)) ->
    exists lines, stream_lines time_text s = (lines, Finished) /\ stream_text time_text s lines.
  Proof.
    intros formats b [h sets] (OK & _ & E & F) T. cbn [pss_header pss_sets] in *. unfold stream_lines. cbn [pss_header pss_sets].
    destruct OK as (O1 & O2 & O3 & O4 & O5 & O6). rewrite Forall_forall in F, O6.
    destruct (gconcat_all (property_set_lines time_text) (set_text time_text) sets) as (ys & EY & FY).
    { intros s I. assert (K : In (ps_fmtid s, ps_offset s) (psh_descs h)) by (rewrite <- E; apply (in_map (fun p => (ps_fmtid p, ps_offset p))); exact I).
      destruct (O6 _ K) as [G U]. cbn in G, U. unfold is_u32 in U. apply set_lines_ok; [exact G|lia|]. intros p P.
      eapply stored_printable; [apply F; exact I|lia|exact P|apply T; exact I]. }
    rewrite EY. eexists. split; [reflexivity|]. unfold gapp. cbn [fst].
    apply (sst time_text (mkPropertySetStream h sets)); cbn [pss_header pss_sets].
    - apply (hex_field_ok 0). lia.
    - apply decimal_ok.
    - apply hex8. unfold is_u32 in O3. lia.
    - apply guid_text_ok. exact O4.
    - exact FY.
  Qed.

  (** ** The summary information *)
  Theorem summary_reads : forall b s, stream_reads_as [(summary_guid, identifier_names)] b s ->
    eventually (fun k => summary_stream k b) (Some (Ok s)).
  Proof. intros. unfold summary_stream. apply (read_stream [(summary_guid, identifier_names)]). exact H. Qed.

  Lemma fields_are : summary_fields = map (fun f => (zs (fst f), snd f)) printed_fields.
  Proof. reflexivity. Qed.

  Lemma summary_item_is : forall formats b s set id, is_summary formats b s set -> summary_item s id = getitem (ps_properties set) id.
  Proof.
    intros formats b s set id (R & G & r & E). unfold summary_item. rewrite G, E.
    destruct (list_eq_dec Z.eq_dec summary_guid CLSID_HWP_SUMMARY_INFORMATION) as [_|N]; [reflexivity|]. exfalso. apply N. reflexivity.
  Qed.

  Lemma summary_line_ok : forall formats b s set f, is_summary formats b s set -> times_ok time_text (ps_properties set) ->
    In (snd f) (map fst (ps_descs set)) -> snd f <> 0 ->
    exists line, summary_line time_text s (zs (fst f), snd f) = ([line], Finished) /\ field_line time_text (ps_properties set) f line.
  Proof.
    intros formats b s set [name id] S T I N. cbn [fst snd] in *. unfold summary_line. cbn [fst snd].
    rewrite (summary_item_is _ _ _ _ _ S). pose proof S as S'. destruct S' as (R & G & r & E).
    assert (RS : set_reads_as formats b set).
    { destruct R as (_ & _ & _ & F). rewrite E in F. inversion F; subst. assumption. }
    destruct (every_id_read _ _ _ _ RS I) as (p & P & Q). subst id. rewrite (lookup_listed _ _ _ _ RS P). cbn [bind].
    assert (D : forall e, p_value p <> PVDict e).
    { destruct RS as (_ & _ & _ & F). rewrite Forall_forall in F. destruct (F p P) as (_ & K & _). intros e X. rewrite X in K.
      inversion K as [? ? ? ? EZ|? ? ? ? ? TV]; subst; [congruence|inversion TV]. }
    destruct (value_text_ok (p_value p) D) as (t & V & SH); [intros n X; eapply T; eassumption|].
    rewrite V. eexists. split; [reflexivity|]. exists p, t. auto.
  Qed.

  Theorem summary_text : forall formats b s set, is_summary formats b s set -> times_ok time_text (ps_properties set) ->
    (forall f, In f printed_fields -> In (snd f) (map fst (ps_descs set))) ->
    exists lines, summary_lines time_text s = (lines, Finished) /\ Forall2 (field_line time_text (ps_properties set)) printed_fields lines.
  Proof.
    intros formats b s set S T H. unfold summary_lines. rewrite fields_are, map_map.
    destruct (gconcat_all (fun f => summary_line time_text s (zs (fst f), snd f)) (fun f ls => exists line, ls = [line] /\ field_line time_text (ps_properties set) f line) printed_fields) as (ys & E & F).
    { intros f I. destruct (summary_line_ok _ _ _ _ f S T (H f I)) as (line & L1 & L2).
      - assert (K : Forall (fun f => snd f <> 0) printed_fields) by (repeat constructor; discriminate). rewrite Forall_forall in K. apply K. exact I.
      - exists [line]. split; [exact L1|]. exists line. auto. }
    exists (concat ys). split; [exact E|]. clear - F. induction F as [|f ys' l l' (line & -> & L) F IH]; [constructor|].
    cbn [concat app]. constructor; assumption.
  Qed.

  Lemma gconcat_stop : forall {A} (gs hs : list (gen A)) l e, gconcat gs = (l, Finished) -> gconcat (gs ++ ([], Failed e) :: hs) = (l, Failed e).
  Proof.
    intros A gs hs. induction gs as [|[x o] gs IH]; intros l e E; cbn [gconcat app] in *.
    - injection E as <-. reflexivity.
    - destruct o; try discriminate. destruct (gconcat gs) as [y oy] eqn:G. unfold gapp in E. cbn [fst snd] in E. injection E as <- ->.
      rewrite (IH y e eq_refl). reflexivity.
  Qed.

  Theorem summary_stops : forall formats b s set before f after, is_summary formats b s set -> times_ok time_text (ps_properties set) ->
    printed_fields = before ++ f :: after -> (forall g, In g before -> In (snd g) (map fst (ps_descs set))) -> ~ In (snd f) (map fst (ps_descs set)) ->
    exists lines, summary_lines time_text s = (lines, Failed KeyError) /\ Forall2 (field_line time_text (ps_properties set)) before lines.
  Proof.
    intros formats b s set before f after S T E H N. unfold summary_lines. rewrite fields_are, map_map, E, map_app. cbn [map].
    assert (X : summary_line time_text s (zs (fst f), snd f) = ([], Failed KeyError)).
    { unfold summary_line. cbn [fst snd]. rewrite (summary_item_is _ _ _ _ _ S).
      destruct S as (R & _ & r & ES). destruct R as (_ & _ & _ & F). rewrite ES in F. inversion F; subst.
      rewrite (lookup_missing _ _ _ _ H2 N). reflexivity. }
    rewrite X.
    destruct (gconcat_all (fun f => summary_line time_text s (zs (fst f), snd f)) (fun f ls => exists line, ls = [line] /\ field_line time_text (ps_properties set) f line) before) as (ys & EY & F).
    { intros g I. destruct (summary_line_ok _ _ _ _ g S T (H g I)) as (line & L1 & L2).
      - assert (K : Forall (fun f => snd f <> 0) printed_fields) by (repeat constructor; discriminate). rewrite Forall_forall in K. apply K.
        rewrite E. apply in_app_iff. left. exact I.
      - exists [line]. split; [exact L1|]. exists line. auto. }
    exists (concat ys). split; [apply gconcat_stop; exact EY|]. clear - F. induction F as [|g ys' l l' (line & -> & L) F IH]; [constructor|].
    cbn [concat app]. constructor; assumption.
  Qed.

  Theorem summary_other_class : forall s, psh_clsid (pss_header s) <> summary_guid -> summary_lines time_text s = ([], Failed TypeError).
  Proof.
    intros s H. unfold summary_lines. cbn [summary_fields map gconcat]. unfold summary_line at 1, summary_item.
    destruct (list_eq_dec Z.eq_dec (psh_clsid (pss_header s)) CLSID_HWP_SUMMARY_INFORMATION) as [E|_]; [exfalso; apply H; exact E|]. reflexivity.
  Qed.
End Text.

Lemma lines_text_is : forall lines, lines_text (lines, Finished) = utf8_encode (flat_map (fun l => l ++ [10]) lines).
Proof.
  intros lines. unfold lines_text. induction lines as [|l r IH]; [reflexivity|]. cbn [flat_map map_res]. rewrite !utf8_encode_app, <- IH.
  destruct (utf8_encode l) as [x|e]; [|reflexivity]. cbn [bind]. change (utf8_encode [10]) with (Ok [10]).
  destruct (map_res utf8_encode r) as [y|e]; reflexivity.
Qed.
