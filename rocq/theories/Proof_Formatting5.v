(** Paragraphs and texts of documents made from files, and what is shown of them. *)
From Coq Require Import ZArith String List Bool Lia Permutation.
From Verif Require Import Base BaseFacts Model_Tree Spec_Tree.
From Verif Require Import Model_Text Model_Dataio Model_Record Model_Bintype Model_Layouts Model_Models 
  Model_XmlText Model_XmlElement Model_XmlFile Spec_XmlText Spec_Bintype Spec_Models Spec_Layouts Spec_XmlElement Spec_Section Spec_XmlFile Spec_XmlHwp
  Proof_Text Proof_Models Proof_Layouts Proof_OleText Proof_Record Proof_XmlNames Proof_XmlEntry Proof_XmlElement Proof_XmlRecord Model_Plaintext Spec_Plaintext Spec_Formatting Proof_Formatting Proof_Formatting2 Proof_Formatting3 Proof_Formatting4.
From Verif Require Model_Html Spec_Html Model_Opendoc Spec_Opendoc.
Import ListNotations.
Open Scope string_scope.
Open Scope list_scope.
Open Scope Z_scope.

Lemma Forall2_nth_l : forall A B (R : A -> B -> Prop) l l', Forall2 R l l' -> forall k a, nth_error l k = Some a -> exists c, nth_error l' k = Some c /\ R a c.
Proof. intros A B R l l' F. induction F as [|a c l l' H F IH]; intros [|k] a' E; try discriminate. - injection E as <-. exists c. auto. - exact (IH k a' E). Qed.
Lemma type_once : forall a b y, named_node a y = true -> named_node b y = true -> a = b.
Proof.
  intros a b [n l k|t]; [|discriminate]. cbn. unfold name_is. destruct (list_eq_dec Z.eq_dec n (zs a)) as [->|]; [|discriminate]. destruct (list_eq_dec Z.eq_dec (zs a) (zs b)) as [E|]; [|discriminate]. intros _ _. now apply zs_inj.
Qed.
Lemma flow_named : forall y p, In p (flow y) -> named_node "Paragraph" p = true.
Proof.
  intros y p H. apply in_flat_map in H as (k & _ & H). destruct (named_node "Paragraph" k) eqn:E; [destruct H as [<-|[]]; exact E|]. destruct (named_node "ColumnSet" k); [|contradiction]. destruct k; [apply filter_In in H; tauto|contradiction].
Qed.
Lemma flow_shown : forall b y p, In y (children_named "SectionDef" b) -> In p (flow y) -> Spec_Opendoc.shown b p.
Proof.
  intros b y p HY H. apply in_flat_map in H as (k & HK & H). pose proof (Spec_Opendoc.sh_section b y k HY HK) as SK. destruct (named_node "Paragraph" k); [destruct H as [<-|[]]; exact SK|].
  destruct (named_node "ColumnSet" k) eqn:E; [|contradiction]. apply (Spec_Opendoc.sh_column b k p SK E). destruct k; [apply filter_In in H; cbn; tauto|contradiction].
Qed.
Lemma of_type_in : forall s l rm, In rm (of_type s l) -> m_type (snd rm) = s.
Proof. intros s l rm H. apply filter_In in H as [_ H]. now apply String.eqb_eq in H. Qed.

Section Document.
  Variables (version : list Z) (x : record * model) (kids : forest (record * model)) (sections : list (Z * list record)) (document : list xnode) (m d b : xnode).
  Hypothesis HD : document_of version x kids sections document m d b.

  Lemma shape_at : forall s k rm, In s Spec_Html.shapes -> nth_error (shapes_of s kids) k = Some rm ->
    exists y, nth_error (children_named s m) k = Some y /\ made_for (snd rm) y /\ m_type (snd rm) = s.
  Proof.
    intros s k rm HS E. pose proof (do_shapes _ _ _ _ _ _ _ _ HD s HS) as F. assert (T : m_type (snd rm) = s) by (apply nth_error_In in E; exact (of_type_in _ _ _ E)).
    destruct (Forall2_nth_l _ _ _ _ _ F k rm E) as (y & E' & M). exists y. auto.
  Qed.
  Lemma points_refers : forall a key s rm y rm', In s Spec_Html.shapes -> attribute_name key = zs a -> key <> "<text>" -> form_of (m_type (snd rm)) key = Plain -> made_for (snd rm) y ->
    points key rm (shapes_of s kids) rm' -> exists y', Spec_Html.refers a y (children_named s m) y' /\ made_for (snd rm') y' /\ m_type (snd rm') = s.
  Proof.
    intros a key s rm y rm' HS EA HK HF M (k & HI & HN). destruct (shape_at s k rm' HS HN) as (y' & EN & M' & T). exists y'. split; [|auto]. exists k. split; [|exact EN].
    pose proof (mf_number _ _ M key (Z.of_nat k) (fmt_d (Z.of_nat k)) HI HK HF (decimal_ok _)) as E. rewrite EA in E. exact E.
  Qed.
  Lemma bits_attr : forall a group key name w rm y, attribute_name group = zs a -> form_of (m_type (snd rm)) key = Hex w -> ~ In 0 (map small_letter (zs name)) -> made_for (snd rm) y ->
    chosen_bits key group name rm -> Model_Html.attr a y = Some (map small_letter (zs name)).
  Proof.
    intros a group key name w rm y EA HF H0 M (v & n & gs & k & HI & HV & HG). pose proof (mf_bits _ _ M key v n gs w group (k, Some name) _ HI HV HF HG (gt_named k name) H0) as E. rewrite EA in E. exact E.
  Qed.
  Lemma bit_attr : forall a group key n w rm y, attribute_name group = zs a -> form_of (m_type (snd rm)) key = Hex w -> made_for (snd rm) y ->
    bit_is key group n rm -> Model_Html.attr a y = Some (fmt_d n).
  Proof.
    intros a group key n w rm y EA HF M (v & z & gs & HI & HV & HG). pose proof (mf_bits _ _ M key v z gs w group (n, None) _ HI HV HF HG (gt_number n _ (decimal_ok n)) (decimal_chars _ _ (decimal_ok n))) as E. rewrite EA in E. exact E.
  Qed.
  Lemma names_attr : forall a key s ts, In s Spec_Html.shapes -> attribute_name key = zs a -> key <> "<text>" -> form_of s key = Plain -> texts_are key (shapes_of s kids) ts ->
    map (Model_Html.value_of a) (children_named s m) = ts.
  Proof.
    intros a key s ts HS EA HK HF T. pose proof (do_shapes _ _ _ _ _ _ _ _ HD s HS) as F. assert (TY : Forall (fun rm => m_type (snd rm) = s) (shapes_of s kids)) by (apply Forall_forall; intros rm; apply of_type_in).
    unfold texts_are in T. revert ts T. induction F as [|rm y l l' M F IH]; intros ts T; inversion T as [|? t ? ts' [HI H0] T']; subst; [reflexivity|]. inversion TY as [|? ? E TY']; subst. cbn [map]. f_equal; [|now apply IH].
    pose proof (mf_text _ _ M key t HI HK HF H0) as EX. rewrite EA in EX. unfold Model_Html.value_of. change (Model_Html.attr a y) with (xattr (zs a) y). now rewrite EX.
  Qed.
  Lemma local_names : forall ts, texts_are "local_name" (shapes_of "Style" kids) ts -> local_fine ts -> Spec_Opendoc.local_names_fine (children_named "Style" m).
  Proof.
    intros ts T [H1 H2]. assert (IS : In "Style" Spec_Html.shapes) by (cbn; tauto). pose proof (names_attr "local-name" "local_name" "Style" ts IS eq_refl ltac:(discriminate) eq_refl T) as <-.
    rewrite map_map in H1, H2. split; [exact H1|]. rewrite Forall_map in H2. exact H2.
  Qed.
  Lemma css_names : forall ts, texts_are "name" (shapes_of "Style" kids) ts -> css_fine ts -> Spec_Html.names_fine (children_named "Style" m).
  Proof.
    intros ts T [H1 H2]. assert (IS : In "Style" Spec_Html.shapes) by (cbn; tauto). pose proof (names_attr "name" "name" "Style" ts IS eq_refl ltac:(discriminate) eq_refl T) as <-.
    rewrite map_map in H1, H2. split; [exact H1|]. rewrite Forall_map in H2. exact H2.
  Qed.
  Lemma text_document : forall ts, whole_tables document -> texts_are "local_name" (shapes_of "Style" kids) ts -> local_fine ts -> Spec_Opendoc.one_text document m d b.
  Proof. intros ts WT T LF. destruct HD as [D1 D2 D3 D4 D5 _ _ _]. constructor; try assumption. exact (local_names ts T LF). Qed.
  Lemma align_is : forall a v rm y, m_type (snd rm) = "ParaShape" -> made_for (snd rm) y -> chosen_bits "parashapeflags" "align" a rm -> In (a, v) alignments -> Spec_Html.alignment y = zs v.
  Proof.
    intros a v rm y T M C H. assert (E : Model_Html.attr "align" y = Some (map small_letter (zs a))).
    { refine (bits_attr "align" "align" "parashapeflags" a _ rm y eq_refl _ _ M C); [rewrite T; reflexivity|]. clear - H. cbn in H. repeat (destruct H as [[= <- <-]|H]; [cbn; intuition discriminate|]). contradiction. }
    unfold Spec_Html.alignment. rewrite E. clear - H. cbn in H. repeat (destruct H as [[= <- <-]|H]; [reflexivity|]). contradiction.
  Qed.

  (** The paragraphs of a section, one after another. *)
  Lemma section_at : forall i s out, nth_error sections i = Some s -> models_of version Finished [] (snd s) out Finished ->
    exists y front back, nth_error (children_named "SectionDef" b) i = Some y /\ flow y = front ++ back /\ Forall2 (fun rm p => made_for (snd rm) p) (top_records out) back.
  Proof.
    intros i s out E HM. destruct (do_sections _ _ _ _ _ _ _ _ HD) as [F _]. destruct (Forall2_nth_l _ _ _ _ _ F i s E) as (y & EY & C). destruct (sc_flow _ _ _ C out HM) as (front & back & EF & FB). exists y, front, back. auto.
  Qed.
  Lemma para_type : forall y front back (rm : record * model) p, flow y = front ++ back -> In p back -> made_for (snd rm) p -> m_type (snd rm) = "Paragraph".
  Proof. intros y front back rm p EF HI M. apply (type_once _ _ p (mf_name _ _ M)). apply (flow_named y). rewrite EF. apply in_or_app. now right. Qed.
End Document.

(** ** Bytes of records *)
Lemma dict_in : forall A k (l : list (string * A)) v, dict_get k l = Some v -> In (k, v) l.
Proof. intros A k l v. induction l as [|[k' v'] l IH]; [discriminate|]. cbn [dict_get]. destruct (String.eqb_spec k k') as [->|]; [intros [= ->]; now left|]. intros H. right. now apply IH. Qed.
Lemma member_in : forall k m v, look k (views (m_content m)) = Some v -> exists w, In (k, w) (m_content m) /\ view_of w = v.
Proof. intros k m v H. rewrite look_views in H. destruct (dict_get k (m_content m)) as [w|] eqn:E; [|discriminate]. injection H as <-. exists w. split; [now apply dict_in|reflexivity]. Qed.
Lemma int_in : forall k m n, look k (views (m_content m)) = Some (Int n) -> In (k, VInt n) (m_content m).
Proof. intros k m n H. destruct (member_in _ _ _ H) as (w & HI & E). destruct w; cbn in E; try discriminate; congruence. Qed.
Lemma any_version : forall version, version_ok version -> not_older version (0, 0, 0, 0) = true.
Proof. intros version [HL HB]. rewrite <- visibility by assumption. reflexivity. Qed.

Lemma low_bits : forall b q low high, 0 <= low -> low <= high -> high < 8 -> bits_of (b + 256 * q) low high = b / 2 ^ low mod 2 ^ (high - low + 1).
Proof.
  intros b q low high H1 H2 H3. unfold bits_of. replace 256 with (2 ^ (high - low + 1) * 2 ^ (7 - high) * 2 ^ low) by (rewrite <- Z.pow_add_r by lia; rewrite <- Z.pow_add_r by lia; replace (high - low + 1 + (7 - high) + low) with 8 by lia; reflexivity).
  replace (b + 2 ^ (high - low + 1) * 2 ^ (7 - high) * 2 ^ low * q) with (b + (2 ^ (7 - high) * q * 2 ^ (high - low + 1)) * 2 ^ low) by ring.
  rewrite Z.div_add by (apply Z.pow_nonzero; lia). apply Z.mod_add. apply Z.pow_nonzero; lia.
Qed.
Lemma fields_always : forall version p name k fs env b x r, version_ok version -> parse version p k env b = Some (Some x, r) ->
  fields version p (always name k :: fs) env b = fields version p fs (dict_set name x env) r.
Proof. intros version p name k fs env b x r HV H. cbn [fields always holds]. now rewrite (any_version _ HV), H. Qed.
Lemma parse_bits : forall version p w gs env b n r, unsigned w b = Some (n, r) -> parse version p (Bits w gs) env b = Some (Some (Flags n (map (group_view n) gs)), r).
Proof. intros version p w gs env b n r H. cbn [parse]. now rewrite H. Qed.
Lemma parse_unsigned : forall version p w env b n r, unsigned w b = Some (n, r) -> parse version p (Unsigned w) env b = Some (Some (Int n), r).
Proof. intros version p w env b n r H. cbn [parse]. now rewrite H. Qed.
Lemma parse_signed : forall version p w env b n r, signed w b = Some (n, r) -> parse version p (Signed w) env b = Some (Some (Int n), r).
Proof. intros version p w env b n r H. cbn [parse]. now rewrite H. Qed.
Definition field_name (f : field_spec) : string := fst (fst (fst f)).
(** A record whose members begin with [first], and the others. *)
Lemma members_kept : forall version parent tagid payload m t first rest env r, version_ok version -> Proof_Layouts.node_ok parent -> all_bytes payload ->
  reads version parent tagid payload (Ok m) -> m_type m = t -> type_of_tag tagid = t -> record_fields t = first ++ rest ->
  (forall fs, fields version (seen_by parent) (first ++ fs) [] payload = fields version (seen_by parent) fs env r) ->
  forall k v, look k env = Some v -> ~ In k (map field_name rest) -> look k (views (m_content m)) = Some v.
Proof.
  intros version parent tagid payload m t first rest env r HV HN HB H T TT ER HF k v HL HK. pose proof (content_is _ _ _ _ _ HV HN HB H) as E.
  unfold record_parts in E. rewrite T, TT, String.eqb_refl in E. cbn [map] in E. rewrite parse_all_one, parse_fields, ER, HF in E.
  destruct (fields version (seen_by parent) rest env r) as [[w u]|] eqn:EF; [|discriminate]. destruct w as [[]|]; try discriminate E. cbn [as_env] in E. injection E as E1 E2.
  rewrite <- E1, (fields_keep _ _ _ _ _ _ _ k HK EF). exact HL.
Qed.
Lemma type_read : forall version parent tagid payload m, (forall d t, refined parent (type_of_tag tagid) d (Ok (Some t)) -> False) -> reads version parent tagid payload (Ok m) -> m_type m = type_of_tag tagid.
Proof. intros version parent tagid payload m HR H. inversion H as [|? ? ? ? ? ? ? ? R| | |]; subst; [reflexivity|]. destruct (HR _ _ R). Qed.

Theorem alignment_bits : forall version parent r b0 b1 b2 b3 rest m a, version_ok version -> Proof_Layouts.node_ok parent -> all_bytes (b0 :: b1 :: b2 :: b3 :: rest) ->
  reads version parent 25 (b0 :: b1 :: b2 :: b3 :: rest) (Ok m) -> nth_error (map fst alignments) (Z.to_nat (b0 / 4 mod 8)) = Some a ->
  chosen_bits "parashapeflags" "align" a (r, m).
Proof.
  intros version parent r b0 b1 b2 b3 rest m a HV HN HB H HA.
  assert (T : m_type m = "ParaShape") by (apply (type_read _ _ _ _ _) in H; [exact H|]; intros d t R; change (type_of_tag 25) with "ParaShape" in R; inversion R).
  assert (ER : record_fields "ParaShape" = [always "parashapeflags" b_ParaShape_Flags1] ++ skipn 1 (record_fields "ParaShape")) by reflexivity.
  assert (NK : ~ In "parashapeflags" (map field_name (skipn 1 (record_fields "ParaShape")))) by (vm_compute; intuition discriminate).
  set (n := b0 + 256 * (b1 + 256 * (b2 + 256 * (b3 + 256 * 0)))).
  assert (HF : forall fs, fields version (seen_by parent) ([always "parashapeflags" b_ParaShape_Flags1] ++ fs) [] (b0 :: b1 :: b2 :: b3 :: rest) =
    fields version (seen_by parent) fs [("parashapeflags", Flags n (map (group_view n) (match b_ParaShape_Flags1 with Bits _ gs => gs | _ => [] end)))] rest).
  { intros fs. cbn [app]. rewrite (fields_always _ _ _ b_ParaShape_Flags1 _ _ _ _ _ HV (parse_bits version (seen_by parent) 4 _ [] (b0 :: b1 :: b2 :: b3 :: rest) n rest eq_refl)). reflexivity. }
  pose proof (members_kept _ _ _ _ _ _ _ _ _ _ HV HN HB H T eq_refl ER HF "parashapeflags" _ eq_refl NK) as L. apply member_in in L as (w & HI & EV).
  pose proof (low_bits b0 (b1 + 256 * (b2 + 256 * (b3 + 256 * 0))) 2 4 ltac:(lia) ltac:(lia) ltac:(lia)) as LB. fold n in LB. clearbody n. change (2 ^ 2) with 4 in LB. change (2 ^ (4 - 2 + 1)) with 8 in LB.
  exists w, n, (map (group_view n) (match b_ParaShape_Flags1 with Bits _ gs => gs | _ => [] end)), (b0 / 4 mod 8). split; [exact HI|]. split; [exact EV|].
  assert (G : group_view n (enum "align" 2 4 "ParaShape.Align") = ("align", (b0 / 4 mod 8, Some a))).
  { cbn [group_view enum]. rewrite LB. f_equal. f_equal. pose proof (Z.mod_pos_bound (b0 / 4) 8 ltac:(lia)) as B. set (c := b0 / 4 mod 8) in *. clearbody c. clear - HA B.
    assert (C : c = 0 \/ c = 1 \/ c = 2 \/ c = 3 \/ c = 4 \/ c = 5 \/ c = 6 \/ c = 7) by lia.
    repeat (destruct C as [->|C]; [vm_compute in HA; solve [discriminate|injection HA as <-; reflexivity]|]). subst c. vm_compute in HA. discriminate. }
  rewrite <- G. apply in_map. cbn. tauto.
Qed.

Theorem paragraph_bytes : forall version parent r t0 t1 t2 t3 c0 c1 c2 c3 p0 p1 s f rest m, version_ok version -> Proof_Layouts.node_ok parent ->
  let payload := t0 :: t1 :: t2 :: t3 :: c0 :: c1 :: c2 :: c3 :: p0 :: p1 :: s :: f :: rest in all_bytes payload -> reads version parent 66 payload (Ok m) ->
  In ("parashape_id", VInt (p0 + 256 * p1)) (m_content m) /\ In ("style_id", VInt s) (m_content m) /\ bit_is "split" "new_page" (f / 4 mod 2) (r, m).
Proof.
  intros version parent r t0 t1 t2 t3 c0 c1 c2 c3 p0 p1 s f rest m HV HN payload HB H.
  assert (T : m_type m = "Paragraph") by (apply (type_read _ _ _ _ _) in H; [exact H|]; intros d t R; change (type_of_tag 66) with "Paragraph" in R; inversion R).
  set (first := [always "text" b_Paragraph_Flags; always "controlmask" b_Paragraph_ControlMask; always "parashape_id" u16; always "style_id" u8; always "split" b_Paragraph_SplitFlags]).
  assert (ER : record_fields "Paragraph" = first ++ skipn 5 (record_fields "Paragraph")) by reflexivity.
  assert (NK : forall k, In k ["parashape_id"; "style_id"; "split"] -> ~ In k (map field_name (skipn 5 (record_fields "Paragraph")))).
  { intros k HK. repeat (destruct HK as [<-|HK]; [vm_compute; intuition discriminate|]). contradiction. }
  set (n1 := t0 + 256 * (t1 + 256 * (t2 + 256 * (t3 + 256 * 0)))). set (n2 := c0 + 256 * (c1 + 256 * (c2 + 256 * (c3 + 256 * 0)))). set (n3 := p0 + 256 * (p1 + 256 * 0)). set (n4 := s + 256 * 0). set (n5 := f + 256 * 0).
  set (groups k := match k with Bits _ gs => gs | _ => [] end).
  set (env := [("text", Flags n1 (map (group_view n1) (groups b_Paragraph_Flags))); ("controlmask", Flags n2 (map (group_view n2) (groups b_Paragraph_ControlMask)));
               ("parashape_id", Int n3); ("style_id", Int n4); ("split", Flags n5 (map (group_view n5) (groups b_Paragraph_SplitFlags)))]).
  assert (HF : forall fs, fields version (seen_by parent) (first ++ fs) [] payload = fields version (seen_by parent) fs env rest).
  { intros fs. unfold first, payload. cbn [app].
    rewrite (fields_always _ _ _ b_Paragraph_Flags _ _ _ _ _ HV (parse_bits version (seen_by parent) 4 _ _ (t0 :: t1 :: t2 :: t3 :: c0 :: c1 :: c2 :: c3 :: p0 :: p1 :: s :: f :: rest) n1 (c0 :: c1 :: c2 :: c3 :: p0 :: p1 :: s :: f :: rest) eq_refl)).
    rewrite (fields_always _ _ _ b_Paragraph_ControlMask _ _ _ _ _ HV (parse_bits version (seen_by parent) 4 _ _ (c0 :: c1 :: c2 :: c3 :: p0 :: p1 :: s :: f :: rest) n2 (p0 :: p1 :: s :: f :: rest) eq_refl)).
    rewrite (fields_always _ _ _ u16 _ _ _ _ _ HV (parse_unsigned version (seen_by parent) 2 _ (p0 :: p1 :: s :: f :: rest) n3 (s :: f :: rest) eq_refl)).
    rewrite (fields_always _ _ _ u8 _ _ _ _ _ HV (parse_unsigned version (seen_by parent) 1 _ (s :: f :: rest) n4 (f :: rest) eq_refl)).
    rewrite (fields_always _ _ _ b_Paragraph_SplitFlags _ _ _ _ _ HV (parse_bits version (seen_by parent) 1 _ _ (f :: rest) n5 rest eq_refl)). reflexivity. }
  pose proof (members_kept _ _ _ _ _ _ _ _ _ _ HV HN HB H T eq_refl ER HF) as L.
  pose proof (int_in _ _ _ (L "parashape_id" _ eq_refl (NK "parashape_id" ltac:(cbn; tauto)))) as L1. pose proof (int_in _ _ _ (L "style_id" _ eq_refl (NK "style_id" ltac:(cbn; tauto)))) as L2.
  destruct (member_in _ _ _ (L "split" _ eq_refl (NK "split" ltac:(cbn; tauto)))) as (w & HI & EV).
  replace n3 with (p0 + 256 * p1) in L1 by (unfold n3; lia). replace n4 with s in L2 by (unfold n4; lia). split; [exact L1|]. split; [exact L2|].
  exists w, n5, (map (group_view n5) (groups b_Paragraph_SplitFlags)). split; [exact HI|]. split; [exact EV|].
  assert (G : group_view n5 (bit "new_page" 2) = ("new_page", (f / 4 mod 2, None))) by (cbn [group_view bit]; f_equal; f_equal; exact (low_bits f 0 2 2 ltac:(lia) ltac:(lia) ltac:(lia))).
  rewrite <- G. apply in_map. cbn. tauto.
Qed.

Lemma skip_twice : forall A a b (l : list A), skipn a (skipn b l) = skipn (b + a) l.
Proof. intros A a b. induction b as [|b IH]; intros [|c l]; cbn [skipn Nat.add]; [reflexivity..| |apply IH]. now rewrite skipn_nil. Qed.
Lemma parse_language : forall version p k w env pre rest, version_ok version -> (forall env b, (w <= List.length b)%nat -> exists n, parse version p k env b = Some (Some (Int n), skipn w b)) ->
  List.length pre = (7 * w)%nat -> exists v, parse version p (by_language k) env (pre ++ rest) = Some (Some v, rest).
Proof.
  intros version p k w env pre rest HV HP HL. unfold by_language. rewrite parse_fields.
  assert (G : forall names env0 b, (List.length names * w <= List.length b)%nat -> exists d, fields version p (map (fun n => always n k) names) env0 b = Some (Some (Members d), skipn (List.length names * w) b)).
  { clear pre rest HL. intros names. induction names as [|n names IH]; intros env0 b HB; [exists env0; reflexivity|]. cbn [map List.length] in *. destruct (HP env0 b ltac:(lia)) as (z & E).
    rewrite (fields_always _ _ _ _ _ _ _ _ _ HV E). destruct (IH (dict_set n (Int z) env0) (skipn w b)) as (d & E'); [rewrite skipn_length; lia|]. exists d. rewrite E'. rewrite skip_twice. reflexivity. }
  destruct (G ["ko"; "en"; "cn"; "jp"; "other"; "symbol"; "user"] [] (pre ++ rest)) as (d & E); [rewrite app_length; cbn; lia|]. exists (Members d). cbn [map] in E. rewrite E. do 2 f_equal.
  cbn [List.length]. rewrite <- HL.
  rewrite skipn_app, skipn_all, Nat.sub_diag. reflexivity.
Qed.
Lemma number_some : forall version p b env w, (w <= List.length b)%nat -> exists n, parse version p (Unsigned w) env b = Some (Some (Int n), skipn w b) /\ unsigned w b = Some (n, skipn w b).
Proof.
  intros version p b env w H. assert (U : exists n, unsigned w b = Some (n, skipn w b)).
  { revert b H. induction w as [|w IH]; intros b H; [exists 0; reflexivity|]. destruct b as [|c b]; [cbn in H; lia|]. destruct (IH b ltac:(cbn in H; lia)) as (n & E). exists (c + 256 * n). cbn [unsigned skipn]. now rewrite E. }
  destruct U as (n & E). exists n. split; [now apply parse_unsigned|exact E].
Qed.
Lemma signed_some : forall version p b env w, (w <= List.length b)%nat -> exists n, parse version p (Signed w) env b = Some (Some (Int n), skipn w b).
Proof. intros version p b env w H. destruct (number_some version p b env w H) as (n & _ & E). eexists. apply parse_signed. unfold signed. now rewrite E. Qed.

Theorem charshape_bytes : forall version parent r before f0 f1 f2 f3 x y c0 c1 c2 c3 rest m, version_ok version -> Proof_Layouts.node_ok parent ->
  let payload := before ++ f0 :: f1 :: f2 :: f3 :: x :: y :: c0 :: c1 :: c2 :: c3 :: rest in List.length before = 46%nat -> all_bytes payload -> reads version parent 21 payload (Ok m) ->
  bit_is "charshapeflags" "italic" (f0 mod 2) (r, m) /\ bit_is "charshapeflags" "bold" (f0 / 2 mod 2) (r, m) /\
  (c3 < 128 -> In ("text_color", VInt (c0 + 256 * (c1 + 256 * (c2 + 256 * c3)))) (m_content m)).
Proof.
  intros version parent r before f0 f1 f2 f3 x y c0 c1 c2 c3 rest m HV HN payload HL HB H.
  assert (T : m_type m = "CharShape") by (apply (type_read _ _ _ _ _) in H; [exact H|]; intros d t R; change (type_of_tag 21) with "CharShape" in R; inversion R).
  set (first := [always "font_face" (by_language u16); always "letter_width_expansion" (by_language u8); always "letter_spacing" (by_language i8);
     always "relative_size" (by_language i8); always "position" (by_language i8); always "basesize" i32; always "charshapeflags" b_CharShape_Flags; always "shadow_space" k_ShadowSpace; always "text_color" i32]).
  assert (ER : record_fields "CharShape" = first ++ skipn 9 (record_fields "CharShape")) by reflexivity.
  assert (NK : forall k, In k ["charshapeflags"; "text_color"] -> ~ In k (map field_name (skipn 9 (record_fields "CharShape")))).
  { intros k HK. repeat (destruct HK as [<-|HK]; [vm_compute; intuition discriminate|]). contradiction. }
  set (n := f0 + 256 * (f1 + 256 * (f2 + 256 * (f3 + 256 * 0)))).
  set (tail2 := x :: y :: c0 :: c1 :: c2 :: c3 :: rest). 
  assert (PU : forall w env b, (w <= List.length b)%nat -> exists z, parse version (seen_by parent) (Unsigned w) env b = Some (Some (Int z), skipn w b)).
  { intros w env b HW. destruct (number_some version (seen_by parent) b env w HW) as (z & E & _). eauto. }
  assert (PS : forall w env b, (w <= List.length b)%nat -> exists z, parse version (seen_by parent) (Signed w) env b = Some (Some (Int z), skipn w b)).
  { intros w env b HW. exact (signed_some version (seen_by parent) b env w HW). }
  assert (SP : exists a1 a2 a3 a4 a5 a6, before = a1 ++ a2 ++ a3 ++ a4 ++ a5 ++ a6 /\ List.length a1 = 14%nat /\ List.length a2 = 7%nat /\ List.length a3 = 7%nat /\ List.length a4 = 7%nat /\ List.length a5 = 7%nat /\ List.length a6 = 4%nat).
  { clear - HL. do 46 (destruct before as [|? before]; [discriminate HL|]). destruct before; [|discriminate HL].
    match goal with |- context [?l = _ ++ _] => exists (firstn 14 l), (firstn 7 (skipn 14 l)), (firstn 7 (skipn 21 l)), (firstn 7 (skipn 28 l)), (firstn 7 (skipn 35 l)), (skipn 42 l) end. repeat split. }
  destruct SP as (a1 & a2 & a3 & a4 & a5 & a6 & EB & L1 & L2 & L3 & L4 & L5 & L6).
  set (c := c0 + 256 * (c1 + 256 * (c2 + 256 * (c3 + 256 * 0)))).
  set (color := if 2 * c <? 256 ^ Z.of_nat 4 then c else c - 256 ^ Z.of_nat 4).
  set (groups := match b_CharShape_Flags with Bits _ gs => gs | _ => [] end).
  assert (HF : exists env, look "charshapeflags" env = Some (Flags n (map (group_view n) groups)) /\ look "text_color" env = Some (Int color) /\
     forall fs, fields version (seen_by parent) (first ++ fs) [] payload = fields version (seen_by parent) fs env rest).
  { destruct (parse_language version (seen_by parent) u16 2 [] a1 (a2 ++ a3 ++ a4 ++ a5 ++ a6 ++ f0 :: f1 :: f2 :: f3 :: tail2) HV (PU 2%nat) L1) as (v1 & E1).
    set (e1 := dict_set "font_face" v1 []) in *.
    destruct (parse_language version (seen_by parent) u8 1 e1 a2 (a3 ++ a4 ++ a5 ++ a6 ++ f0 :: f1 :: f2 :: f3 :: tail2) HV (PU 1%nat) L2) as (v2 & E2).
    set (e2 := dict_set "letter_width_expansion" v2 e1) in *.
    destruct (parse_language version (seen_by parent) i8 1 e2 a3 (a4 ++ a5 ++ a6 ++ f0 :: f1 :: f2 :: f3 :: tail2) HV (PS 1%nat) L3) as (v3 & E3).
    set (e3 := dict_set "letter_spacing" v3 e2) in *.
    destruct (parse_language version (seen_by parent) i8 1 e3 a4 (a5 ++ a6 ++ f0 :: f1 :: f2 :: f3 :: tail2) HV (PS 1%nat) L4) as (v4 & E4).
    set (e4 := dict_set "relative_size" v4 e3) in *.
    destruct (parse_language version (seen_by parent) i8 1 e4 a5 (a6 ++ f0 :: f1 :: f2 :: f3 :: tail2) HV (PS 1%nat) L5) as (v5 & E5).
    set (e5 := dict_set "position" v5 e4) in *.
    destruct (PS 4%nat e5 (a6 ++ f0 :: f1 :: f2 :: f3 :: tail2)) as (z & E6); [rewrite app_length; lia|].
    assert (E6' : parse version (seen_by parent) i32 e5 (a6 ++ f0 :: f1 :: f2 :: f3 :: tail2) = Some (Some (Int z), f0 :: f1 :: f2 :: f3 :: tail2)).
    { unfold i32. rewrite E6. do 2 f_equal. rewrite <- L6. rewrite skipn_app, skipn_all, Nat.sub_diag. reflexivity. }
    set (e6 := dict_set "basesize" (Int z) e5) in *.
    pose proof (parse_bits version (seen_by parent) 4 groups e6 (f0 :: f1 :: f2 :: f3 :: tail2) n tail2 eq_refl) as E7.
    set (e7 := dict_set "charshapeflags" (Flags n (map (group_view n) groups)) e6) in *.
    assert (E8 : exists v8, parse version (seen_by parent) k_ShadowSpace e7 tail2 = Some (Some v8, c0 :: c1 :: c2 :: c3 :: rest)).
    { unfold k_ShadowSpace. rewrite parse_fields. destruct (PS 1%nat [] tail2 ltac:(unfold tail2; cbn; lia)) as (z1 & F1). rewrite (fields_always _ _ _ _ _ _ _ _ _ HV F1).
      destruct (PS 1%nat (dict_set "x" (Int z1) []) (skipn 1 tail2) ltac:(unfold tail2; cbn; lia)) as (z2 & F2). rewrite (fields_always _ _ _ _ _ _ _ _ _ HV F2). eexists. reflexivity. }
    destruct E8 as (v8 & E8). set (e8 := dict_set "shadow_space" v8 e7) in *.
    assert (E9 : parse version (seen_by parent) i32 e8 (c0 :: c1 :: c2 :: c3 :: rest) = Some (Some (Int color), rest)) by (apply parse_signed; reflexivity).
    exists (dict_set "text_color" (Int color) e8). split; [|split].
    - rewrite look_dict_set. unfold e8. rewrite look_dict_set. unfold e7. rewrite look_dict_set. reflexivity.
    - rewrite look_dict_set. reflexivity.
    - intros fs. unfold payload. rewrite EB, <- !app_assoc. unfold first. cbn [app].
      rewrite (fields_always _ _ _ _ _ _ _ _ _ HV E1), (fields_always _ _ _ _ _ _ _ _ _ HV E2), (fields_always _ _ _ _ _ _ _ _ _ HV E3), (fields_always _ _ _ _ _ _ _ _ _ HV E4), (fields_always _ _ _ _ _ _ _ _ _ HV E5), (fields_always _ _ _ _ _ _ _ _ _ HV E6').
      rewrite (fields_always _ _ _ b_CharShape_Flags _ _ _ _ _ HV E7), (fields_always _ _ _ _ _ _ _ _ _ HV E8), (fields_always _ _ _ _ _ _ _ _ _ HV E9). reflexivity. }
  destruct HF as (env & K1 & K2 & HF). pose proof (members_kept _ _ _ _ _ _ _ _ _ _ HV HN HB H T eq_refl ER HF) as L.
  destruct (member_in _ _ _ (L _ _ K1 (NK "charshapeflags" ltac:(cbn; tauto)))) as (w & HI & EV). pose proof (int_in _ _ _ (L _ _ K2 (NK "text_color" ltac:(cbn; tauto)))) as LC.
  assert (G1 : group_view n (bit "italic" 0) = ("italic", (f0 mod 2, None))).
  { cbn [group_view bit]. f_equal. f_equal. pose proof (low_bits f0 (f1 + 256 * (f2 + 256 * (f3 + 256 * 0))) 0 0 ltac:(lia) ltac:(lia) ltac:(lia)) as LB. change (2 ^ 0) with 1 in LB. rewrite Z.div_1_r in LB. exact LB. }
  assert (G2 : group_view n (bit "bold" 1) = ("bold", (f0 / 2 mod 2, None))).
  { cbn [group_view bit]. f_equal. f_equal. exact (low_bits f0 (f1 + 256 * (f2 + 256 * (f3 + 256 * 0))) 1 1 ltac:(lia) ltac:(lia) ltac:(lia)). }
  split; [|split].
  - exists w, n, (map (group_view n) groups). split; [exact HI|]. split; [exact EV|]. rewrite <- G1. apply in_map. cbn. tauto.
  - exists w, n, (map (group_view n) groups). split; [exact HI|]. split; [exact EV|]. rewrite <- G2. apply in_map. cbn. tauto.
  - intros HC3. assert (HC : Forall (fun b => 0 <= b < 256) [c0; c1; c2; c3]).
    { apply Forall_app in HB as [_ HB]. repeat match goal with H : Forall _ (_ :: _) |- _ => inversion H; subst; clear H end. repeat (constructor; [match goal with B : is_byte ?z |- 0 <= ?z < 256 => exact B end|]). constructor. }
    clear - HC HC3 LC.
    repeat match goal with H : Forall _ (_ :: _) |- _ => inversion H; subst; clear H end.
    replace color with (c0 + 256 * (c1 + 256 * (c2 + 256 * c3))) in LC; [exact LC|]. unfold color, c. change (256 ^ Z.of_nat 4) with 4294967296. destruct (Z.ltb_spec (2 * (c0 + 256 * (c1 + 256 * (c2 + 256 * (c3 + 256 * 0))))) 4294967296); lia.
Qed.
