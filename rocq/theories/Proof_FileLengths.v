(** Lengths of documents made from files. *)
From Coq Require Import ZArith String List Bool Lia.
From Verif Require Import Base BaseFacts Model_Tree Spec_Tree.
From Verif Require Import Model_Text Model_Dataio Model_Record Model_Bintype Model_Layouts Model_Models
  Model_XmlText Model_XmlElement Model_XmlFile Spec_XmlText Spec_Bintype Spec_Models Spec_Layouts Spec_XmlElement Spec_Section Spec_XmlFile Spec_XmlHwp
  Proof_Text Proof_Models Proof_Layouts Proof_OleText Model_Plaintext Model_Html Spec_Lengths Spec_Formatting Proof_Formatting5 Spec_FileLengths.
From Verif Require Proof_Layouts.
Import ListNotations.
Open Scope string_scope.
Open Scope list_scope.
Open Scope Z_scope.

Lemma number_attr : forall bits a key rm y n, attribute_name key = zs a -> key <> "<text>" -> form_of (m_type (snd rm)) key = Spec_XmlElement.Plain -> made_for (snd rm) y ->
  number_in bits key rm n -> int_attr bits a y n.
Proof.
  intros bits a key rm y n EA HK HF M [HI HB]. split; [|exact HB]. pose proof (mf_number _ _ M key n (fmt_d n) HI HK HF (decimal_ok n)) as E. rewrite EA in E. exact E.
Qed.

(** The node of a section, and its number and page *)
Lemma section_page_at : forall version x kids sections document m d b i s out rp, document_of version x kids sections document m d b ->
  nth_error sections i = Some s -> models_of version Finished [] (snd s) out Finished -> page_record out rp ->
  exists y p, nth_error (children_named "SectionDef" b) i = Some y /\ attr "section-id" y = Some (fmt_d (fst s)) /\ children_named "PageDef" y = [p] /\ made_for (snd rp) p /\ m_type (snd rp) = "PageDef".
Proof.
  intros version x kids sections document m d b i s out rp HD E HM HP. destruct (do_sections _ _ _ _ _ _ _ _ HD) as [F _]. destruct (Forall2_nth_l _ _ _ _ _ F i s E) as (y & EY & C).
  destruct (sc_page _ _ _ C out rp HM HP) as (p & EP & M). exists y, p. split; [exact EY|]. split; [exact (sc_number _ _ _ C (fmt_d (fst s)) (decimal_ok _))|]. split; [exact EP|]. split; [exact M|].
  destruct HP as (b1 & rs & a1 & _ & _ & T & _). exact T.
Qed.
Lemma section_ids : forall version x kids sections document m d b, document_of version x kids sections document m d b ->
  map (attr "section-id") (children_named "SectionDef" b) = map (fun s => Some (fmt_d (fst s))) sections.
Proof.
  intros version x kids sections document m d b HD. destruct (do_sections _ _ _ _ _ _ _ _ HD) as [F _]. clear HD. induction F as [|s y l l' C F IH]; [reflexivity|]. cbn [map]. f_equal; [|exact IH].
  exact (sc_number _ _ _ C (fmt_d (fst s)) (decimal_ok _)).
Qed.

(** ** Bytes *)
Lemma unsigned4_is : forall a b c d r, Spec_Layouts.unsigned 4 (a :: b :: c :: d :: r) = Some (word4 a b c d, r).
Proof. intros. cbn [Spec_Layouts.unsigned]. unfold word4. do 2 f_equal. lia. Qed.
Lemma signed4_is : forall a b c d r, 0 <= a < 256 -> 0 <= b < 256 -> 0 <= c < 256 -> 0 <= d < 256 -> Spec_Layouts.signed 4 (a :: b :: c :: d :: r) = Some (signed4 a b c d, r).
Proof.
  intros a b c d r A B C D. unfold Spec_Layouts.signed. rewrite unsigned4_is. change (256 ^ Z.of_nat 4) with 4294967296. unfold signed4. change (2 ^ 32) with 4294967296. unfold word4.
  do 2 f_equal. destruct (Z.ltb_spec (2 * (a + 256 * (b + 256 * (c + 256 * d)))) 4294967296), (Z.ltb_spec d 128); lia.
Qed.
Lemma u32_step : forall version p name fs env a b c d r, version_ok version ->
  fields version p (always name u32 :: fs) env (a :: b :: c :: d :: r) = fields version p fs (dict_set name (Int (word4 a b c d)) env) r.
Proof. intros. apply fields_always; [assumption|]. apply parse_unsigned. apply unsigned4_is. Qed.
Lemma i32_step : forall version p name fs env a b c d r, version_ok version -> all_bytes [a; b; c; d] ->
  fields version p (always name i32 :: fs) env (a :: b :: c :: d :: r) = fields version p fs (dict_set name (Int (signed4 a b c d)) env) r.
Proof.
  intros version p name fs env a b c d r HV HB. apply fields_always; [assumption|]. apply parse_signed. apply signed4_is;
    (unfold all_bytes in HB; rewrite Forall_forall in HB; match goal with |- 0 <= ?z < 256 => destruct (HB z ltac:(cbn; tauto)) end; lia).
Qed.
Lemma bits_step : forall version p name gs fs env a b c d r, version_ok version ->
  fields version p (always name (Bits 4 gs) :: fs) env (a :: b :: c :: d :: r) = fields version p fs (dict_set name (Flags (word4 a b c d) (map (group_view (word4 a b c d)) gs)) env) r.
Proof. intros. apply fields_always; [assumption|]. apply parse_bits. apply unsigned4_is. Qed.

Definition groups_of (k : kind) := match k with Bits _ gs => gs | _ => [] end.
Theorem page_bytes : forall version parent r payload m, version_ok version -> Proof_Layouts.node_ok parent -> all_bytes payload -> (40 <= List.length payload)%nat ->
  reads version parent 73 payload (Ok m) ->
  (forall k key, In (k, key) page_numbers -> In (key, VInt (word_at k payload)) (m_content m)) /\
  (forall o, nth_error orientations (Z.to_nat (nth 36 payload 0 mod 2)) = Some o -> chosen_bits "attr" "orientation" o (r, m)).
Proof.
  intros version parent r payload m HV HN HB HL H.
  assert (T : m_type m = "PageDef") by (apply (type_read _ _ _ _ _) in H; [exact H|]; intros d t R; change (type_of_tag 73) with "PageDef" in R; inversion R).
  do 40 (destruct payload as [|? payload]; [cbn in HL; lia|]). clear HL.
  assert (HF : exists env, (forall k key, In (k, key) page_numbers -> look key env = Some (Int (word_at k (z :: z0 :: z1 :: z2 :: z3 :: z4 :: z5 :: z6 :: z7 :: z8 :: z9 :: z10 :: z11 :: z12 :: z13 :: z14 :: z15 :: z16 :: z17 :: z18 :: z19 :: z20 :: z21 :: z22 :: z23 :: z24 :: z25 :: z26 :: z27 :: z28 :: z29 :: z30 :: z31 :: z32 :: z33 :: z34 :: z35 :: z36 :: z37 :: z38 :: payload)))) /\
    look "attr" env = Some (Flags (word4 z35 z36 z37 z38) (map (group_view (word4 z35 z36 z37 z38)) (groups_of b_PageDef_Flags))) /\
    forall fs, fields version (seen_by parent) (record_fields "PageDef" ++ fs) [] (z :: z0 :: z1 :: z2 :: z3 :: z4 :: z5 :: z6 :: z7 :: z8 :: z9 :: z10 :: z11 :: z12 :: z13 :: z14 :: z15 :: z16 :: z17 :: z18 :: z19 :: z20 :: z21 :: z22 :: z23 :: z24 :: z25 :: z26 :: z27 :: z28 :: z29 :: z30 :: z31 :: z32 :: z33 :: z34 :: z35 :: z36 :: z37 :: z38 :: payload) =
      fields version (seen_by parent) fs env payload).
  { eexists. split; [|split]. 3:{ intros fs. change (record_fields "PageDef") with [always "width" u32; always "height" u32; always "left_offset" u32; always "right_offset" u32; always "top_offset" u32; always "bottom_offset" u32; always "header_offset" u32; always "footer_offset" u32; always "bookbinding_offset" u32; always "attr" (Bits 4 (groups_of b_PageDef_Flags))]. cbn [app].
      do 9 rewrite (u32_step version _ _ _ _ _ _ _ _ _ HV). rewrite (bits_step version _ _ _ _ _ _ _ _ _ _ HV). reflexivity. }
    - intros k key J. repeat (destruct J as [J|J]; [injection J as <- <-; reflexivity|]). contradiction.
    - reflexivity. }
  destruct HF as (env & HE & HA & HF).
  pose proof (members_kept _ _ _ _ _ _ _ _ _ _ HV HN HB H T eq_refl (eq_sym (app_nil_r _)) HF) as L. split.
  - intros k key J. apply int_in. apply (L key _ (HE k key J)). intros [].
  - intros o HO. destruct (member_in _ _ _ (L "attr" _ HA ltac:(intros []))) as (w & HI & EV). cbn [nth] in HO.
    exists w, (word4 z35 z36 z37 z38), (map (group_view (word4 z35 z36 z37 z38)) (groups_of b_PageDef_Flags)), (z35 mod 2). split; [exact HI|]. split; [exact EV|].
    assert (G : group_view (word4 z35 z36 z37 z38) (enum "orientation" 0 0 "PageDef.Orientation") = ("orientation", (z35 mod 2, Some o))).
    { unfold word4. cbn [group_view enum]. rewrite (low_bits z35 (z36 + 256 * (z37 + 256 * z38)) 0 0 ltac:(lia) ltac:(lia) ltac:(lia)). change (2 ^ 0) with 1. change (2 ^ (0 - 0 + 1)) with 2. rewrite Z.div_1_r. f_equal. f_equal.
      pose proof (Z.mod_pos_bound z35 2 ltac:(lia)) as B. set (c := z35 mod 2) in *. clearbody c. clear - HO B. assert (C : c = 0 \/ c = 1) by lia. destruct C as [-> | ->]; vm_compute in HO; injection HO as <-; reflexivity. }
    rewrite <- G. apply in_map. cbn. tauto.
Qed.

Theorem shape_bytes : forall version parent r payload m, version_ok version -> Proof_Layouts.node_ok parent -> all_bytes payload -> (28 <= List.length payload)%nat ->
  reads version parent 25 payload (Ok m) ->
  (forall k key, In (k, key) shape_numbers -> In (key, VInt (signed_at k payload)) (m_content m)) /\
  (forall o, nth_error spacings (Z.to_nat (nth 0 payload 0 mod 4)) = Some o -> chosen_bits "parashapeflags" "linespacing_type" o (r, m)).
Proof.
  intros version parent r payload m HV HN HB HL H.
  assert (T : m_type m = "ParaShape") by (apply (type_read _ _ _ _ _) in H; [exact H|]; intros d t R; change (type_of_tag 25) with "ParaShape" in R; inversion R).
  do 28 (destruct payload as [|? payload]; [cbn in HL; lia|]). clear HL.
  set (first := [always "parashapeflags" (Bits 4 (groups_of b_ParaShape_Flags1)); always "doubled_margin_left" i32; always "doubled_margin_right" i32; always "indent" i32; always "doubled_margin_top" i32; always "doubled_margin_bottom" i32; always "linespacing" i32]).
  assert (ER : record_fields "ParaShape" = first ++ skipn 7 (record_fields "ParaShape")) by reflexivity.
  assert (NK : forall k, In k ("parashapeflags" :: map snd shape_numbers) -> ~ In k (map field_name (skipn 7 (record_fields "ParaShape")))).
  { intros k HK. repeat (destruct HK as [<-|HK]; [vm_compute; intuition discriminate|]). contradiction. }
  assert (HF : exists env, (forall k key, In (k, key) shape_numbers -> look key env = Some (Int (signed_at k (z :: z0 :: z1 :: z2 :: z3 :: z4 :: z5 :: z6 :: z7 :: z8 :: z9 :: z10 :: z11 :: z12 :: z13 :: z14 :: z15 :: z16 :: z17 :: z18 :: z19 :: z20 :: z21 :: z22 :: z23 :: z24 :: z25 :: z26 :: payload)))) /\
    look "parashapeflags" env = Some (Flags (word4 z z0 z1 z2) (map (group_view (word4 z z0 z1 z2)) (groups_of b_ParaShape_Flags1))) /\
    forall fs, fields version (seen_by parent) (first ++ fs) [] (z :: z0 :: z1 :: z2 :: z3 :: z4 :: z5 :: z6 :: z7 :: z8 :: z9 :: z10 :: z11 :: z12 :: z13 :: z14 :: z15 :: z16 :: z17 :: z18 :: z19 :: z20 :: z21 :: z22 :: z23 :: z24 :: z25 :: z26 :: payload) =
      fields version (seen_by parent) fs env payload).
  { assert (B : forall l1 l2 a b c d, z :: z0 :: z1 :: z2 :: z3 :: z4 :: z5 :: z6 :: z7 :: z8 :: z9 :: z10 :: z11 :: z12 :: z13 :: z14 :: z15 :: z16 :: z17 :: z18 :: z19 :: z20 :: z21 :: z22 :: z23 :: z24 :: z25 :: z26 :: payload = l1 ++ a :: b :: c :: d :: l2 -> all_bytes [a; b; c; d]).
    { intros l1 l2 a b c d E. rewrite E in HB. apply Forall_app in HB as [_ HB]. clear E. change (Forall is_byte ([a; b; c; d] ++ l2)) in HB. apply Forall_app in HB as [HB _]. exact HB. }
    eexists. split; [|split]. 3:{ intros fs. unfold first. cbn [app]. rewrite (bits_step version _ _ _ _ _ _ _ _ _ _ HV).
      rewrite (i32_step version _ _ _ _ z3 z4 z5 z6 _ HV) by (apply (B [z; z0; z1; z2] _ _ _ _ _ eq_refl)).
      rewrite (i32_step version _ _ _ _ z7 z8 z9 z10 _ HV) by (apply (B [z; z0; z1; z2; z3; z4; z5; z6] _ _ _ _ _ eq_refl)).
      rewrite (i32_step version _ _ _ _ z11 z12 z13 z14 _ HV) by (apply (B [z; z0; z1; z2; z3; z4; z5; z6; z7; z8; z9; z10] _ _ _ _ _ eq_refl)).
      rewrite (i32_step version _ _ _ _ z15 z16 z17 z18 _ HV) by (apply (B [z; z0; z1; z2; z3; z4; z5; z6; z7; z8; z9; z10; z11; z12; z13; z14] _ _ _ _ _ eq_refl)).
      rewrite (i32_step version _ _ _ _ z19 z20 z21 z22 _ HV) by (apply (B [z; z0; z1; z2; z3; z4; z5; z6; z7; z8; z9; z10; z11; z12; z13; z14; z15; z16; z17; z18] _ _ _ _ _ eq_refl)).
      rewrite (i32_step version _ _ _ _ z23 z24 z25 z26 _ HV) by (apply (B [z; z0; z1; z2; z3; z4; z5; z6; z7; z8; z9; z10; z11; z12; z13; z14; z15; z16; z17; z18; z19; z20; z21; z22] _ _ _ _ _ eq_refl)).
      reflexivity. }
    - intros k key J. repeat (destruct J as [J|J]; [injection J as <- <-; reflexivity|]). contradiction.
    - reflexivity. }
  destruct HF as (env & HE & HA & HF).
  pose proof (members_kept _ _ _ _ _ _ _ _ _ _ HV HN HB H T eq_refl ER HF) as L. split.
  - intros k key J. apply int_in. apply (L key _ (HE k key J)). apply NK. right. apply in_map_iff. exists (k, key). split; [reflexivity|exact J].
  - intros o HO. destruct (member_in _ _ _ (L "parashapeflags" _ HA (NK _ ltac:(left; reflexivity)))) as (w & HI & EV). cbn [nth] in HO.
    exists w, (word4 z z0 z1 z2), (map (group_view (word4 z z0 z1 z2)) (groups_of b_ParaShape_Flags1)), (z mod 4). split; [exact HI|]. split; [exact EV|].
    assert (G : group_view (word4 z z0 z1 z2) (enum "linespacing_type" 0 1 "ParaShape.LineSpacingType") = ("linespacing_type", (z mod 4, Some o))).
    { unfold word4. cbn [group_view enum]. rewrite (low_bits z (z0 + 256 * (z1 + 256 * z2)) 0 1 ltac:(lia) ltac:(lia) ltac:(lia)). change (2 ^ 0) with 1. change (2 ^ (1 - 0 + 1)) with 4. rewrite Z.div_1_r. f_equal. f_equal.
      pose proof (Z.mod_pos_bound z 4 ltac:(lia)) as B. set (c := z mod 4) in *. clearbody c. clear - HO B. assert (C : c = 0 \/ c = 1 \/ c = 2 \/ c = 3) by lia. destruct C as [->|[->|[->| ->]]]; vm_compute in HO; injection HO as <-; reflexivity. }
    rewrite <- G. apply in_map. cbn. tauto.
Qed.
