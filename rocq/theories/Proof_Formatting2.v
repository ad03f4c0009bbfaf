(** The document information and the sections as nodes. *)
From Coq Require Import ZArith String List Bool Lia Permutation.
From Verif Require Import Base BaseFacts Model_Tree Spec_Tree Model_ParaText Spec_ParaText Model_Shape Spec_Shape Model_Lang Model_Classes Model_XmlModel.
From Verif Require Import Model_Text Model_Dataio Model_Record Model_Bintype Model_Layouts Model_Models Model_Oleprops Model_Embed Spec_Embed
  Model_XmlText Model_XmlElement Model_XmlFile Spec_XmlText Spec_Bintype Spec_Models Spec_Oleprops Spec_Layouts Spec_XmlElement Spec_XmlModel Spec_Section Spec_XmlFile Spec_XmlSummary Spec_XmlHwp
  Proof_Record Proof_Text Proof_Tree Proof_Models Proof_Layouts Proof_Fits Proof_Section Proof_XmlText Proof_OleText Proof_XmlElement Proof_XmlEntry Proof_XmlRecord Proof_XmlNames Proof_XmlDocument Proof_XmlDocinfo
  Proof_XmlPasses Proof_XmlFile Proof_XmlSection Proof_XmlSummary Proof_XmlIds Proof_XmlHwp Model_Plaintext Spec_Plaintext Proof_Plaintext Proof_PlaintextXml Spec_Filestructure Spec_Formatting Proof_Formatting.
From Verif Require Model_Html Spec_Html Proof_Html Proof_Html3 Model_Opendoc Spec_Opendoc Proof_Opendoc6.
Import ListNotations.
Open Scope string_scope.
Open Scope list_scope.
Open Scope Z_scope.

(** ** Texts of numbers *)
Lemma numeral_only : forall t n, numeral t n -> forall u, numeral u n -> u = t.
Proof.
  intros t n H. induction H as [d D|l n d H IH P D]; intros u HU; inversion HU as [d' D' E1 E2|l' n' d' H' P' D' E1 E2]; subst.
  - reflexivity.
  - exfalso. lia.
  - exfalso. lia.
  - assert (n' = n /\ d' = d) as [-> ->] by lia. now rewrite (IH _ H').
Qed.
Lemma decimal_only : forall t n, decimal t n -> t = fmt_d n.
Proof.
  intros t n [[H N]|[H (u & N & ->)]]; destruct (decimal_ok n) as [[H' N']|[H' (u' & N' & E)]]; try lia.
  - exact (numeral_only _ _ N' _ N).
  - rewrite E. f_equal. exact (numeral_only _ _ N' _ N).
Qed.
Lemma numeral_chars : forall t n, numeral t n -> Forall (fun c => 48 <= c) t.
Proof. intros t n H. induction H; [repeat constructor; lia|]. apply Forall_app. split; [assumption|repeat constructor; lia]. Qed.
Lemma without_nul_same : forall t, ~ In 0 t -> without_nul t = t.
Proof.
  intros t. induction t as [|c t IH]; intros H; [reflexivity|]. unfold without_nul. cbn [filter]. destruct (Z.eqb_spec c 0) as [->|]; [exfalso; apply H; now left|]. cbn [negb]. f_equal. apply IH. intros K. apply H. now right.
Qed.
Lemma high_chars : forall t, Forall (fun c => 0 < c) t -> ~ In 0 t.
Proof. intros t H K. rewrite Forall_forall in H. specialize (H 0 K). lia. Qed.
Lemma decimal_chars : forall t n, decimal t n -> ~ In 0 t.
Proof.
  intros t n [[_ N]|[_ (u & N & ->)]]; apply high_chars; [|constructor; [lia|]]; eapply Forall_impl; try exact (numeral_chars _ _ N); cbn; intros; lia.
Qed.
Lemma hexadecimals_chars : forall up w n, Forall (fun c => 0 < c) (hexadecimals up w n).
Proof.
  intros up w. induction w as [|w IH]; intros n; [constructor|]. cbn [hexadecimals]. apply Forall_app. split; [apply IH|]. constructor; [|constructor].
  pose proof (Z.mod_pos_bound n 16 ltac:(lia)). unfold digit. destruct (n mod 16 <? 10); destruct up; lia.
Qed.
Lemma color_chars : forall n, ~ In 0 (color_text n).
Proof. intros n. apply high_chars. unfold color_text. repeat (apply Forall_app; split; try apply hexadecimals_chars). repeat constructor; lia. Qed.

(** ** Attributes *)
Lemma lookup_in : forall (k v : list Z) attrs, NoDup (map fst attrs) -> In (k, v) attrs -> Model_Html.lookup k (read_attributes attrs) = Some (without_nul v).
Proof.
  intros k v attrs. induction attrs as [|[k' v'] r IH]; intros N H; [contradiction|]. cbn [map fst] in N. apply NoDup_cons_iff in N as [N1 N2].
  cbn [read_attributes map Model_Html.lookup fst snd]. destruct H as [E|H].
  - injection E as -> ->. destruct (list_eq_dec Z.eq_dec k k) as [_|E]; [reflexivity|congruence].
  - destruct (list_eq_dec Z.eq_dec k k') as [->|_]; [exfalso; apply N1; apply in_map_iff; exists (k', v); auto|]. now apply IH.
Qed.
Definition attrs_of (t : xtree) : list (list Z * list Z) := match t with Elem _ a _ _ => a end.
Lemma node_attr : forall t k v, well_named t -> In (k, v) (attrs_of t) -> ~ In 0 v -> xattr k (node_of t) = Some v.
Proof.
  intros [n a x ks] k v W HI H0. inversion W as [? ? ? ? _ N _ _]; subst. cbn [attrs_of] in HI. cbn [node_of xattr]. rewrite (lookup_in k v a N HI). now rewrite without_nul_same.
Qed.
Lemma numbered_attrs : forall b u u' a, numbered b u u' a -> incl (attrs_of u) (attrs_of u').
Proof. intros b u u' a H. inversion H as [? ? ? ? ? number ? ? ? _ P _]; subst. cbn [attrs_of]. intros e HI. apply (Permutation_in _ (Permutation_sym P)). apply in_or_app. now left. Qed.
Lemma with_attrs : forall u ks, attrs_of (with_children u ks) = attrs_of u.
Proof. intros [n a x k] ks. reflexivity. Qed.
Lemma with_root : forall u ks, root_name (with_children u ks) = root_name u.
Proof. intros [n a x k] ks. reflexivity. Qed.
Lemma with_own : forall u ks, own_kids (with_children u ks) = own_kids u ++ ks.
Proof. intros [n a x k] ks. reflexivity. Qed.
Lemma numbered_root : forall b u u' a, numbered b u u' a -> root_name u' = root_name u.
Proof. intros b u u' a H. exact (proj1 (proj1 numbered_names_kept _ _ _ _ H)). Qed.
Lemma well_kids : forall t, well_named t -> Forall well_named (own_kids t).
Proof. intros t H. inversion H; assumption. Qed.

Section Made.
  Variable repr : view -> list Z.
  Variable object : list Z.
  (** What is listed for a member is in the attributes. *)
  Lemma listed_in : forall name d u key v, Spec_XmlElement.element repr object name d u -> In (key, v) d ->
    exists l, attributes_of repr (form_of name key) key v l /\ incl l (attrs_of u).
  Proof.
    intros name d u key v E HI. inversion E as [? ? listed attrs kids F P N C]; subst. cbn [attrs_of].
    assert (G : exists l, attributes_of repr (form_of name key) key v l /\ In l listed).
    { clear - F HI. revert HI. induction F as [|m l d listed H F IH]; intros HI; [contradiction|]. destruct HI as [->|HI]; [exists l; split; [exact H|now left]|]. destruct (IH HI) as (l' & A & B). exists l'. split; [exact A|now right]. }
    destruct G as (l & A & B). exists l. split; [exact A|]. intros e HE. apply (Permutation_in _ (Permutation_sym P)). apply in_or_app. left. apply in_concat. now exists l.
  Qed.
  Definition final (u : xtree) (w : xtree) : Prop := exists u' b a ks, numbered b u u' a /\ w = with_children u' ks /\ well_named w.
  Lemma final_attr : forall u w k v, final u w -> In (k, v) (attrs_of u) -> ~ In 0 v -> xattr k (node_of w) = Some v.
  Proof.
    intros u w k v (u' & b & a & ks & N & E & W) HI H0. apply node_attr; [exact W| |exact H0]. rewrite E, with_attrs. exact (numbered_attrs _ _ _ _ N _ HI).
  Qed.
  Lemma final_root : forall u w, final u w -> root_name w = root_name u.
  Proof. intros u w (u' & b & a & ks & N & -> & _). rewrite with_root. exact (numbered_root _ _ _ _ N). Qed.
  Lemma plain_number : forall name d u w key n t, Spec_XmlElement.element repr object name d u -> final u w -> In (key, Int n) d -> key <> "<text>" -> form_of name key = Plain -> decimal t n ->
    xattr (attribute_name key) (node_of w) = Some t.
  Proof.
    intros name d u w key n t E F HI HK HF D. destruct (listed_in _ _ _ _ _ E HI) as (l & A & I). rewrite HF in A. inversion A as [? ? t' _ P| | | | | | | |]; subst; [|congruence|contradiction].
    inversion P as [? ? D'| | | |]; subst. apply (final_attr u); [exact F| |exact (decimal_chars _ _ D)]. rewrite (decimal_only _ _ D), <- (decimal_only _ _ D'). apply I. now left.
  Qed.
  Lemma made_of : forall m content u w, kept (m_type m) (m_content m) content -> m_type m <> "TableBody" -> Spec_XmlElement.element repr object (m_type m) (views content) u -> final u w -> made_for m (node_of w).
  Proof.
    intros m content u w K T E F.
    assert (I : forall key v, In (key, v) (m_content m) -> (forall ms, view_of v <> Members ms) -> In (key, view_of v) (views content)).
    { intros key v HI HV. assert (G : In (key, v) content).
      { clear - K HI HV T. revert HI. induction K as [|e l l' K IH|v' l l' Ht K IH|d x l l' Ht _ K IH]; intros HI; [contradiction| | |].
        - destruct HI as [->|HI]; [now left|right; now apply IH].
        - congruence.
        - destruct HI as [E|HI]; [|right; now apply IH]. exfalso. injection E as _ <-. now apply (HV (map (fun kv => (fst kv, view_of (snd kv))) d)). }
      unfold views. apply in_map_iff. exists (key, v). auto. }
    constructor.
    - rewrite node_name. unfold xnamed. rewrite (final_root _ _ F). rewrite (proj2 (element_calm _ _ _ _ _ E)). unfold name_is. destruct (list_eq_dec _ _ _); congruence.
    - intros key n t HI HK HF D. apply (plain_number _ _ _ _ key n t E F); auto. apply (I key (VInt n) HI). discriminate.
    - intros key t HI HK HF H0. assert (J : In (key, Text t) (views content)) by (apply (I key (VText t) HI); discriminate).
      destruct (listed_in _ _ _ _ _ E J) as (l & A & L). rewrite HF in A. inversion A as [? ? t' _ P| | | | | | | |]; subst; [|congruence|contradiction]. inversion P; subst.
      apply (final_attr u); [exact F| |exact H0]. apply L. now left.
    - intros key n HI HF. assert (J : In (key, Int n) (views content)) by (apply (I key (VInt n) HI); discriminate).
      destruct (listed_in _ _ _ _ _ E J) as (l & A & L). rewrite HF in A. inversion A; subst; [|contradiction]. apply (final_attr u); [exact F| |apply color_chars]. apply L. now left.
    - intros key v n gs wd name g t HI HV HF HG G H0. assert (J : In (key, view_of v) (views content)) by (apply I; [exact HI|rewrite HV; discriminate]). rewrite HV in J.
      destruct (listed_in _ _ _ _ _ E J) as (l & A & L). rewrite HF in A. inversion A as [| |? ? ? ? l' GS| | | | | |]; subst; [|contradiction].
      apply (final_attr u); [exact F| |exact H0]. apply L. right. clear - GS HG G. revert HG. induction GS as [|g0 a gs l' [E1 E2] GS IH]; intros HG; [contradiction|]. destruct HG as [->|HG]; [|right; now apply IH].
      left. cbn [fst snd] in *. destruct a as [k t']. cbn [fst snd] in *. subst k. f_equal. inversion G as [n0 s0|n0 t0 D]; subst; inversion E2 as [n1 s1|n1 t1 D']; subst; [reflexivity|]. now rewrite (decimal_only _ _ D), (decimal_only _ _ D').
  Qed.
End Made.

(** ** Shapes *)
Definition shape_names_incl : incl shape_types own_names := fun s H => in_or_app _ _ _ (or_introl H).
Lemma entry_calm : forall e t, entry_element e t -> calm shape_types t.
Proof. intros e t H. inversion H; subst. apply calm_elem. split; [|constructor]. intros s I. repeat (destruct I as [<-|I]; [reflexivity|]). contradiction. Qed.
Lemma property_calm : forall time_text p t, property_element time_text p t -> calm shape_types t.
Proof.
  intros time_text p t H. inversion H as [? ? ? ? ? ? ? ? F|]; subst; apply calm_elem; (split; [intros s I; repeat (destruct I as [<-|I]; [reflexivity|]); contradiction|]); [|constructor].
  exact (forall2_right _ _ _ _ _ _ (fun x t => entry_calm x t) F).
Qed.
Lemma set_calm : forall time_text p t, set_element time_text p t -> calm shape_types t.
Proof.
  intros time_text p t H. inversion H as [? ? ? ? ? ? ? ? ? F]; subst; apply calm_elem; (split; [intros s I; repeat (destruct I as [<-|I]; [reflexivity|]); contradiction|]).
  exact (forall2_right _ _ _ _ _ _ (fun x t => property_calm time_text x t) F).
Qed.
Lemma summary_calm : forall time_text p t, summary_element time_text p t -> calm shape_types t.
Proof.
  intros time_text p t H. inversion H as [? ? ? ? ? ? ? F]; subst; apply calm_elem; (split; [intros s I; repeat (destruct I as [<-|I]; [reflexivity|]); contradiction|]). constructor; [|constructor].
  apply calm_elem. split; [intros s I; repeat (destruct I as [<-|I]; [reflexivity|]); contradiction|]. exact (forall2_right _ _ _ _ _ _ (fun x t => set_calm time_text x t) F).
Qed.
Lemma items_same : forall A (f : forest A), all_items f = items_of f.
Proof. intros A f. induction f as [|x k IHk n IHn]; [reflexivity|]. cbn. now rewrite IHk, IHn. Qed.

Lemma calms_named : forall names s ts, In s names -> Forall (calm names) ts -> filter (xnamed s) (flat_map xparts ts) = [].
Proof. intros names s ts HS H. rewrite filter_flat_map. apply Proof_Html3.flat_map_none. intros u HI. rewrite Forall_forall in H. apply (calm_named names); auto. Qed.
Lemma calm_own : forall names t, calm names t -> Forall (calm names) (own_kids t).
Proof. intros names [n a x k] H. now apply calm_elem in H. Qed.
Lemma calms_has : forall names s ts, In s names -> Forall (calm names) ts -> filter (xhas s) (flat_map xparts ts) = [].
Proof. intros names s ts HS H. rewrite filter_flat_map. apply Proof_Html3.flat_map_none. intros u HI. rewrite Forall_forall in H. apply (calm_has names); [exact HS|]. apply calm_own. auto. Qed.
Lemma kids_has : forall names s ts, In s names -> Forall (fun t => Forall (calm names) (own_kids t)) ts -> filter (xhas s) (flat_map xparts ts) = [].
Proof. intros names s ts HS H. rewrite filter_flat_map. apply Proof_Html3.flat_map_none. intros u HI. rewrite Forall_forall in H. apply (calm_has names); auto. Qed.
Lemma filter_calms : forall names s ts, In s names -> Forall (calm names) ts -> filter (xnamed s) ts = [].
Proof. intros names s ts HS H. apply Proof_Html.filter_none. intros [n a x k] HI. rewrite Forall_forall in H. specialize (H _ HI). apply calm_elem in H as [H _]. now apply H. Qed.
Lemma xparts_root : forall t, xparts t = t :: flat_map xparts (own_kids t).
Proof. intros [n a x k]. reflexivity. Qed.

(** The tree of a document, and its IdMappings. *)
Section Tree.
  Variables (version_attrs di_attrs bt_attrs : list (list Z * list Z)) (s : xtree) (before after own ks ss : list xtree) (m_attrs : list (list Z * list Z)) (m_text : list Z).
  Let M := Elem (zs "IdMappings") m_attrs m_text (own ++ ks).
  Let DI := Elem (zs "DocInfo") di_attrs [] (before ++ M :: after).
  Let BT := Elem (zs "BodyText") bt_attrs [] ss.
  Let T := Elem (zs "HwpDoc") version_attrs [] [s; DI; BT].
  Hypothesis Hs : calm shape_types s.
  Hypothesis Hroot : root_name s = zs "HwpSummaryInfo".
  Hypothesis Hbefore : Forall (calm shape_types) before.
  Hypothesis Hafter : Forall (calm shape_types) after.
  Hypothesis Hown : Forall (calm shape_types) own.
  Hypothesis Hks : Forall (fun t => xnamed "IdMappings" t = false /\ Forall (calm shape_types) (own_kids t)) ks.
  Hypothesis Hss : Forall (calm shape_types) ss.
  Lemma named_root : forall n, xnamed n s = name_is n (zs "HwpSummaryInfo").
  Proof. intros n. unfold xnamed. now rewrite Hroot. Qed.
  Lemma tree_mapped : Spec_Html.mapped [node_of T] (node_of M).
  Proof.
    assert (I0 : In "IdMappings" shape_types) by now left.
    assert (EC : children_named "DocInfo" (node_of T) = [node_of DI]).
    { rewrite node_children. unfold T. cbn [own_kids filter]. rewrite named_root. reflexivity. }
    constructor.
    - cbn [filter]. change (named_node "HwpDoc" (node_of T)) with true. cbn iota. cbn [flat_map]. rewrite app_nil_r, EC. cbn [flat_map]. rewrite app_nil_r, node_children. unfold DI. cbn [own_kids].
      rewrite filter_app. cbn [filter]. change (xnamed "IdMappings" M) with true. cbn iota. now rewrite (filter_calms shape_types), (filter_calms shape_types).
    - change (map Model_Html.self (Model_Html.all_nodes [node_of T])) with (all_of_nodes [node_of T]). rewrite named_of. rewrite xparts_root. unfold T. cbn [own_kids flat_map filter].
      change (xnamed "IdMappings" (Elem (zs "HwpDoc") version_attrs [] [s; DI; BT])) with false. cbn iota. rewrite app_nil_r, !filter_app, (calm_named shape_types "IdMappings" s I0 Hs). cbn [app].
      rewrite (xparts_root DI). unfold DI. cbn [own_kids filter]. match goal with |- context [xnamed "IdMappings" (Elem (zs "DocInfo") ?a ?b ?c)] => change (xnamed "IdMappings" (Elem (zs "DocInfo") a b c)) with false end. cbn iota.
      rewrite flat_map_app, filter_app, (calms_named shape_types "IdMappings" before I0 Hbefore). cbn [app flat_map]. rewrite filter_app, (calms_named shape_types "IdMappings" after I0 Hafter), app_nil_r.
      rewrite (xparts_root M). unfold M. cbn [own_kids filter]. change (xnamed "IdMappings" (Elem (zs "IdMappings") m_attrs m_text (own ++ ks))) with true. cbn iota.
      rewrite flat_map_app, filter_app, (calms_named shape_types "IdMappings" own I0 Hown). cbn [app].
      assert (EK : filter (xnamed "IdMappings") (flat_map xparts ks) = []).
      { rewrite filter_flat_map. apply Proof_Html3.flat_map_none. intros u HI. rewrite Forall_forall in Hks. destruct (Hks u HI) as [N C]. rewrite xparts_root. cbn [filter]. rewrite N. exact (calms_named shape_types "IdMappings" _ I0 C). }
      rewrite EK. rewrite (xparts_root BT). unfold BT. cbn [own_kids filter]. change (xnamed "IdMappings" (Elem (zs "BodyText") bt_attrs [] ss)) with false. cbn iota. rewrite (calms_named shape_types "IdMappings" ss I0 Hss). reflexivity.
    - intros n HN. assert (IN : In n shape_types) by (right; exact HN). rewrite parents_of. rewrite xparts_root. unfold T. cbn [own_kids flat_map filter].
      assert (A1 : xhas n (Elem (zs "HwpDoc") version_attrs [] [s; DI; BT]) = false).
      { unfold xhas. cbn [own_kids existsb]. rewrite named_root. clear - HN. repeat (destruct HN as [<-|HN]; [reflexivity|]). contradiction. }
      rewrite A1, app_nil_r, !filter_app. rewrite (calm_has shape_types n s IN (calm_own _ _ Hs)). cbn [app].
      assert (A2 : xhas n DI = false).
      { unfold xhas. unfold DI. cbn [own_kids]. rewrite existsb_app, (calms_have shape_types n before IN Hbefore). cbn [existsb orb]. rewrite (calms_have shape_types n after IN Hafter), orb_false_r. unfold M. clear - HN. repeat (destruct HN as [<-|HN]; [reflexivity|]). contradiction. }
      rewrite (xparts_root DI). cbn [filter]. rewrite A2. unfold DI. cbn [own_kids]. rewrite flat_map_app, filter_app, (calms_has shape_types n before IN Hbefore). cbn [app flat_map]. rewrite filter_app, (calms_has shape_types n after IN Hafter), app_nil_r.
      rewrite (xparts_root BT). cbn [filter]. assert (A3 : xhas n BT = false) by (unfold xhas; unfold BT; cbn [own_kids]; exact (calms_have shape_types n ss IN Hss)). rewrite A3. unfold BT. cbn [own_kids].
      rewrite (calms_has shape_types n ss IN Hss), app_nil_r. rewrite (xparts_root M). cbn [filter].
      assert (A4 : filter (xhas n) (flat_map xparts (own_kids M)) = []).
      { unfold M. cbn [own_kids]. rewrite flat_map_app, filter_app, (calms_has shape_types n own IN Hown). cbn [app]. apply (kids_has shape_types n ks IN). eapply Forall_impl; [|exact Hks]. cbn. tauto. }
      rewrite A4. rewrite <- (node_has n M). destruct (children_named n (node_of M)); reflexivity.
    - intros n HN. cbn [filter]. assert (E : named_node n (node_of T) = false) by (rewrite node_name; clear - HN; repeat (destruct HN as [<-|HN]; [reflexivity|]); contradiction). now rewrite E.
  Qed.
  Lemma tree_shapes : forall n, In n Spec_Html.shapes -> children_named n (node_of M) = map node_of (filter (xnamed n) ks).
  Proof. intros n HN. rewrite node_children. unfold M. cbn [own_kids]. rewrite filter_app, (filter_calms shape_types n own); [reflexivity|now right|exact Hown]. Qed.
  Lemma tree_body : children_named "BodyText" (node_of T) = [node_of BT] /\ children_named "DocInfo" (node_of T) = [node_of DI].
  Proof. split; rewrite node_children; unfold T; cbn [own_kids filter]; rewrite named_root; reflexivity. Qed.
End Tree.
