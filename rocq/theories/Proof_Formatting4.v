(** Documents made from files: the whole document, and what is shown of it. *)
From Coq Require Import ZArith String List Bool Lia Permutation.
From Verif Require Import Base BaseFacts Model_Tree Spec_Tree Model_ParaText Spec_ParaText Model_Shape Spec_Shape Model_Lang Model_Classes Model_XmlModel.
From Verif Require Import Model_Text Model_Dataio Model_Record Model_Bintype Model_Layouts Model_Models Model_Oleprops Model_Embed Spec_Embed
  Model_XmlText Model_XmlElement Model_XmlFile Spec_XmlText Spec_Bintype Spec_Models Spec_Oleprops Spec_Layouts Spec_XmlElement Spec_XmlModel Spec_Section Spec_XmlFile Spec_XmlSummary Spec_XmlHwp
  Proof_Record Proof_Text Proof_Tree Proof_Models Proof_Layouts Proof_Fits Proof_Section Proof_XmlText Proof_OleText Proof_XmlElement Proof_XmlEntry Proof_XmlRecord Proof_XmlNames Proof_XmlDocument Proof_XmlDocinfo
  Proof_XmlPasses Proof_XmlFile Proof_XmlSection Proof_XmlSummary Proof_XmlIds Proof_XmlHwp Model_Plaintext Spec_Plaintext Proof_Plaintext Proof_PlaintextXml Spec_Filestructure Spec_Formatting Proof_Formatting Proof_Formatting2 Proof_Formatting3 Proof_FormattingPage.
From Verif Require Model_Html Spec_Html Proof_Html Proof_Html3 Model_Opendoc Spec_Opendoc Proof_Opendoc6.
Import ListNotations.
Open Scope string_scope.
Open Scope list_scope.
Open Scope Z_scope.

(** ** Numbers *)
Lemma well_parts : forall t, well_named t -> Forall well_named (xparts t).
Proof.
  apply (xtree_all (fun t => well_named t -> Forall well_named (xparts t))). intros n a x k IH W. rewrite xparts_root. constructor; [exact W|]. apply well_kids in W. cbn [own_kids] in *.
  apply Forall_forall. intros u HI. apply in_flat_map in HI as (w & HW & HU). rewrite Forall_forall in IH, W. specialize (IH w HW (W w HW)). rewrite Forall_forall in IH. now apply IH.
Qed.
Lemma named_attrs : forall s t, map attrs_of (filter (xnamed s) (xparts t)) = named (zs s) t.
Proof.
  intros s. assert (N : forall n, same (zs s) n = name_is s n). { intros n. unfold same, name_is. destruct (list_eq_dec Z.eq_dec (zs s) n), (list_eq_dec Z.eq_dec n (zs s)); congruence. }
  assert (E : forall t, map (fun u => (root_name u, attrs_of u)) (xparts t) = elements_of t).
  { apply xtree_all. intros n a x k IH. cbn [xparts elements_of map root_name attrs_of]. f_equal. rewrite map_flat. apply flat_map_same. intros u HI. rewrite Forall_forall in IH. now apply IH. }
  intros t. unfold named. rewrite <- E. induction (xparts t) as [|u l IH]; [reflexivity|]. cbn [map filter fst]. rewrite N. unfold xnamed at 1. destruct (name_is s (root_name u)); cbn [map snd]; now rewrite IH.
Qed.
Lemma document_numbered : forall s key t t' after, In (zs s, zs key) numbered_names -> numbered [] t t' after -> well_named t' -> Spec_Opendoc.numbered_by key s [node_of t'].
Proof.
  intros s key t t' after HI HN W.
  assert (EN : Spec_Opendoc.nodes_named_in s [node_of t'] = map node_of (filter (xnamed s) (xparts t'))) by exact (named_of s t').
  assert (A : forall i u, nth_error (filter (xnamed s) (xparts t')) i = Some u -> Model_Html.attr key (node_of u) = Some (fmt_d (Z.of_nat i))).
  { intros i u E. assert (EA : nth_error (named (zs s) t') i = Some (attrs_of u)) by (rewrite <- named_attrs; now apply map_nth_error).
    destruct (numbers_from_zero (zs s) (zs key) t t' after i _ HI HN EA) as (text & D & IN). apply nth_error_In in E. apply filter_In in E as [E _].
    pose proof (well_parts _ W) as WP. rewrite Forall_forall in WP. rewrite <- (decimal_only _ _ D). exact (node_attr u (zs key) text (WP u E) IN (decimal_chars _ _ D)). }
  unfold Spec_Opendoc.numbered_by. rewrite EN. split.
  - apply Forall_forall. intros y HY. apply in_map_iff in HY as (u & <- & HU). destruct (In_nth_error _ _ HU) as (i & Hi). exists i. now apply A.
  - rewrite map_map. apply NoDup_nth_error. intros i j Hi E. rewrite map_length in Hi. destruct (nth_error (filter (xnamed s) (xparts t')) i) as [u|] eqn:EU; [|apply nth_error_None in EU; lia].
    rewrite (map_nth_error _ _ _ EU) in E. destruct (nth_error (filter (xnamed s) (xparts t')) j) as [w|] eqn:EW.
    + rewrite (map_nth_error _ _ _ EW) in E. rewrite (A _ _ EU), (A _ _ EW) in E. injection E as E. now apply Proof_Html.fmt_inj in E.
    + assert (EJ : nth_error (map (fun x => Model_Html.attr key (node_of x)) (filter (xnamed s) (xparts t'))) j = None) by (apply nth_error_None; rewrite map_length; now apply nth_error_None). rewrite EJ in E. discriminate.
Qed.

(** ** Records are read as one thing only *)
Lemma models_once : forall version records, Forall (fun r => all_bytes (r_payload r) /\ 0 <= r_level r) records -> (forall r rest, records = r :: rest -> r_level r = 0) ->
  forall out out', models_of version Finished [] records out Finished -> models_of version Finished [] records out' Finished -> out = out'.
Proof.
  intros version records HB H0 out out' M M'. destruct (read_models version records HB H0 out Finished M) as (n & E). destruct (read_models version records HB H0 out' Finished M') as (n' & E').
  specialize (E n'). specialize (E' n). rewrite Nat.add_comm in E'. rewrite E in E'. now injection E' as ->.
Qed.
Lemma preorder_once : forall A (f g : forest A) (a : A), preorder 0 f = preorder 0 g -> f = g.
Proof. intros A f g a E. apply walk_inj. pose proof (prefix_event_forest A f 0 a) as F. pose proof (prefix_event_forest A g 0 a) as G. rewrite E, G in F. now injection F as ->. Qed.

Lemma items_fapp : forall A (f g : forest A), all_items (fapp f g) = all_items f ++ all_items g.
Proof. intros A f g. induction f as [|x k _ n IH]; [reflexivity|]. cbn [fapp all_items app]. now rewrite IH, app_assoc. Qed.
Lemma trees_items : forall A (f : forest A) y, In y (map fst (trees f)) -> In y (all_items f).
Proof. intros A f y. induction f as [|x k _ n IH]; [intros []|]. cbn [trees map fst all_items]. intros [->|H]; [now left|]. right. apply in_or_app. right. now apply IH. Qed.

Lemma filter_same : forall A (p : A -> bool) l, (forall w, In w l -> p w = true) -> filter p l = l.
Proof. intros A p l H. induction l as [|w l IH]; [reflexivity|]. cbn [filter]. rewrite (H w (or_introl eq_refl)). f_equal. apply IH. intros z HZ. apply H. now right. Qed.

Theorem document_made : forall time_text repr object version embedbin formats summary_bytes summary docinfo sections f x kids,
  version_ok version -> (forall read n d, embedbin = Some read -> read n = Ok d -> all_bytes d) ->
  stream_reads_as formats summary_bytes summary -> (forall set, In set (pss_sets summary) -> times_ok time_text (ps_properties set)) ->
  docinfo_fits version embedbin docinfo -> Forall (fun s => section_fits version (snd s)) sections ->
  docinfo_records version docinfo f -> one_mappings f x kids ->
  (forall s out, In s sections -> models_of version Finished [] (snd s) out Finished -> without_shapes out) ->
  exists n t document m d b,
    (forall k fuel, xmlevents (fun v => repr (view_of v)) object (4 + fuel)
       (hwp5file_events time_text embedbin version summary (stream_models (n + k) version (docinfo, Finished))
          (map (fun s => (fst s, stream_models (n + k) version (snd s, Finished))) sections)) = (events_of t, Finished)) /\
    (writable_text t -> forall decl, exists chunks text body,
       xml_bytechunks decl (events_of t) = (chunks, Finished) /\ concat chunks = (if decl then xml_declaration else []) ++ body /\
       utf8_decode body = Some text /\ xml_read text = Some (read_back [] (events_of t))) /\
    build [] [] (read_back [] (events_of t)) = Some document /\ document_of version x kids sections document m d b.
Proof.
  intros time_text repr object version embedbin formats summary_bytes summary docinfo sections f x kids HV HD HS HT HDF HF HR HO HW.
  destruct (made_document time_text repr object version embedbin formats summary_bytes summary docinfo sections HV HD HS HT HDF HF) as (n & s & ds & ss & v & t & after & M1 & (out & f' & M2 & M2' & M2'') & M3 & _ & M5 & M6 & M7 & M8).
  destruct HR as (out' & HR & HR'). destruct HDF as [D1 D2 _]. pose proof (models_once version docinfo D1 D2 _ _ M2 HR) as <-. rewrite <- M2' in HR'. apply (preorder_once _ _ _ x) in HR' as ->.
  inversion M5 as [? ? ? ? ? nb va kd ? _ _ NK]; subst. inversion NK as [|? ? s' m1 ? k1 ? NS NK1]; subst. inversion NK1 as [|? ? DI m2 ? k2 ? ND NK2]; subst. inversion NK2 as [|? ? BT m3 ? k3 ? NB NK3]; subst. inversion NK3; subst. clear NK NK1 NK2 NK3.
  inversion ND as [? ? ? ? ? nd da ds' ? _ _ NDS]; subst. inversion NB as [? ? ? ? ? nbt ba ss' ? _ _ NSS]; subst.
  pose proof (written_numbered _ _ _ _ M2'' _ _ _ NDS) as W. destruct (docinfo_tree repr object embedbin _ _ _ _ HO W) as (before & aft & u & ks & -> & CB & CA & XU & CO & RU & FK & CK).
  exists n, (Elem (zs "HwpDoc") va [] [s'; Elem (zs "DocInfo") da [] (before ++ with_children u ks :: aft); Elem (zs "BodyText") ba [] ss']), [node_of (Elem (zs "HwpDoc") va [] [s'; Elem (zs "DocInfo") da [] (before ++ with_children u ks :: aft); Elem (zs "BodyText") ba [] ss'])].
  exists (node_of (with_children u ks)), (node_of (Elem (zs "HwpDoc") va [] [s'; Elem (zs "DocInfo") da [] (before ++ with_children u ks :: aft); Elem (zs "BodyText") ba [] ss'])), (node_of (Elem (zs "BodyText") ba [] ss')).
  split; [exact M7|]. split; [exact M8|]. split; [apply build_is|].
  assert (CS : calm shape_types s' /\ root_name s' = zs "HwpSummaryInfo").
  { destruct (proj1 numbered_names_kept _ _ _ _ NS) as [E1 E2]. split; [apply E2; exact (summary_calm _ _ _ M1)|]. rewrite E1. inversion M1; reflexivity. }
  destruct CS as [CS RS]. inversion M6 as [? ? ? ? _ _ _ WK]; subst. inversion WK as [|? ? _ WK1]; subst. inversion WK1 as [|? ? WD WK2]; subst. inversion WK2 as [|? ? WB _]; subst. apply well_kids in WD. apply well_kids in WB. cbn [own_kids] in WD, WB.
  apply Forall_app in WD as [_ WD]. inversion WD as [|? ? WM _]; subst.
  assert (SEC : Forall (calm shape_types) ss' /\ Forall2 (section_node version) sections (map node_of ss')).
  { clear - HF M3 NSS WB HW. match type of NSS with all_numbered ?bx _ _ _ => set (bf := bx) in NSS; clearbody bf end. revert bf NSS. revert ss ss' after HF M3 HW WB.
    induction sections as [|sc secs IH]; intros ss ss' after HF M3 HW WB bf NSS; inversion M3 as [|? t0 ? ss0 MD M3']; subst; inversion NSS as [|? ? t' md ? us ? N1 N2]; subst.
    - split; constructor.
    - inversion WB as [|? ? W1 W2]; subst. inversion HF as [|? ? [F1 F2 F3] HF']; subst.
      destruct (IH _ _ _ HF' M3' (fun s out HI => HW s out (or_intror HI)) W2 _ N2) as [A1 A2].
      assert (BY : Forall (fun r => all_bytes (r_payload r)) (snd sc)) by (eapply Forall_impl; [|exact F1]; cbn; tauto).
      destruct (section_flow repr object version sc BY F2 t0 t' bf md MD N1 W1 (fun out M => HW sc out (or_introl eq_refl) M)) as (C1 & C2 & C3 & out & front & back & MO & EF & FB).
      split; [constructor; assumption|]. cbn [map]. constructor; [|exact A2]. constructor; [exact C2|exact C3| |].
      + intros out' MO'. rewrite <- (models_once version (snd sc) F1 F2 _ _ MO MO'). exists front, back. auto.
      + intros out' rp MO' PR. apply (section_page repr object version sc t0 t' bf md out' rp BY MD N1 W1); [|exact PR]. intros o2 M2. exact (models_once version (snd sc) F1 F2 _ _ M2 MO'). }
  destruct SEC as [CSS SN].
  assert (EM : with_children u ks = Elem (zs "IdMappings") (attrs_of u) (match u with Elem _ _ tx _ => tx end) (own_kids u ++ ks)) by (destruct u; cbn in RU; subst; reflexivity).
  assert (AI : all_items f' = out) by (rewrite items_same, <- (preorder_items _ f' 0), M2', map_map; cbn [snd]; apply map_id).
  assert (ALL : In x out /\ (forall rm, In rm (map fst (trees kids)) -> In rm out) /\ type_of x = "IdMappings").
  { rewrite <- AI. destruct HO as [bf x0 kids0 af TX _ _ _]. rewrite items_fapp. split; [apply in_or_app; right; now left|]. split; [|exact TX].
    intros rm H. apply in_or_app. right. right. cbn [all_items]. apply in_or_app. left. now apply trees_items. }
  destruct ALL as (IX & IK & TX). rewrite EM in *.
  pose proof (tree_body va da ba s' before aft (own_kids u) ks ss' (attrs_of u) (match u with Elem _ _ tx _ => tx end) RS) as [TB TD].
  assert (WKS : Forall well_named ks) by (apply well_kids in WM; cbn [own_kids] in WM; apply Forall_app in WM; tauto).
  constructor.
  - apply tree_mapped; assumption.
  - reflexivity.
  - now rewrite TD.
  - exact TB.
  - constructor; (eapply document_numbered; [|exact M5|exact M6]); cbn; tauto.
  - rewrite <- EM in WM |- *. apply (record_made repr object version embedbin docinfo out HR x u ks IX XU); [unfold type_of in TX; congruence|exact WM].
  - intros n0 HN. unfold shapes_of. rewrite (tree_shapes (own_kids u) ks (attrs_of u) _ CO n0 HN).
    apply (shapes_made repr object version embedbin docinfo out HR); [exact IK| |exact WKS|exact FK]. intros ->. cbn in HN. intuition discriminate.
  - assert (EB : children_named "SectionDef" (node_of (Elem (zs "BodyText") ba [] ss')) = map node_of ss').
    { rewrite node_children. cbn [own_kids]. f_equal. apply filter_same. intros w HI. clear - SN HI. apply (in_map node_of) in HI. rewrite <- node_name. induction SN as [|? ? ? ? H _ IH]; [contradiction|]. destruct HI as [<-|HI]; [exact (sc_name _ _ _ H)|now apply IH]. }
    rewrite EB. split; [exact SN|]. cbn. reflexivity.
Qed.
