(** The XML of sections: from the records to the elements. *)
From Coq Require Import ZArith String List Bool Lia Permutation.
From Verif Require Import Base BaseFacts Model_Tree Spec_Tree Model_ParaText Model_Classes Model_XmlModel.
From Verif Require Import Model_Text Model_Dataio Model_Record Model_Bintype Model_Layouts Model_Models
  Model_XmlText Model_XmlElement Model_XmlFile Spec_XmlText Spec_Bintype Spec_Models Spec_Oleprops Spec_Layouts Spec_XmlElement Spec_XmlModel Spec_Section Spec_XmlFile
  Proof_Tree Proof_XmlText Proof_OleText Proof_Models Proof_Layouts Proof_Fits Proof_XmlElement Proof_XmlEntry Proof_XmlParts Proof_XmlRecord
  Proof_XmlNames Proof_XmlDocument Proof_XmlDocinfo Proof_Section Proof_XmlPasses Proof_XmlFile.
Import ListNotations.
Open Scope string_scope.
Open Scope list_scope.
Open Scope Z_scope.

(** ** The events of an iterator that fails are the first ones of the others *)
Lemma iter_prefix : forall A (items : list (Z * A)) base stack o, exists rest,
  fst (prefix_event_iter base stack items Finished) = fst (prefix_event_iter base stack items o) ++ rest.
Proof.
  intros A. induction items as [|[l x] items IH]; intros base stack o; cbn [prefix_event_iter].
  - destruct o; cbn [fst]; [exists []; rewrite app_nil_r|exists (close_all stack)|exists (close_all stack)]; reflexivity.
  - destruct (pop_to _ stack) as [out [s'|e]]; [|exists []; rewrite app_nil_r; reflexivity]. destruct (check_level _ s'); [exists []; rewrite app_nil_r; reflexivity|].
    destruct (IH (Some match base with None => l | Some b => b end) (x :: s') o) as (rest & E). exists rest. cbn [gapp fst]. rewrite E. rewrite app_assoc. reflexivity.
Qed.
Lemma all_prefix : forall A (Q : A -> Prop) a b, all Q (a ++ b) -> all Q a.
Proof. intros A Q a b H. apply Forall_app in H as [H _]. exact H. Qed.
Lemma forest_items : forall A (Q : A -> Prop) f, (forall x, In x (items_of f) -> Q x) -> all_forest Q f.
Proof.
  intros A Q. induction f as [|x k IHk n IHn]; intros H; [exact I|]. cbn [items_of] in H. cbn. split; [apply H; left; reflexivity|].
  split; [apply IHk|apply IHn]; intros y HI; apply H; right; apply in_or_app; [left|right]; exact HI.
Qed.

Lemma pass_levels : forall out ref, map fst (pass_items ref out) = map (fun rm => r_level (fst rm)) out.
Proof. induction out as [|[r m] out IH]; intros ref; [reflexivity|]. cbn. rewrite IH. reflexivity. Qed.
Lemma pass_in : forall out ref lx, In lx (pass_items ref out) -> exists i r m, nth_error out i = Some (r, m) /\ snd lx = pass_item (ref + Z.of_nat i) m.
Proof.
  induction out as [|[r m] out IH]; intros ref lx H; [contradiction|]. cbn [pass_items] in H. destruct H as [<-|H].
  - exists O, r, m. split; [reflexivity|]. cbn [snd]. f_equal. lia.
  - destruct (IH _ _ H) as (i & r' & m' & E1 & E2). exists (S i), r', m'. split; [exact E1|]. rewrite E2. f_equal. lia.
Qed.

(** ** What the passes see *)
Lemma same_class : forall version parent tagid payload m, reads version parent tagid payload (Ok m) ->
  In (m_type m) ["Paragraph"; "ParaText"; "ParaCharShape"; "ParaLineSeg"; "TableBody"] -> type_of_tag tagid = m_type m.
Proof.
  intros version parent tagid payload m HR HT. pose proof (read_pair _ _ _ _ _ HR) as P.
  assert (C : forallb (fun p => negb (existsb (String.eqb (snd p)) ["Paragraph"; "ParaText"; "ParaCharShape"; "ParaLineSeg"; "TableBody"]) || String.eqb (fst p) (snd p)) pairs = true) by (vm_compute; reflexivity).
  rewrite forallb_forall in C. specialize (C _ P). cbn [fst snd] in C. apply orb_prop in C as [C|C]; [|apply String.eqb_eq; exact C].
  apply negb_true_iff in C. match type of C with ?x = false => assert (x = true); [|congruence] end. apply existsb_exists. exists (m_type m). split; [exact HT|apply String.eqb_refl].
Qed.
Lemma own_fields : forall version parent tagid payload m, all_bytes payload -> reads version parent tagid payload (Ok m) ->
  In (m_type m) ["Paragraph"; "ParaText"; "ParaCharShape"; "ParaLineSeg"; "TableBody"] -> fit_fields version parent (record_fields (m_type m)) [] (m_content m).
Proof.
  intros version parent tagid payload m HB HR HT. destruct (record_fits _ _ _ _ _ HB HR) as (ds & E & F). rewrite (same_class _ _ _ _ _ HR HT) in F.
  unfold classes_of in F. rewrite String.eqb_refl in F. inversion F as [|? e ? ? FE FN]; subst. inversion FN; subst. cbn [concat] in E. rewrite app_nil_r in E. rewrite E. exact FE.
Qed.
Lemma fit_ints : forall version parent w l, Forall (fun v => fits version parent (Unsigned w) [] (Some v)) l -> exists ns, Model_XmlFile.ints_of l = Some ns.
Proof.
  intros version parent w l H. induction H as [|v l H HL (ns & E)]; [exists []; reflexivity|]. inversion H; subst. cbn. rewrite E. eexists; reflexivity.
Qed.
Lemma fit_pairs : forall version parent w l, Forall (fun v => fits version parent (Repeat 2 (Unsigned w)) [] (Some v)) l -> exists ps, pairs_of l = Some ps.
Proof.
  intros version parent w l H. induction H as [|v l H HL (ps & E)]; [exists []; reflexivity|]. inversion H as [| | | | | | | | |? ? ? t LT FT| | | |]; subst.
  destruct t as [|a [|b [|]]]; try discriminate LT. inversion FT as [|? ? A FB]; subst. inversion FB as [|? ? B _]; subst. inversion A; subst. inversion B; subst. cbn. rewrite E. eexists; reflexivity.
Qed.
Lemma line_fits : forall version parent d, fits version parent k_LineSeg [] (Some (VDict d)) -> exists l, numbers_of d = Some l.
Proof.
  intros version parent d H. inversion H as [| | | | | | | |fs env d0 F| | | | |]; subst. clear H.
  repeat (apply fit_always in F; destruct F as (x & X & F); inversion X; subst; clear X; cbn [added_to dict_set] in F).
  inversion F; subst. cbn. eexists; reflexivity.
Qed.
Lemma numbers_are : forall d l, numbers_of d = Some l -> line_numbers d l.
Proof.
  induction d as [|[k v] d IH]; intros l H; cbn [numbers_of] in H; [inversion H; constructor|].
  destruct v; try discriminate; destruct (numbers_of d) as [ns|]; try discriminate; inversion H; subst; constructor; apply IH; reflexivity.
Qed.
Lemma fit_lines : forall version parent l, Forall (fun v => fits version parent k_LineSeg [] (Some v)) l ->
  exists ds ls, l = map VDict ds /\ lines_of l = Some ls /\ Forall2 line_numbers ds ls.
Proof.
  intros version parent l H. induction H as [|v l H HL (ds & ls & E1 & E2 & E3)]; [exists [], []; repeat split; constructor|].
  assert (exists d, v = VDict d) as (d & ->) by (inversion H; subst; eauto). destruct (line_fits _ _ _ H) as (n & EN). exists (d :: ds), (n :: ls).
  split; [cbn; rewrite E1; reflexivity|]. split; [cbn; rewrite EN, E2; reflexivity|]. constructor; [exact (numbers_are _ _ EN)|exact E3].
Qed.
Lemma fit_done : forall version parent env d, fit_fields version parent [] env d -> d = env.
Proof. intros version parent env d H. inversion H; reflexivity. Qed.
Theorem item_seen : forall version parent tagid payload m ref, all_bytes payload -> reads version parent tagid payload (Ok m) -> seen_as m (pass_item ref m).
Proof.
  intros version parent tagid payload m ref HB HR.
  assert (OF : forall T, m_type m = T -> In T ["Paragraph"; "ParaText"; "ParaCharShape"; "ParaLineSeg"; "TableBody"] -> fit_fields version parent (record_fields T) [] (m_content m)).
  { intros T <- HI. exact (own_fields _ _ _ _ _ HB HR HI). }
  constructor; [reflexivity|..].
  - intros HT. rewrite views_back, values_back by exact HT. reflexivity.
  - intros HT. assert (F : fit_fields version parent (record_fields "Paragraph") [] (m_content m)) by (apply OF; [exact HT|cbn; tauto]). cbn in F.
    repeat (apply fit_always in F; destruct F as (?x & ?X & F); inversion X; subst; clear X; cbn [added_to dict_set] in F). apply fit_done in F.
    unfold pass_item. cbn [i_attrs]. rewrite HT. rewrite F. cbn. eauto.
  - intros HT. assert (F : fit_fields version parent (record_fields "ParaText") [] (m_content m)) by (apply OF; [exact HT|cbn; tauto]). cbn in F.
    repeat (apply fit_always in F; destruct F as (?x & ?X & F); inversion X; subst; clear X; cbn [added_to dict_set] in F). apply fit_done in F.
    unfold pass_item. cbn [i_attrs]. rewrite HT. rewrite F. cbn. eauto.
  - intros HT. assert (F : fit_fields version parent (record_fields "ParaCharShape") [] (m_content m)) by (apply OF; [exact HT|cbn; tauto]). cbn in F.
    repeat (apply fit_always in F; destruct F as (?x & ?X & F); inversion X; subst; clear X; cbn [added_to dict_set] in F). apply fit_done in F.
    unfold pass_item. cbn [i_attrs]. rewrite HT. rewrite F. cbn.
    match goal with G : Forall _ ?l |- _ => destruct (fit_pairs _ _ _ _ G) as (ps & EP); rewrite EP end. eauto.
  - intros HT. assert (F : fit_fields version parent (record_fields "ParaLineSeg") [] (m_content m)) by (apply OF; [exact HT|cbn; tauto]). cbn in F.
    repeat (apply fit_always in F; destruct F as (?x & ?X & F); inversion X; subst; clear X; cbn [added_to dict_set] in F). apply fit_done in F.
    unfold pass_item. cbn [i_attrs]. rewrite HT. rewrite F. cbn.
    match goal with G : Forall _ ?l |- _ => destruct (fit_lines _ _ _ G) as (ds & ls & E1 & E2 & E3); rewrite E2 end. exists ds, ls. rewrite E1. auto.
  - intros HT. assert (F : fit_fields version parent (record_fields "TableBody") [] (m_content m)) by (apply OF; [exact HT|cbn; tauto]). cbn in F.
    do 7 (apply fit_always in F; destruct F as (?x & ?X & F); inversion X; subst; clear X; cbn [added_to dict_set] in F).
    unfold pass_item. cbn [i_attrs]. rewrite HT. match goal with G : Forall _ ?l |- _ => destruct (fit_ints _ _ _ _ G) as (ns & EN) end. exists ns.
    inversion F as [|? ? ? ? ? ? ? V K|? ? ? ? ? ? ? V C K|? ? ? ? ? ? y ? V C X K]; subst; apply fit_done in K; rewrite K.
    + cbn. rewrite EN. reflexivity.
    + cbn. rewrite EN. reflexivity.
    + inversion X; subst. cbn. rewrite EN. reflexivity.
Qed.

Lemma kept_self : forall T l, kept T l l.
Proof. intros T. induction l as [|x l IH]; constructor. exact IH. Qed.

Section Xml.
  Variable repr : view -> list Z.
  Variable object : list Z.
  Variable version : list Z.
  Variable records : list record.
  Variable out : list (record * model).
  Variables o o' : outcome.
  Hypothesis HB : Forall (fun r => all_bytes (r_payload r)) records.
  Hypothesis H0 : forall r rest, records = r :: rest -> r_level r = 0.
  Hypothesis HM : models_of version o [] records out o'.

  Lemma out_ok : forall i r m, nth_error out i = Some (r, m) -> all_bytes (r_payload r) /\ exists parent, reads version parent (r_tagid r) (r_payload r) (Ok m).
  Proof.
    intros i r m E. split; [exact (models_bytes _ _ _ _ _ _ HB HM r m (nth_error_In _ _ E))|]. destruct (each_record _ _ _ _ _ _ HM) as (_ & E2 & _).
    destruct (E2 i r m E) as (parent & _ & R). eauto.
  Qed.
  Lemma section_forest : exists f, preorder 0 f = pass_items 1 out.
  Proof.
    destruct (legal_exists _ (pass_items 1 out)) as (f & EF); [rewrite pass_levels; exact (models_legal _ _ _ _ _ HM)|].
    exists f. symmetry. replace 0 with (match pass_items 1 out with [] => 0 | (b, _) :: _ => b end) at 1; [exact EF|]. clear EF f.
    inversion HM as [|? r rest parent m out1 ? F P R M| | |]; subst; try reflexivity. cbn. eapply H0. reflexivity.
  Qed.
  Lemma given_good : forall i r m, nth_error out i = Some (r, m) -> let x := pass_item (1 + Z.of_nat i) m in if para_data x then D1 out x else Q1 out x.
  Proof.
    intros i r m E x. subst x. destruct (para_data _) eqn:EP; [exists i, r, m; eauto|]. left. exists i, r, m. split; [exact E|]. cbn [pass_item i_ref i_model]. split; [lia|]. split; [reflexivity|].
    unfold para_data, model_is in EP. cbn [pass_item i_model] in EP. repeat (apply orb_false_elim in EP as [EP ?]).
    repeat match goal with H : String.eqb _ _ = false |- _ => apply String.eqb_neq in H end. split; [intros [HE|[HE|[HE|[HE|[]]]]]; congruence|].
    rewrite values_back by assumption. apply kept_self.
  Qed.
  Lemma events_given : all (fun x => if para_data x then D1 out x else Q1 out x) (fst (section_modelevents (out, o'))).
  Proof.
    destruct section_forest as (f & EF). unfold section_modelevents. cbn [fst snd]. destruct (iter_prefix _ (pass_items 1 out) None [mkItem "" 0 []] o') as (rest & E).
    rewrite iter_finished, <- EF in E. change (prefix_event_loop None [mkItem "" 0 []]) with (prefix_event (mkItem "" 0 [])) in E. rewrite prefix_event_forest in E. cbn [fst] in E. rewrite <- EF.
    apply (all_prefix _ _ _ rest). rewrite <- E. apply all_walk. apply forest_items. intros x HI. rewrite <- (preorder_items _ f 0), EF in HI. apply in_map_iff in HI as (lx & <- & HI).
    destruct (pass_in _ _ _ HI) as (i & r & m & E1 & E2). rewrite E2. exact (given_good i r m E1).
  Qed.
  Lemma section_good_items : forall sid fuel, all (good_item repr object version fuel) (fst (section_events sid (section_modelevents (out, o')))).
  Proof. intros sid fuel. exact (items_good repr object version fuel out out_ok sid _ events_given). Qed.

  Lemma class_name : forall n, model_name (class_named n) = n.
  Proof.
    intros n. unfold class_named. destruct (existsb _ _); [reflexivity|]. destruct (String.eqb n "LineSeg") eqn:E; [apply String.eqb_eq in E; subst; reflexivity|reflexivity].
  Qed.
  Lemma events_shown : forall evs, all (good_item repr object version 0) evs -> forall oc, exists ls, Forall2 (shown_event repr object) evs ls /\
    forall fuel, modelevents_to_xmlevents (fun v => repr (view_of v)) object (4 + fuel) (map (event_map (shown_item version)) evs) oc = (concat ls, oc).
  Proof.
    induction evs as [|[x|x] evs IH]; intros H oc.
    - exists []. split; [constructor|reflexivity].
    - inversion H as [|? ? (t & S & R & N & W) HR]; subst. cbn [ev_item] in *. destruct (IH HR oc) as (ls & F & E). exists (opening t :: ls). split; [constructor; [constructor; assumption|exact F]|].
      intros fuel. cbn [map event_map modelevents_to_xmlevents shown_item mi_version mi_model mi_attributes concat].
      rewrite (start_more _ _ 4 _ _ _ _ S fuel), E. reflexivity.
    - inversion H as [|? ? _ HR]; subst. destruct (IH HR oc) as (ls & F & E). exists ([XEnd (zs (i_model x))] :: ls). split; [constructor; [constructor|exact F]|].
      intros fuel. cbn [map event_map modelevents_to_xmlevents shown_item mi_model concat app]. rewrite class_name, E. reflexivity.
  Qed.

  Theorem section_xml : forall sid, exists ls,
    Forall2 (shown_event repr object) (fst (section_events sid (section_modelevents (out, o')))) ls /\
    forall fuel, xmlevents (fun v => repr (view_of v)) object (4 + fuel) (section_mevents sid version (out, o')) =
      (concat ls, snd (section_events sid (section_modelevents (out, o')))).
  Proof. intros sid. unfold xmlevents, section_mevents. cbn [fst snd]. apply events_shown. apply section_good_items. Qed.

  Lemma walk_map : forall A B (h : A -> B) f, walk (forest_map h f) = map (event_map h) (walk f).
  Proof. intros A B h. induction f as [|x k IHk n IHn]; [reflexivity|]. cbn [forest_map walk map event_map]. rewrite map_app, IHk, IHn. reflexivity. Qed.
  Lemma forest_shown : forall g, all_forest (good_item repr object version 0) g ->
    exists ts, written (shown_node repr object) g ts /\ written (starts_as (fun v => repr (view_of v)) object 4) (forest_map (shown_item version) g) ts /\ Forall well_named ts /\
      map (fun t => root_name t) ts = map (fun x => zs (i_model x)) (roots g).
  Proof.
    induction g as [|x k IHk n IHn]; intros H.
    - exists []. repeat split; constructor.
    - destruct H as ((t & S & R & N & W) & HK & HN). destruct (IHk HK) as (ks & K1 & K2 & K3 & _). destruct (IHn HN) as (ns & N1 & N2 & N3 & N4). exists (with_children t ks :: ns).
      split; [constructor; assumption|]. split; [|split].
      + cbn [forest_map]. constructor; [|exact K2|exact N2]. split; [exact S|]. cbn [shown_item mi_model]. rewrite class_name. exact R.
      + constructor; [apply with_named; assumption|exact N3].
      + cbn [map roots]. rewrite N4. f_equal. destruct t. exact R.
  Qed.

  Theorem section_element : forall f sid, o' = Finished -> preorder 0 f = pass_items 1 out -> section_ok f ->
    exists g t, section_tree sid f g /\ written (shown_node repr object) g [t] /\ root_name t = zs "SectionDef" /\ well_named t /\
      forall fuel, xmlevents (fun v => repr (view_of v)) object (4 + fuel) (section_mevents sid version (out, o')) = (events_of t, Finished).
  Proof.
    intros f sid EO EF HS. destruct (section_pass sid f HS) as (g & ST & EG). destruct (section_single sid f HS) as (s & k & ES & EW).
    assert (EM : section_modelevents (out, o') = (walk f, Finished)).
    { unfold section_modelevents. cbn [fst snd]. rewrite EO, iter_finished, <- EF. apply (prefix_event_forest _ f 0 (mkItem "" 0 [])). }
    assert (GK : g = FCons (with_section_id sid s) k FNil) by (rewrite EG in EW; apply (f_equal fst) in EW; cbn [fst] in EW; exact (walk_inj _ _ _ EW)).
    pose proof (section_good_items sid 0) as G. rewrite EM, EG in G. cbn [fst] in G. destruct (forest_shown g (walk_all _ _ _ G)) as (ts & W1 & W2 & W3 & W4).
    rewrite GK in W4. cbn [roots map] in W4. destruct ts as [|t [|]]; try discriminate W4. exists g, t. split; [exact ST|]. split; [exact W1|].
    split; [|split; [inversion W3; assumption|]].
    - cbn in W4. inversion W4 as [R]. rewrite R. destruct s as [m r a]. unfold is_sectiondef, model_is in ES. cbn in ES. apply String.eqb_eq in ES. subst m. destruct sid; reflexivity.
    - intros fuel. unfold xmlevents, section_mevents. cbn [fst snd]. rewrite EM, EG. cbn [fst snd].
      pose proof (document_written _ _ _ _ _ W2 [] Finished) as DW. rewrite app_nil_r, walk_map in DW. cbn [flat_map modelevents_to_xmlevents] in DW. unfold gapp in DW. cbn [fst snd] in DW. rewrite !app_nil_r in DW.
      exact (to_xml_more _ _ 4 _ _ _ DW fuel).
  Qed.
End Xml.

(** ** From the records of a stream to bytes *)
Lemma element_bytes : forall t, well_named t -> writable_text t -> forall decl, exists chunks text body,
  xml_bytechunks decl (events_of t) = (chunks, Finished) /\ concat chunks = (if decl then xml_declaration else []) ++ body /\
  utf8_decode body = Some text /\ xml_read text = Some (read_back [] (events_of t)).
Proof.
  intros t WN WT decl. apply bytes_read_back.
  - pose proof (nested_elements [t] [] [] nested_nil) as N. cbn [flat_map] in N. rewrite !app_nil_r in N. exact N.
  - pose proof (writable_elements [t]) as Q. cbn [flat_map] in Q. rewrite app_nil_r in Q. apply Q; constructor; auto.
Qed.
Lemma read_models : forall version records, Forall (fun r => all_bytes (r_payload r) /\ 0 <= r_level r) records -> (forall r rest, records = r :: rest -> r_level r = 0) ->
  forall out o', models_of version Finished [] records out o' -> exists n, forall k, stream_models (n + k) version (records, Finished) = (out, o').
Proof.
  intros version records HB H0 out o' HM.
  assert (HB1 : Forall (fun r => all_bytes (r_payload r)) records) by (revert HB; apply Forall_impl; tauto).
  assert (HB2 : Forall (fun r => 0 <= r_level r) records) by (revert HB; apply Forall_impl; tauto).
  destruct (parse_models_is version records Finished HB1) as (n & out2 & o2 & HM2 & EP).
  destruct (models_of_fun version Finished records [] nothing_done out o' out2 o2 HM HM2) as [<- <-].
  exists n. intros k. rewrite <- (EP k). apply grouping_irrelevant; assumption.
Qed.
Theorem section_events_written : forall repr object version records out o' sid, 
  Forall (fun r => all_bytes (r_payload r) /\ 0 <= r_level r) records -> (forall r rest, records = r :: rest -> r_level r = 0) ->
  models_of version Finished [] records out o' ->
  exists n ls, Forall2 (shown_event repr object) (fst (section_events sid (section_modelevents (out, o')))) ls /\ forall k fuel, xmlevents (fun v => repr (view_of v)) object (4 + fuel) (section_mevents sid version (stream_models (n + k) version (records, Finished))) =
      (concat ls, snd (section_events sid (section_modelevents (out, o')))).
Proof.
  intros repr object version records out o' sid HB H0 HM. destruct (read_models _ _ HB H0 _ _ HM) as (n & EN).
  assert (HB1 : Forall (fun r => all_bytes (r_payload r)) records) by (revert HB; apply Forall_impl; tauto).
  destruct (section_xml repr object version records out Finished o' HB1 H0 HM sid) as (ls & F & E). exists n, ls. split; [exact F|]. intros k fuel. rewrite EN. apply E.
Qed.
Theorem section_document : forall repr object version records out f sid, 
  Forall (fun r => all_bytes (r_payload r) /\ 0 <= r_level r) records -> (forall r rest, records = r :: rest -> r_level r = 0) ->
  models_of version Finished [] records out Finished -> preorder 0 f = pass_items 1 out -> section_ok f ->
  exists n g t, section_tree sid f g /\ written (shown_node repr object) g [t] /\ root_name t = zs "SectionDef" /\ well_named t /\
    (forall k fuel, xmlevents (fun v => repr (view_of v)) object (4 + fuel) (section_mevents sid version (stream_models (n + k) version (records, Finished))) =
      (events_of t, Finished)) /\
    (writable_text t -> forall decl, exists chunks text body,
       xml_bytechunks decl (events_of t) = (chunks, Finished) /\ concat chunks = (if decl then xml_declaration else []) ++ body /\
       utf8_decode body = Some text /\ xml_read text = Some (read_back [] (events_of t))).
Proof.
  intros repr object version records out f sid HB H0 HM EF HS. destruct (read_models _ _ HB H0 _ _ HM) as (n & EN).
  assert (HB1 : Forall (fun r => all_bytes (r_payload r)) records) by (revert HB; apply Forall_impl; tauto).
  destruct (section_element repr object version records out Finished Finished HB1 H0 HM f sid eq_refl EF HS) as (g & t & T1 & T2 & T3 & T4 & T5).
  exists n, g, t. repeat (split; [assumption|]). split; [intros k fuel; rewrite EN; apply T5|]. intros WT decl. exact (element_bytes t T4 WT decl).
Qed.
