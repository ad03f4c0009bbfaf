(** The XML of the summary information. *)
From Coq Require Import ZArith String List Bool Lia Permutation.
From Verif Require Import Base BaseFacts Model_Text Model_Dataio Model_Record Model_Tree Model_Bintype Model_Models Model_Oleprops
  Model_XmlText Model_XmlElement Model_XmlFile Spec_Tree Spec_XmlText Spec_Oleprops Spec_Layouts Spec_XmlElement Spec_XmlSummary
  Proof_Text Proof_Tree Proof_XmlText Proof_Oleprops Proof_OleText Proof_XmlElement Proof_XmlEntry Proof_XmlRecord Proof_XmlNames Proof_XmlDocument Proof_XmlDocinfo Proof_XmlPasses Proof_XmlFile Proof_XmlSection.
Import ListNotations.
Open Scope string_scope.
Open Scope list_scope.
Open Scope Z_scope.

Lemma fmt_x_is : forall w n, (0 < w)%nat -> 0 <= n < 16 ^ Z.of_nat w -> fmt_x (Z.of_nat w) n = hexadecimals false w n.
Proof.
  intros w n HW HN. destruct (fmt_x_digits (Z.of_nat w) n) as (ds & E1 & E2 & E3 & E4); [lia|].
  assert (L : List.length ds = w).
  { pose proof (digits_length 16 n (Z.of_nat w)). unfold zlen in *. lia. }
  rewrite E1, <- E2, <- L at 1. rewrite (hexadecimals_digits false ds E3). reflexivity.
Qed.

(** ** Generators that are walks of written trees *)
Lemma wrap_walk : forall it f, wrap_modelevents it (walk f, Finished) = (walk (FCons it f FNil), Finished).
Proof. intros it f. reflexivity. Qed.
Lemma written_fapp : forall A (shows : A -> xtree -> Prop) f ts g us, written shows f ts -> written shows g us -> written shows (fapp f g) (ts ++ us).
Proof. intros A shows f ts g us H HG. induction H; [exact HG|]. cbn. constructor; assumption. Qed.
Lemma all_fapp : forall A (Q : A -> Prop) f g, all_forest Q f -> all_forest Q g -> all_forest Q (fapp f g).
Proof. intros A Q. induction f as [|x k IHk n IHn]; intros g HF HG; [exact HG|]. destruct HF as (H1 & H2 & H3). split; [exact H1|]. split; [exact H2|]. apply IHn; assumption. Qed.

Section Summary.
  Variable time_text : Z -> res (list Z).
  Variable py_repr : value -> list Z.
  Variable object : list Z.
  Definition no_id (it : mitem) : Prop := id_key (model_name (mi_model it)) = None.
  Definition builds {X} (R : X -> xtree -> Prop) (events : X -> gen (event mitem)) (x : X) : Prop := exists f t,
    events x = (walk f, Finished) /\ written (starts_as py_repr object 4) f [t] /\ R x t /\ well_named t /\ all_forest no_id f.

  Lemma chain_builds : forall X (R : X -> xtree -> Prop) events l, (forall x, In x l -> builds R events x) -> exists f ts,
    chain (map events l) = (walk f, Finished) /\ written (starts_as py_repr object 4) f ts /\ Forall2 R l ts /\ Forall well_named ts /\ all_forest no_id f.
  Proof.
    intros X R events. induction l as [|x l IH]; intros H.
    - exists FNil, []. repeat split; constructor.
    - destruct (H x (or_introl eq_refl)) as (f & t & E & W & RX & N & NI). destruct IH as (g & ts & E' & W' & F & N' & NI'); [intros y HI; apply H; right; exact HI|].
      exists (fapp f g), (t :: ts). cbn [map chain]. rewrite E, E', gthen_fin. unfold gapp. cbn [fst snd]. rewrite walk_fapp.
      split; [reflexivity|]. split; [apply (written_fapp _ _ _ [t]); assumption|]. split; [constructor; assumption|]. split; [constructor; assumption|apply all_fapp; assumption].
  Qed.
  Lemma wrap_written : forall it n attrs f ts, startelement py_repr object 4 (mi_version it) (mi_model it) (mi_attributes it) = ([XStart n attrs], Finished) ->
    n = zs (model_name (mi_model it)) -> written (starts_as py_repr object 4) f ts ->
    written (starts_as py_repr object 4) (FCons it f FNil) [Elem n attrs [] ts].
  Proof.
    intros it n attrs f ts S E W. change (Elem n attrs [] ts) with (with_children (Elem n attrs [] []) ts). constructor; [|exact W|constructor].
    split; [exact S|exact E].
  Qed.

  Ltac names := repeat (constructor; [apply xml_nameb_sound; reflexivity|]); constructor.
  Ltac distinct := repeat (constructor; [cbn; intros H; repeat (destruct H as [H|H]; [discriminate H|]); exact H|]); constructor.

  Lemma entry_builds : forall e, builds entry_element entry_events e.
  Proof.
    intros [i n]. exists (FCons (mkMitem [] entry_model [("id", VInt i); ("name", VText n)]) FNil FNil), (Elem (zs "DictionaryEntry") [(zs "id", fmt_d i); (zs "name", n)] [] []).
    split; [reflexivity|]. split; [apply wrap_written; [reflexivity|reflexivity|constructor]|]. split.
    - apply ee with (t := fmt_d i); [apply decimal_ok|apply Permutation_refl].
    - split; [|repeat split; reflexivity]. constructor; [apply xml_nameb_sound; reflexivity|distinct|names|constructor].
  Qed.

  (** What is known of a property that was read. *)
  Definition property_ok (p : property) : Prop :=
    (p_id p = 0 /\ p_code p = None /\ exists e, p_value p = PVDict e) \/
    (p_id p <> 0 /\ exists code type, p_code p = Some code /\ In (code, type) type_names /\ forall e, p_value p <> PVDict e).
  Lemma read_property_ok : forall formats b s p, set_reads_as formats b s -> In p (ps_properties s) -> property_ok p.
  Proof.
    intros formats b s p (_ & _ & _ & F) I. rewrite Forall_forall in F. destruct (F p I) as (_ & S & _). destruct p as [i o l c v]. cbn [p_id p_code p_value] in S.
    inversion S as [entries L FE A|? code ? x N TV A]; subst.
    - left. cbn. repeat split. eauto.
    - right. cbn. split; [exact N|]. inversion TV; subst; [exists 3, "VT_I4"|exists 31, "VT_LPWSTR"|exists 31, "VT_LPWSTR"|exists 64, "VT_FILETIME"];
        (split; [reflexivity|split; [cbn; tauto|intros e X; discriminate X]]).
  Qed.

  Definition value_attributes (i o : Z) (label : option (list Z)) (type : string) (code : Z) (tv : list Z) : list (list Z * list Z) :=
    [(zs "id", fmt_d i); (zs "offset", fmt_d o)] ++ label_attribute label ++
    [(zs "type", zs type); (zs "type-code", zs "0x" ++ fmt_x 4 code); (zs "value", tv)].
  Definition value_item (i o : Z) (label : option (list Z)) (type : string) (code : Z) (v : value) : mitem :=
    mkMitem [] (Other_class "Property") ([("id", VInt i); ("offset", VInt o)] ++ match label with Some t => [("id_label", VText t)] | None => [] end ++
      [("type", VText (zs type)); ("type_code", VText (zs "0x" ++ fmt_x 4 code))] ++ [("value", v)]).
  Lemma value_events : forall i o label type code pv, i <> 0 -> In (code, type) type_names ->
    property_events time_text (mkProperty i o label (Some code) pv) =
    match written_value time_text pv with Raise e => ([], Failed e) | Ok v => (walk (FCons (value_item i o label type code v) FNil FNil), Finished) end.
  Proof.
    intros i o label type code pv N IT. unfold property_events. cbn [p_label p_code p_id p_offset p_value]. change PID_DICTIONARY with 0. rewrite (proj2 (Z.eqb_neq i 0) N).
    assert (EV : vt_name code = Ok (zs type)) by (destruct IT as [E|[E|[E|[]]]]; inversion E; subst; reflexivity). rewrite EV. cbn [bind].
    destruct (written_value time_text pv) as [v|e]; [|reflexivity]. rewrite <- !app_assoc. reflexivity.
  Qed.
  Lemma value_starts : forall i o label type code pv v, written_value time_text pv = Ok v -> exists tv, shown time_text pv tv /\
    starts_as py_repr object 4 (value_item i o label type code v) (Elem (zs "Property") (value_attributes i o label type code tv) [] []).
  Proof.
    intros i o label type code pv v H. destruct pv as [n|t|n|es]; cbn [written_value] in H; [| | |discriminate].
    - inversion H; subst. exists (fmt_d n). split; [constructor; apply decimal_ok|]. split; [|reflexivity]. destruct label; reflexivity.
    - inversion H; subst. exists t. split; [constructor|]. split; [|reflexivity]. destruct label; reflexivity.
    - destruct (time_text n) as [t|] eqn:E; [|discriminate]. inversion H; subst. exists t. split; [constructor; exact E|]. split; [|reflexivity]. destruct label; reflexivity.
  Qed.
  Lemma value_named : forall i o label type code tv, well_named (Elem (zs "Property") (value_attributes i o label type code tv) [] []).
  Proof. intros i o label type code tv. constructor; [apply xml_nameb_sound; reflexivity| | |constructor]; destruct label; [distinct|distinct|names|names]. Qed.

  Definition dictionary_item (o : Z) (label : option (list Z)) : mitem :=
    mkMitem [] (Other_class "Property") ([("id", VInt 0); ("offset", VInt o)] ++ match label with Some t => [("id_label", VText t)] | None => [] end).
  Definition dictionary_attributes (o : Z) (label : option (list Z)) : list (list Z * list Z) := [(zs "id", fmt_d 0); (zs "offset", fmt_d o)] ++ label_attribute label.
  Lemma dictionary_events : forall o label entries, property_events time_text (mkProperty 0 o label None (PVDict entries)) =
    wrap_modelevents (dictionary_item o label) (chain (map entry_events entries)).
  Proof. intros o label entries. unfold property_events, dictionary_item. cbn [p_label p_code p_id p_offset p_value]. rewrite app_nil_r. reflexivity. Qed.
  Lemma dictionary_starts : forall o label, startelement py_repr object 4 [] (Other_class "Property") (mi_attributes (dictionary_item o label)) =
    ([XStart (zs "Property") (dictionary_attributes o label)], Finished).
  Proof. intros o label. destruct label; reflexivity. Qed.

  Lemma property_builds : forall p, property_ok p -> (forall n, p_value p = PVTime n -> exists t, time_text n = Ok t) ->
    builds (property_element time_text) (property_events time_text) p.
  Proof.
    intros [i o label c v] [(E1 & E2 & entries & E3)|(N & code & type & E2 & IT & D)] T; cbn [p_id p_code p_value] in *; subst.
    - destruct (chain_builds _ _ entry_events entries (fun e _ => entry_builds e)) as (f & ts & E & W & F & NS & NI).
      exists (FCons (dictionary_item o label) f FNil), (Elem (zs "Property") (dictionary_attributes o label) [] ts).
      rewrite dictionary_events, E. split; [reflexivity|]. split; [apply wrap_written; [apply dictionary_starts|reflexivity|exact W]|]. split; [|split].
      + apply pe_dictionary with (to := fmt_d o); [apply decimal_ok|apply Permutation_refl|exact F].
      + constructor; [apply xml_nameb_sound; reflexivity| | |exact NS]; destruct label; [distinct|distinct|names|names].
      + cbn. split; [reflexivity|]. split; [exact NI|exact I].
    - assert (exists w, written_value time_text v = Ok w) as (w & EW).
      { destruct v as [n|t|n|es]; cbn [written_value]; eauto; [|destruct (D es eq_refl)]. destruct (T n eq_refl) as (t & ->). cbn. eauto. }
      destruct (value_starts i o label type code v w EW) as (tv & SH & ST).
      exists (FCons (value_item i o label type code w) FNil FNil), (Elem (zs "Property") (value_attributes i o label type code tv) [] []).
      rewrite (value_events _ _ _ type) by assumption. rewrite EW. split; [reflexivity|]. split; [|split; [|split]].
      + change (Elem (zs "Property") (value_attributes i o label type code tv) [] []) with (with_children (Elem (zs "Property") (value_attributes i o label type code tv) [] []) []).
        constructor; [exact ST|constructor|constructor].
      + apply pe_value with (ti := fmt_d i) (to := fmt_d o) (tv := tv) (type := type); try assumption; try apply decimal_ok. unfold value_attributes.
        rewrite (fmt_x_is 4) by (destruct IT as [IT|[IT|[IT|[]]]]; inversion IT; cbn; lia). apply Permutation_refl.
      + apply value_named.
      + cbn. repeat split.
  Qed.

  Lemma set_builds : forall s, is_guid (ps_fmtid s) -> (forall p, In p (ps_properties s) -> property_ok p) -> times_ok time_text (ps_properties s) ->
    builds (set_element time_text) (property_set_events time_text) s.
  Proof.
    intros s G P T. destruct (sorted_ok (ps_properties s)) as (S1 & S2 & S3).
    destruct (chain_builds _ (property_element time_text) (property_events time_text) (sorted_properties (ps_properties s))) as (f & ts & E & W & F & NS & NI).
    { intros p HI. apply (Permutation_in p (Permutation_sym S1)) in HI. apply property_builds; [exact (P p HI)|]. intros n EN. exact (T p n HI EN). }
    eexists (FCons (mkMitem [] (Other_class "PropertySet") _) f FNil), (Elem (zs "PropertySet") [(zs "fmtid", uuid_str (ps_fmtid s)); (zs "offset", fmt_d (ps_offset s))] [] ts).
    unfold property_set_events. rewrite E. split; [reflexivity|]. split; [apply wrap_written; [reflexivity|reflexivity|exact W]|]. split; [|split].
    - apply se with (g := uuid_str (ps_fmtid s)) (to := fmt_d (ps_offset s)) (sorted := sorted_properties (ps_properties s)).
      + apply guid_text_ok. exact G.
      + apply decimal_ok.
      + apply Permutation_refl.
      + exact (sorted_ok _).
      + exact F.
    - constructor; [apply xml_nameb_sound; reflexivity|distinct|names|exact NS].
    - cbn. split; [reflexivity|]. split; [exact NI|exact I].
  Qed.

  Theorem summary_builds : forall formats b s, stream_reads_as formats b s -> (forall set, In set (pss_sets s) -> times_ok time_text (ps_properties set)) ->
    builds (summary_element time_text) (summary_events time_text) s.
  Proof.
    intros formats b s (OK & _ & E & F) T. destruct OK as (O1 & O2 & O3 & O4 & O5 & O6). rewrite Forall_forall in F, O6.
    destruct (chain_builds _ (set_element time_text) (property_set_events time_text) (pss_sets s)) as (f & ts & EC & W & F2 & NS & NI).
    { intros x HI. apply set_builds.
      - assert (K : In (ps_fmtid x, ps_offset x) (psh_descs (pss_header s))) by (rewrite <- E; apply (in_map (fun p => (ps_fmtid p, ps_offset p))); exact HI).
        destruct (O6 _ K) as [G _]. exact G.
      - intros p HP. exact (read_property_ok _ _ _ _ (F x HI) HP).
      - exact (T x HI). }
    pose (attrs := [(zs "byte-order", fmt_x 4 (psh_byteOrder (pss_header s))); (zs "version", fmt_d (psh_version (pss_header s)));
      (zs "system-identifier", fmt_x 8 (psh_systemIdentifier (pss_header s))); (zs "clsid", uuid_str (psh_clsid (pss_header s)))]).
    eexists (FCons (mkMitem [] (Other_class "HwpSummaryInfo") []) (FCons (mkMitem [] (Other_class "PropertySetStream") _) f FNil) FNil),
      (Elem (zs "HwpSummaryInfo") [] [] [Elem (zs "PropertySetStream") attrs [] ts]).
    unfold summary_events. rewrite EC, wrap_walk, wrap_walk. split; [reflexivity|]. split; [|split; [|split]].
    - apply wrap_written; [reflexivity|reflexivity|]. apply wrap_written; [reflexivity|reflexivity|exact W].
    - apply sye with (v := fmt_d (psh_version (pss_header s))) (g := uuid_str (psh_clsid (pss_header s))).
      + apply decimal_ok.
      + apply guid_text_ok. exact O4.
      + unfold attrs. rewrite (fmt_x_is 4) by (cbn; lia). rewrite (fmt_x_is 8) by (unfold is_u32 in O3; cbn in *; lia). apply Permutation_refl.
      + exact F2.
    - constructor; [apply xml_nameb_sound; reflexivity|distinct|names|]. constructor; [|constructor]. constructor; [apply xml_nameb_sound; reflexivity|distinct|names|exact NS].
    - cbn. repeat split. exact NI.
  Qed.

  (** ** If a time has no text *)
  Definition starts_well (it : mitem) : Prop := exists out, startelement py_repr object 4 (mi_version it) (mi_model it) (mi_attributes it) = (out, Finished).
  Lemma outcome_of : forall fuel evs o, Forall (fun e => match e with EStart it => starts_well it | EEnd _ => True end) evs ->
    snd (modelevents_to_xmlevents py_repr object (4 + fuel) evs o) = o.
  Proof.
    intros fuel evs o H. induction H as [|[it|it] evs HE H IH]; [reflexivity| |].
    - destruct HE as (out & E). cbn [modelevents_to_xmlevents]. rewrite (start_more _ _ _ _ _ _ _ E fuel), gthen_fin. exact IH.
    - exact IH.
  Qed.
  Definition fine (bad : exn -> Prop) (g : gen (event mitem)) : Prop :=
    Forall (fun e => match e with EStart it => starts_well it | EEnd _ => True end) (fst g) /\
    match snd g with Finished => True | Failed e => bad e | OutOfFuel => False end.
  Lemma fine_wrap : forall bad it g, starts_well it -> fine bad g -> fine bad (wrap_modelevents it g).
  Proof.
    intros bad it [evs o] S [F O]. unfold wrap_modelevents, gthen. destruct o; cbn [gcons gapp fst snd] in *; (split; [|exact O]); cbn [fst].
    - constructor; [exact S|]. apply Forall_app. split; [exact F|]. constructor; [exact I|constructor].
    - constructor; assumption.
    - contradiction.
  Qed.
  Lemma fine_chain : forall bad l, Forall (fine bad) l -> fine bad (chain l).
  Proof.
    intros bad l H. induction H as [|[evs o] l [F O] H [F2 O2]]; [split; [constructor|exact I]|]. cbn [chain gthen]. destruct o; cbn [fst snd gapp] in *.
    - split; [cbn [gapp fst]; apply Forall_app; split; assumption|exact O2].
    - split; assumption.
    - contradiction.
  Qed.
  Lemma chain_finished : forall {A} (l : list (gen A)), snd (chain l) = Finished -> Forall (fun g => snd g = Finished) l.
  Proof.
    intros A. induction l as [|[evs o] l IH]; intros H; [constructor|]. cbn [chain gthen] in H. destruct o; cbn [snd gapp] in H; try discriminate. constructor; [reflexivity|apply IH; exact H].
  Qed.
  Lemma wrap_finished : forall it g, snd (wrap_modelevents it g) = Finished -> snd g = Finished.
  Proof. intros it [evs o] H. destruct o; [reflexivity|exact H|exact H]. Qed.

  Definition bad_time (props : list property) (e : exn) : Prop := exists p n, In p props /\ p_value p = PVTime n /\ time_text n = Raise e.
  Lemma property_fine : forall p (bad : exn -> Prop), property_ok p -> (forall n e, p_value p = PVTime n -> time_text n = Raise e -> bad e) ->
    fine bad (property_events time_text p).
  Proof.
    intros [i o label c v] bad [(E1 & E2 & entries & E3)|(N & code & type & E2 & IT & D)] B; cbn [p_id p_code p_value] in *; subst.
    - rewrite dictionary_events. apply fine_wrap; [eexists; apply dictionary_starts|]. apply fine_chain. apply Forall_map, Forall_forall. intros [k n] _.
      apply fine_wrap; [eexists; reflexivity|]. split; [constructor|exact I].
    - rewrite (value_events _ _ _ type) by assumption. destruct (written_value time_text v) as [w|e] eqn:EW.
      + destruct (value_starts i o label type code v w EW) as (tv & _ & S & _). split; [|exact I]. constructor; [eexists; exact S|]. constructor; [exact I|constructor].
      + split; [constructor|]. cbn. destruct v as [n|t|n|es]; cbn [written_value] in EW; try discriminate; [|destruct (D es eq_refl)].
        destruct (time_text n) as [t|e'] eqn:ET; [discriminate|]. inversion EW; subst. exact (B n e eq_refl ET).
  Qed.
  Lemma property_finished : forall p, property_ok p -> snd (property_events time_text p) = Finished -> forall n, p_value p = PVTime n -> exists t, time_text n = Ok t.
  Proof.
    intros [i o label c v] [(E1 & E2 & entries & E3)|(N & code & type & E2 & IT & D)] H n EN; cbn [p_id p_code p_value] in *; subst; [discriminate|].
    rewrite (value_events _ _ _ type) in H by assumption. cbn [written_value] in H. destruct (time_text n); [eauto|discriminate].
  Qed.

  Theorem summary_outcome : forall formats b s fuel, stream_reads_as formats b s ->
    (snd (xmlevents py_repr object (4 + fuel) (summary_events time_text s)) = Finished /\ forall set, In set (pss_sets s) -> times_ok time_text (ps_properties set)) \/
    (exists set e, In set (pss_sets s) /\ bad_time (ps_properties set) e /\ snd (xmlevents py_repr object (4 + fuel) (summary_events time_text s)) = Failed e).
  Proof.
    intros formats b s fuel (_ & _ & _ & F). rewrite Forall_forall in F.
    assert (P : forall set p, In set (pss_sets s) -> In p (sorted_properties (ps_properties set)) -> In p (ps_properties set) /\ property_ok p).
    { intros set p HS HP. destruct (sorted_ok (ps_properties set)) as (S1 & _). apply (Permutation_in p (Permutation_sym S1)) in HP. split; [exact HP|]. exact (read_property_ok _ _ _ _ (F set HS) HP). }
    assert (FN : fine (fun e => exists set, In set (pss_sets s) /\ bad_time (ps_properties set) e) (summary_events time_text s)).
    { unfold summary_events. apply fine_wrap; [eexists; reflexivity|]. apply fine_wrap; [eexists; reflexivity|]. apply fine_chain. apply Forall_map, Forall_forall. intros set HS.
      unfold property_set_events. apply fine_wrap; [eexists; reflexivity|]. apply fine_chain. apply Forall_map, Forall_forall. intros p HP. destruct (P set p HS HP) as [HI OK].
      apply property_fine; [exact OK|]. intros n e EN ET. exists set. split; [exact HS|]. exists p, n. auto. }
    unfold xmlevents. rewrite outcome_of by exact (proj1 FN). destruct FN as [_ FN]. destruct (snd (summary_events time_text s)) as [|e|] eqn:E; [left|right|contradiction].
    - split; [reflexivity|]. intros set HS p n HP EN. unfold summary_events in E. apply wrap_finished, wrap_finished, chain_finished in E. rewrite Forall_map, Forall_forall in E.
      specialize (E set HS). apply wrap_finished, chain_finished in E. rewrite Forall_map, Forall_forall in E. destruct (sorted_ok (ps_properties set)) as (S1 & _).
      pose proof (Permutation_in p S1 HP) as HP'. exact (property_finished p (proj2 (P set p HS HP')) (E p HP') n EN).
    - destruct FN as (set & HS & B). exists set, e. auto.
  Qed.
End Summary.

Theorem summary_document : forall time_text py_repr object formats b s, stream_reads_as formats b s ->
  (forall set, In set (pss_sets s) -> times_ok time_text (ps_properties set)) ->
  exists t, summary_element time_text s t /\ well_named t /\
    (forall fuel, xmlevents py_repr object (4 + fuel) (summary_events time_text s) = (events_of t, Finished)) /\
    (writable_text t -> forall decl, exists chunks text body,
       xml_bytechunks decl (events_of t) = (chunks, Finished) /\ concat chunks = (if decl then xml_declaration else []) ++ body /\
       utf8_decode body = Some text /\ xml_read text = Some (read_back [] (events_of t))).
Proof.
  intros time_text py_repr object formats b s R T. destruct (summary_builds time_text py_repr object formats b s R T) as (f & t & E & W & S & N & _).
  exists t. split; [exact S|]. split; [exact N|]. split; [|exact (element_bytes t N)]. intros fuel. unfold xmlevents. rewrite E. cbn [fst snd].
  pose proof (document_written _ _ _ _ _ W [] Finished) as DW. rewrite app_nil_r in DW. cbn [flat_map modelevents_to_xmlevents] in DW. unfold gapp in DW. cbn [fst snd] in DW. rewrite !app_nil_r in DW.
  exact (to_xml_more _ _ 4 _ _ _ DW fuel).
Qed.
