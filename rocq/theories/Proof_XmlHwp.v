(** The XML of whole files. *)
From Coq Require Import ZArith String List Bool Lia Permutation.
From Verif Require Import Base BaseFacts Model_Tree Spec_Tree Model_ParaText Spec_ParaText Model_Shape Spec_Shape Model_Lang Model_Classes Model_XmlModel.
From Verif Require Import Model_Text Model_Dataio Model_Record Model_Bintype Model_Layouts Model_Models Model_Oleprops Model_Embed Spec_Embed
  Model_XmlText Model_XmlElement Model_XmlFile Spec_XmlText Spec_Bintype Spec_Models Spec_Oleprops Spec_Layouts Spec_XmlElement Spec_XmlModel Spec_Section Spec_XmlFile Spec_XmlSummary Spec_XmlHwp
  Proof_Text Proof_Tree Proof_Models Proof_Layouts Proof_Section Proof_XmlText Proof_OleText Proof_XmlElement Proof_XmlEntry Proof_XmlRecord Proof_XmlNames Proof_XmlDocument Proof_XmlDocinfo Proof_XmlPasses Proof_XmlFile Proof_XmlSection Proof_XmlSummary Proof_XmlIds.
Import ListNotations.
Open Scope string_scope.
Open Scope list_scope.
Open Scope Z_scope.

(** ** Summary information: no numbers *)
Lemma entry_unnumbered : forall e t, entry_element e t -> unnumbered t.
Proof. intros e t H. inversion H; subst. constructor; [reflexivity|constructor]. Qed.
Lemma forall2_right : forall A B (R : A -> B -> Prop) (P : B -> Prop) l ts, (forall x t, R x t -> P t) -> Forall2 R l ts -> Forall P ts.
Proof. intros A B R P l ts H F. induction F; constructor; eauto. Qed.
Lemma property_unnumbered : forall time_text p t, property_element time_text p t -> unnumbered t.
Proof. intros time_text p t H. inversion H; subst; constructor; try reflexivity; [|constructor]. eapply forall2_right; [exact entry_unnumbered|eassumption]. Qed.
Lemma set_unnumbered : forall time_text s t, set_element time_text s t -> unnumbered t.
Proof. intros time_text s t H. inversion H; subst. constructor; [reflexivity|]. eapply forall2_right; [exact (property_unnumbered time_text)|eassumption]. Qed.
Lemma summary_unnumbered : forall time_text s t, summary_element time_text s t -> unnumbered t.
Proof.
  intros time_text s t H. inversion H; subst. constructor; [reflexivity|]. constructor; [|constructor]. constructor; [reflexivity|].
  eapply forall2_right; [exact (set_unnumbered time_text)|eassumption].
Qed.

Section Whole.
  Variable repr : view -> list Z.
  Variable object : list Z.
  Variable version : list Z.
  Let py_repr : value -> list Z := fun v => repr (view_of v).
  Notation writes := (writes py_repr object 4).

  (** Events that are, up to the items at ends, those of a forest that is written
      as [ts]. *)
  Definition gives (g : gen (event mitem)) (ts : list xtree) : Prop := exists f,
    map plain_end (fst g) = map plain_end (walk f) /\ snd g = Finished /\ written writes f ts.

  Lemma gives_none : gives ([], Finished) [].
  Proof. exists FNil. repeat split. constructor. Qed.
  Lemma gives_then : forall g ts k us, gives g ts -> gives k us -> gives (gthen g k) (ts ++ us).
  Proof.
    intros [a o] ts [b o'] us (f & E & O & W) (f' & E' & O' & W'). cbn [fst snd] in *. subst o o'. exists (fapp f f'). rewrite gthen_fin. unfold gapp. cbn [fst snd].
    rewrite walk_fapp, !map_app, E, E'. repeat split. apply written_fapp; assumption.
  Qed.
  Lemma gives_wrap : forall it n attrs g ts, startelement py_repr object 4 (mi_version it) (mi_model it) (mi_attributes it) = ([XStart n attrs], Finished) ->
    n = zs (model_name (mi_model it)) -> xml_name n -> NoDup (map fst attrs) -> Forall (fun a => xml_name (fst a)) attrs -> id_attribute n = None ->
    gives g ts -> gives (wrap_modelevents it g) [Elem n attrs [] ts].
  Proof.
    intros it n attrs [a o] ts S E N1 N2 N3 NI (f & F & O & W). cbn [fst snd] in *. subst o. exists (FCons it f FNil). split; [|split; [reflexivity|]].
    - unfold wrap_modelevents. rewrite gthen_fin. unfold gapp, gcons. cbn [fst snd walk map]. rewrite !map_app, F. reflexivity.
    - change (Elem n attrs [] ts) with (with_children (Elem n attrs [] []) ts). constructor; [|exact W|constructor]. split; [split; [exact S|exact E]|].
      split; [constructor; auto|]. split; [constructor|]. intros key EK. exfalso. rewrite E, id_names, EK in NI. discriminate.
  Qed.
  Lemma gives_chain : forall X (events : X -> gen (event mitem)) (R : X -> xtree -> Prop) l, (forall x, In x l -> exists t, R x t /\ gives (events x) [t]) ->
    exists ts, Forall2 R l ts /\ gives (chain (map events l)) ts.
  Proof.
    intros X events R. induction l as [|x l IH]; intros H; [exists []; split; [constructor|exact gives_none]|].
    destruct (H x (or_introl eq_refl)) as (t & RX & G). destruct IH as (ts & F & G'); [intros y HI; apply H; right; exact HI|].
    exists (t :: ts). split; [constructor; assumption|]. cbn [map chain]. exact (gives_then _ [t] _ _ G G').
  Qed.

  (** ** Summary information *)
  Lemma summary_gives : forall time_text formats b s, stream_reads_as formats b s -> (forall set, In set (pss_sets s) -> times_ok time_text (ps_properties set)) ->
    exists t, summary_element time_text s t /\ gives (summary_events time_text s) [t].
  Proof.
    intros time_text formats b s R T. destruct (summary_builds time_text py_repr object formats b s R T) as (f & t & E & W & S & N & _).
    exists t. split; [exact S|]. exists f. rewrite E. repeat split. apply without_numbers; [exact W|constructor; [exact N|constructor]|].
    constructor; [exact (summary_unnumbered _ _ _ S)|constructor].
  Qed.

  (** ** Document information *)
  Definition record_writes (embedbin : option (list Z -> res (list Z))) (rm : record * model) : Prop := exists attrs t,
    (forall evs o, embed_part embedbin (EStart (item_of_record version rm) :: evs) o =
       gcons (EStart (mkMitem version (record_model (m_type (snd rm))) attrs)) (embed_part embedbin evs o)) /\
    shown_record repr object embedbin rm t /\ writes (mkMitem version (record_model (m_type (snd rm))) attrs) t.
  Lemma records_give : forall embedbin f, (forall rm, In rm (items_of f) -> record_writes embedbin rm) ->
    exists f' ts, written (shown_record repr object embedbin) f ts /\ written writes f' ts /\
      forall rest o, map plain_end (fst (embed_part embedbin (walk (forest_map (item_of_record version) f) ++ rest) o)) =
                     map plain_end (walk f') ++ map plain_end (fst (embed_part embedbin rest o)) /\
                     snd (embed_part embedbin (walk (forest_map (item_of_record version) f) ++ rest) o) = snd (embed_part embedbin rest o).
  Proof.
    intros embedbin. induction f as [|x kids IHk next IHn]; intros H.
    - exists FNil, []. split; [constructor|]. split; [constructor|]. intros rest o. split; reflexivity.
    - cbn [items_of] in H. destruct (H x (or_introl eq_refl)) as (attrs & t & EM & SM & WT).
      destruct IHk as (fk & ks & WK & WK' & EK); [intros rm HI; apply H; right; apply in_or_app; left; exact HI|].
      destruct IHn as (fn & ns & WN & WN' & EN); [intros rm HI; apply H; right; apply in_or_app; right; exact HI|].
      exists (FCons (mkMitem version (record_model (m_type (snd x))) attrs) fk fn), (with_children t ks :: ns). split; [constructor; assumption|]. split; [constructor; assumption|].
      intros rest o. cbn [forest_map walk app]. rewrite EM. rewrite <- app_assoc. cbn [app]. unfold gcons. cbn [fst snd map].
      destruct (EK (EEnd (item_of_record version x) :: walk (forest_map (item_of_record version) next) ++ rest) o) as [K1 K2]. rewrite K1, K2.
      rewrite embed_end. unfold gcons. cbn [fst snd map]. destruct (EN rest o) as [N1 N2]. rewrite N1, N2. split; [|reflexivity].
      cbn [walk map app]. rewrite map_app. cbn [map app]. rewrite <- app_assoc. reflexivity.
  Qed.
  Lemma docinfo_gives : forall embedbin records out, version_ok version ->
    Forall (fun r => all_bytes (r_payload r)) records -> (forall r rest, records = r :: rest -> r_level r = 0) ->
    (forall read n d, embedbin = Some read -> read n = Ok d -> all_bytes d) ->
    models_of version Finished [] records out Finished ->
    (forall r m, In (r, m) out -> ~ In (m_type m) unwritten) ->
    (forall r m read x, In (r, m) out -> embedbin = Some read -> ~ embedding read (mkBev true (m_type m) (m_content m)) (Raise x)) ->
    exists ds, docinfo_shown repr object version embedbin records ds /\ gives (docinfo_events embedbin version (out, Finished)) [Elem (zs "DocInfo") [] [] ds].
  Proof.
    intros embedbin records out HV HB H0 HD HM HU HF.
    set (items := map (fun rm : record * model => (r_level (fst rm), rm)) out).
    assert (L : map fst items = map (fun rm => r_level (fst rm)) out) by (unfold items; rewrite map_map; reflexivity).
    destruct (legal_exists _ items) as (f & EF); [rewrite L; exact (models_legal _ _ _ _ _ HM)|].
    assert (B : match items with [] => 0 | (b, _) :: _ => b end = 0).
    { unfold items. inversion HM as [|? r rest parent m out' ? F P R M| | |]; subst; [reflexivity|]. cbn. exact (H0 r rest eq_refl). }
    rewrite B in EF. destruct (each_record _ _ _ _ _ _ HM) as (E1 & E2 & _).
    assert (EI : items_of f = out). { rewrite <- (preorder_items _ f 0), <- EF. unfold items. rewrite map_map. cbn. apply map_id. }
    destruct (records_give embedbin f) as (f' & ds & W & W' & EX).
    { rewrite EI. intros [r m] HI. destruct (In_nth_error _ _ HI) as (i & Hi). destruct (E2 i r m Hi) as (parent & P & R).
      pose proof (models_bytes _ _ _ _ _ _ HB HM r m HI) as HP.
      destruct (read_record_starts repr object 0 version embedbin r m parent) as (attrs & t & EM & SM & ST & RN & EL); auto.
      - exact (proj2 (nearest_is _ _ _ P)).
      - exact (HU r m HI).
      - intros read x. exact (HF r m read x HI).
      - cbn [snd] in *. pose proof (shown_kept _ _ _ _ _ _ _ R SM) as HK. exists attrs, t. split; [exact EM|]. split; [exists attrs; split; assumption|].
        split; [split; [exact ST|exact RN]|]. split; [|split].
        + apply (record_named repr object version parent (r_tagid r) (r_payload r) m attrs [] t); try assumption; [reflexivity|]. rewrite app_nil_r. exact EL.
        + exact (own_unnumbered _ _ _ _ _ EL).
        + exact (record_idable repr object 0 version parent r m attrs HP R (HU r m HI) HK). }
    exists ds. split; [exists out, f; split; [exact HM|split; [symmetry; exact EF|exact W]]|].
    assert (EP : prefix_binmodels_with_event version (out, Finished) = (walk (forest_map (item_of_record version) f), Finished)).
    { unfold prefix_binmodels_with_event. cbn [fst snd]. rewrite iter_finished.
      assert (EP : map (fun rm : record * model => (r_level (fst rm), mkMitem version (record_model (m_type (snd rm))) (m_content (snd rm)))) out = preorder 0 (forest_map (item_of_record version) f)).
      { rewrite preorder_map, <- EF. unfold items. rewrite map_map. reflexivity. }
      rewrite EP. apply (prefix_event_forest _ _ 0). }
    specialize (EX [] Finished). rewrite app_nil_r in EX. destruct EX as [X1 X2].
    assert (GI : gives (embed_part embedbin (walk (forest_map (item_of_record version) f)) Finished) ds).
    { exists f'. split; [|split; [|exact W']].
      - rewrite X1. destruct embedbin; cbn; apply app_nil_r.
      - rewrite X2. destruct embedbin; reflexivity. }
    unfold docinfo_events. rewrite EP. apply gives_wrap; [reflexivity|reflexivity|apply xml_nameb_sound; reflexivity|constructor|constructor|reflexivity|]. destruct embedbin; exact GI.
  Qed.

  (** ** Sections *)
  Lemma from_record_idable : forall out x, (forall i r m, nth_error out i = Some (r, m) -> all_bytes (r_payload r) /\ exists parent, reads version parent (r_tagid r) (r_payload r) (Ok m)) ->
    from_record out x -> idable py_repr object 4 (shown_item version x).
  Proof.
    intros out x OK (i & r & m & E & ER & EM & EU & K). destruct (OK _ _ _ E) as (HB & parent & HR). destruct (record_class _ _ _ _ _ HR) as (C1 & _).
    unfold shown_item. rewrite EM, C1. exact (record_idable repr object 0 version parent r m (item_values x) HB HR EU K).
  Qed.
  Lemma item_writes : forall out x, (forall i r m, nth_error out i = Some (r, m) -> all_bytes (r_payload r) /\ exists parent, reads version parent (r_tagid r) (r_payload r) (Ok m)) ->
    Q3 out x -> exists t, shown_node repr object x t /\ writes (shown_item version x) t.
  Proof.
    intros out x OK HQ. destruct (Q3_good repr object version 0 out OK x HQ) as (t & S & R & N & W). exists t. split; [exact N|].
    split; [split; [exact S|cbn [shown_item mi_model]; rewrite class_name; exact R]|]. split; [exact W|]. split.
    - inversion N; subst; try constructor; eapply own_unnumbered; eassumption.
    - assert (M : forall y, id_key (i_model y) = None -> idable py_repr object 4 (shown_item version y)).
      { intros y HY key EK. cbn [shown_item mi_model] in EK. rewrite class_name in EK. congruence. }
      destruct HQ as [[H|[(n & l & u & ->)|[(c & k & s & ->)|[(i & ->)|[(i & d & -> & _)| ->]]]]]|[ -> |(n & y & HY & EY & ->)]]; try (apply M; reflexivity).
      + exact (from_record_idable out x OK H).
      + apply M. cbn [set_item i_model]. rewrite EY. reflexivity.
  Qed.
  Lemma forest_gives : forall out g, (forall i r m, nth_error out i = Some (r, m) -> all_bytes (r_payload r) /\ exists parent, reads version parent (r_tagid r) (r_payload r) (Ok m)) ->
    all_forest (Q3 out) g -> exists ts, written (shown_node repr object) g ts /\ written writes (forest_map (shown_item version) g) ts /\
      map (fun t => root_name t) ts = map (fun x => zs (i_model x)) (roots g).
  Proof.
    intros out g OK. induction g as [|x k IHk n IHn]; intros H.
    - exists []. repeat split; constructor.
    - destruct H as (HX & HK & HN). destruct (item_writes out x OK HX) as (t & S & W). destruct (IHk HK) as (ks & K1 & K2 & _). destruct (IHn HN) as (ns & N1 & N2 & N3).
      exists (with_children t ks :: ns). split; [constructor; assumption|]. split; [constructor; assumption|]. cbn [map roots]. rewrite N3. f_equal.
      destruct W as ([_ R] & _). cbn [shown_item mi_model] in R. rewrite class_name in R. destruct t. exact R.
  Qed.
  (** [section_shown], with the tree that the passes make. *)
  Definition section_made (s : Z * list record) (t : xtree) : Prop :=
    exists out f g, models_of version Finished [] (snd s) out Finished /\ preorder 0 f = pass_items 1 out /\ section_ok f /\
      section_tree (Some (fst s)) f g /\ section_modelevents (out, Finished) = (walk f, Finished) /\
      section_events (Some (fst s)) (walk f, Finished) = (walk g, Finished) /\ written (shown_node repr object) g [t].
  Lemma made_shown : forall s t, section_made s t -> section_shown repr object version s t.
  Proof. intros s t (out & f & g & H1 & H2 & _ & H3 & _ & _ & H4). exists out, f, g. auto. Qed.
  Lemma section_gives : forall records out f sid, Forall (fun r => all_bytes (r_payload r)) records -> (forall r rest, records = r :: rest -> r_level r = 0) ->
    models_of version Finished [] records out Finished -> preorder 0 f = pass_items 1 out -> section_ok f ->
    exists t, section_made (sid, records) t /\ gives (section_mevents (Some sid) version (out, Finished)) [t].
  Proof.
    intros records out f sid HB H0 HM EF HS. destruct (section_pass (Some sid) f HS) as (g & ST & EG). destruct (section_single (Some sid) f HS) as (s & k & ES & EW).
    assert (EM : section_modelevents (out, Finished) = (walk f, Finished)).
    { unfold section_modelevents. cbn [fst snd]. rewrite iter_finished, <- EF. apply (prefix_event_forest _ f 0 (mkItem "" 0 [])). }
    assert (GK : g = FCons (with_section_id (Some sid) s) k FNil) by (rewrite EG in EW; apply (f_equal fst) in EW; cbn [fst] in EW; exact (walk_inj _ _ _ EW)).
    assert (OK : forall i r m, nth_error out i = Some (r, m) -> all_bytes (r_payload r) /\ exists parent, reads version parent (r_tagid r) (r_payload r) (Ok m)) by exact (out_ok version records out Finished Finished HB HM).
    pose proof (items_from version out OK (Some sid) _ (events_given version records out Finished Finished HB H0 HM)) as G.
    rewrite EM, EG in G. cbn [fst] in G. destruct (forest_gives out g OK (walk_all _ _ _ G)) as (ts & W1 & W2 & W3).
    rewrite GK in W3. cbn [roots map] in W3. destruct ts as [|t [|]]; try discriminate W3. exists t. split; [exists out, f, g; auto 10|].
    exists (forest_map (shown_item version) g). unfold section_mevents. rewrite EM, EG. cbn [fst snd]. rewrite walk_map. repeat split. exact W2.
  Qed.
End Whole.

(** ** Numbers in document order *)
Lemma same_refl : forall n, same n n = true.
Proof. intros n. unfold same. destruct (list_eq_dec Z.eq_dec n n); congruence. Qed.
Definition all_named (name : list Z) (ts : list xtree) : list (list (list Z * list Z)) :=
  map snd (filter (fun e => same name (fst e)) (flat_map elements_of ts)).
Scheme numbered_ind2 := Minimality for numbered Sort Prop with all_numbered_ind2 := Minimality for all_numbered Sort Prop.
Combined Scheme numbered_both from numbered_ind2, all_numbered_ind2.
Lemma numbers_in_order : forall name key, id_attribute name = Some key ->
  (forall before t t' after, numbered before t t' after ->
     count name after = count name before + zlen (named name t') /\
     forall i attrs, nth_error (named name t') i = Some attrs -> exists text, decimal text (count name before + Z.of_nat i) /\ In (key, text) attrs) /\
  (forall before ts ts' after, all_numbered before ts ts' after ->
     count name after = count name before + zlen (all_named name ts') /\
     forall i attrs, nth_error (all_named name ts') i = Some attrs -> exists text, decimal text (count name before + Z.of_nat i) /\ In (key, text) attrs).
Proof.
  intros name key K. apply numbered_both.
  - intros before n attrs text kids number attrs' kids' after NA PA _ [C IH]. unfold named. cbn [elements_of filter fst]. fold (all_named name kids').
    destruct (same name n) eqn:E; cbn [map snd].
    + unfold same in E. destruct (list_eq_dec Z.eq_dec name n) as [<-|]; [|discriminate]. rewrite count_app in C, IH. unfold count at 3 in C. cbn [filter] in C, IH. unfold count at 2 in IH. cbn [filter] in IH. rewrite same_refl in C, IH.
      change (zlen [name]) with 1 in C, IH. unfold all_named in C. split; [unfold zlen in *; cbn [List.length]; lia|]. intros [|i] a EN.
      * cbn in EN. inversion EN; subst. inversion NA as [N|key' t K' D]; subst; [congruence|]. rewrite K in K'. inversion K'; subst. exists t. rewrite Z.add_0_r. split; [exact D|].
        apply (Permutation_in _ (Permutation_sym PA)). apply in_or_app. right. left. reflexivity.
      * cbn [nth_error] in EN. destruct (IH i a EN) as (t & D & HI). exists t. split; [|exact HI]. replace (count name before + Z.of_nat (S i)) with (count name before + 1 + Z.of_nat i) by lia. exact D.
    + assert (Z0 : count name [n] = 0) by (unfold count; cbn [filter]; rewrite E; reflexivity). rewrite count_app, Z0, Z.add_0_r in C, IH. split; [exact C|exact IH].
  - intros before. split; [unfold zlen; cbn; lia|]. intros [|i] a EN; discriminate.
  - intros before t t' middle ts ts' after _ [C1 I1] _ [C2 I2]. unfold all_named. cbn [flat_map]. rewrite filter_app, map_app. fold (all_named name ts'). fold (named name t'). split.
    + unfold zlen in *. rewrite app_length. lia.
    + intros i a EN. destruct (Nat.lt_ge_cases i (List.length (named name t'))) as [L|L].
      * rewrite nth_error_app1 in EN by exact L. exact (I1 i a EN).
      * rewrite nth_error_app2 in EN by exact L. destruct (I2 _ _ EN) as (t0 & D & HI). exists t0. split; [|exact HI]. rewrite C1 in D. unfold zlen in D.
        replace (count name before + Z.of_nat i) with (count name before + Z.of_nat (List.length (named name t')) + Z.of_nat (i - List.length (named name t'))) by lia. exact D.
Qed.
Theorem numbers_from_zero : forall name key t t' after i attrs, In (name, key) numbered_names -> numbered [] t t' after ->
  nth_error (named name t') i = Some attrs -> exists text, decimal text (Z.of_nat i) /\ In (key, text) attrs.
Proof.
  intros name key t t' after i attrs HI HN EN.
  assert (K : id_attribute name = Some key) by (destruct HI as [E|[E|[E|[E|[]]]]]; inversion E; reflexivity).
  destruct (proj1 (numbers_in_order name key K) _ _ _ _ HN) as [_ H]. exact (H i attrs EN).
Qed.

(** ** Files *)
Theorem made_document : forall time_text repr object version embedbin formats summary_bytes summary docinfo sections,
  version_ok version -> (forall read n d, embedbin = Some read -> read n = Ok d -> all_bytes d) ->
  stream_reads_as formats summary_bytes summary -> (forall set, In set (pss_sets summary) -> times_ok time_text (ps_properties set)) ->
  docinfo_fits version embedbin docinfo -> Forall (fun s => section_fits version (snd s)) sections ->
  exists n s ds ss v t after,
    summary_element time_text summary s /\ docinfo_shown repr object version embedbin docinfo ds /\
    Forall2 (section_made repr object version) sections ss /\ version_text version v /\
    numbered [] (Elem (zs "HwpDoc") [(zs "version", v)] [] [s; Elem (zs "DocInfo") [] [] ds; Elem (zs "BodyText") [] [] ss]) t after /\
    well_named t /\
    (forall k fuel, xmlevents (fun v => repr (view_of v)) object (4 + fuel)
       (hwp5file_events time_text embedbin version summary (stream_models (n + k) version (docinfo, Finished))
          (map (fun s => (fst s, stream_models (n + k) version (snd s, Finished))) sections)) = (events_of t, Finished)) /\
    (writable_text t -> forall decl, exists chunks text body,
       xml_bytechunks decl (events_of t) = (chunks, Finished) /\ concat chunks = (if decl then xml_declaration else []) ++ body /\
       utf8_decode body = Some text /\ xml_read text = Some (read_back [] (events_of t))).
Proof.
  intros time_text repr object version embedbin formats summary_bytes summary docinfo sections HV HD HS HT [D1 D2 (dout & D3 & D4 & D5)] HF.
  assert (BY : forall records, Forall (fun r => all_bytes (r_payload r) /\ 0 <= r_level r) records -> Forall (fun r => all_bytes (r_payload r)) records) by (intros records; apply Forall_impl; tauto).
  destruct (summary_gives repr object time_text formats summary_bytes summary HS HT) as (s & S1 & S2).
  destruct (docinfo_gives repr object version embedbin docinfo dout HV (BY _ D1) D2 HD D3 D4 D5) as (ds & DS & DG).
  destruct (read_models version docinfo D1 D2 dout Finished D3) as (nd & END).
  assert (SS : exists ns ms ss, Forall2 (section_made repr object version) sections ss /\
    (forall k, map (fun s => (fst s, stream_models (ns + k) version (snd s, Finished))) sections = ms) /\
    gives repr object (chain (map (fun s => section_mevents (Some (fst s)) version (snd s)) ms)) ss).
  { clear - HF BY. induction HF as [|[sid records] sections [F1 F2 (out & f & F3 & F4 & F5)] HF IH].
    - exists 0%nat, [], []. split; [constructor|]. split; [reflexivity|]. apply gives_none.
    - destruct IH as (ns & ms & ss & FS & EN & GS). cbn [snd] in *. destruct (read_models version records F1 F2 out Finished F3) as (m & EM).
      destruct (section_gives repr object version records out f sid (BY _ F1) F2 F3 F4 F5) as (t & T1 & T2).
      exists (m + ns)%nat, ((sid, (out, Finished)) :: ms), (t :: ss). split; [constructor; assumption|]. split.
      + intros k. cbn [map fst snd]. rewrite <- Nat.add_assoc, EM. f_equal. replace (m + (ns + k))%nat with (ns + (m + k))%nat by lia. apply EN.
      + cbn [map chain fst snd]. exact (gives_then repr object _ [t] _ _ T2 GS). }
  destruct SS as (ns & ms & ss & FS & EN & GS).
  assert (HX : exists v, version_text version v /\ startelement (fun v => repr (view_of v)) object 4 [] hwpdoc_model [("version", VTuple (map VInt version))] = ([XStart (zs "HwpDoc") [(zs "version", v)]], Finished)).
  { destruct HV as [HL _]. destruct version as [|a [|b [|c [|d [|]]]]]; try discriminate HL. exists (fmt_d a ++ zs "." ++ fmt_d b ++ zs "." ++ fmt_d c ++ zs "." ++ fmt_d d).
    split; [constructor; apply decimal_ok|]. reflexivity. }
  destruct HX as (v & VT & VS).
  set (T := Elem (zs "HwpDoc") [(zs "version", v)] [] [s; Elem (zs "DocInfo") [] [] ds; Elem (zs "BodyText") [] [] ss]).
  assert (ALL : gives repr object (wrap_modelevents (mkMitem [] hwpdoc_model [("version", VTuple (map VInt version))])
     (chain [summary_events time_text summary; docinfo_events embedbin version (dout, Finished); bodytext_events version ms])) [T]).
  { unfold T. apply gives_wrap; [exact VS|reflexivity|apply xml_nameb_sound; reflexivity|constructor; [intros []|constructor]|constructor; [apply xml_nameb_sound; reflexivity|constructor]|reflexivity|].
    cbn [chain]. apply (gives_then repr object _ [s]); [exact S2|]. apply (gives_then repr object _ [_]); [exact DG|].
    apply (gives_then repr object _ [_] _ []); [|apply gives_none]. unfold bodytext_events.
    apply gives_wrap; [reflexivity|reflexivity|apply xml_nameb_sound; reflexivity|constructor|constructor|reflexivity|exact GS]. }
  exists (nd + ns)%nat, s, ds, ss, v.
  assert (RES : exists t after, numbered [] T t after /\ well_named t /\ forall k, xmlevents (fun v => repr (view_of v)) object 4
       (hwp5file_events time_text embedbin version summary (stream_models (nd + ns + k) version (docinfo, Finished))
          (map (fun s => (fst s, stream_models (nd + ns + k) version (snd s, Finished))) sections)) = (events_of t, Finished)).
  { destruct ALL as (f & EF & EO & WF). destruct (ids_written _ _ _ _ _ WF []) as (ts' & after & N & W & E). inversion N as [|? ? t ? ? us ? N1 N2]; subst. inversion N2; subst.
    exists t, after. split; [exact N1|]. split; [inversion W; assumption|]. intros k.
    replace (nd + ns + k)%nat with (ns + (nd + k))%nat by lia. rewrite EN. replace (ns + (nd + k))%nat with (nd + (ns + k))%nat by lia. rewrite END.
    unfold hwp5file_events. rewrite EO. specialize (E [] Finished). rewrite app_nil_r in E. change (counters []) with (0, 0, 0, 0) in E. unfold xmlevents. fold (to_xml_of (fun v => repr (view_of v)) object 4).
    match goal with |- modelevents_to_xmlevents ?a ?b ?c (fst ?g) (snd ?g) = _ => change (modelevents_to_xmlevents a b c (fst g) (snd g)) with (to_xml_of a b c g) end.
    rewrite (ends_irrelevant _ _ _ _ _ Finished EF), E. unfold gapp. cbn [fst snd give_ids flat_map to_xml_of modelevents_to_xmlevents]. rewrite !app_nil_r. reflexivity. }
  destruct RES as (t & after & N & W & E). exists t, after. repeat (split; [assumption|]). split; [|exact (element_bytes t W)].
  intros k fuel. exact (to_xml_more _ _ 4 _ _ _ (E k) fuel).
Qed.
Theorem whole_document : forall time_text repr object version embedbin formats summary_bytes summary docinfo sections,
  version_ok version -> (forall read n d, embedbin = Some read -> read n = Ok d -> all_bytes d) ->
  stream_reads_as formats summary_bytes summary -> (forall set, In set (pss_sets summary) -> times_ok time_text (ps_properties set)) ->
  docinfo_fits version embedbin docinfo -> Forall (fun s => section_fits version (snd s)) sections ->
  exists n s ds ss v t after,
    summary_element time_text summary s /\ docinfo_shown repr object version embedbin docinfo ds /\
    Forall2 (section_shown repr object version) sections ss /\ version_text version v /\
    numbered [] (Elem (zs "HwpDoc") [(zs "version", v)] [] [s; Elem (zs "DocInfo") [] [] ds; Elem (zs "BodyText") [] [] ss]) t after /\
    well_named t /\
    (forall k fuel, xmlevents (fun v => repr (view_of v)) object (4 + fuel)
       (hwp5file_events time_text embedbin version summary (stream_models (n + k) version (docinfo, Finished))
          (map (fun s => (fst s, stream_models (n + k) version (snd s, Finished))) sections)) = (events_of t, Finished)) /\
    (writable_text t -> forall decl, exists chunks text body,
       xml_bytechunks decl (events_of t) = (chunks, Finished) /\ concat chunks = (if decl then xml_declaration else []) ++ body /\
       utf8_decode body = Some text /\ xml_read text = Some (read_back [] (events_of t))).
Proof.
  intros time_text repr object version embedbin formats summary_bytes summary docinfo sections H1 H2 H3 H4 H5 H6.
  destruct (made_document time_text repr object version embedbin formats summary_bytes summary docinfo sections H1 H2 H3 H4 H5 H6) as (n & s & ds & ss & v & t & after & A1 & A2 & A3 & A4).
  exists n, s, ds, ss, v, t, after. split; [exact A1|]. split; [exact A2|]. split; [|exact A4]. clear - A3. induction A3; constructor; [now apply made_shown|assumption].
Qed.
