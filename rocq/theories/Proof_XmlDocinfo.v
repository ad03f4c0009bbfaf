(** The document information as one element. *)
From Coq Require Import ZArith String List Bool Lia Permutation.
From Verif Require Import Base BaseFacts Model_Text Model_Dataio Model_Record Model_Tree Model_ParaText Model_Bintype Model_Classes Model_Layouts Model_Models
  Model_Embed Model_XmlText Model_XmlElement Spec_Tree Spec_XmlText Spec_Bintype Spec_Models Spec_Layouts Spec_Embed Spec_XmlElement
  Proof_Tree Proof_XmlText Proof_Models Proof_Layouts Proof_Embed Proof_XmlElement Proof_XmlEntry Proof_XmlParts Proof_XmlRecord Proof_XmlNames Proof_XmlDocument.
Import ListNotations.
Open Scope string_scope.
Open Scope list_scope.
Open Scope Z_scope.

(** ** More fuel changes nothing *)
Lemma gmap_same : forall {A B} (f g : A -> gen B) l out, gmap f l = (out, Finished) ->
  (forall x o, In x l -> f x = (o, Finished) -> g x = (o, Finished)) -> gmap g l = (out, Finished).
Proof.
  intros A B f g l. induction l as [|x l IH]; intros out H HF; cbn [gmap] in H |- *; [exact H|].
  apply gthen_fst in H as (a & b & Ha & Hb & ->). rewrite (HF x a (or_introl eq_refl) Ha), (IH b Hb); [reflexivity|]. intros y o HI. apply HF. right. exact HI.
Qed.
Lemma start_more : forall py_repr object k version m attributes out, startelement py_repr object k version m attributes = (out, Finished) ->
  forall j, startelement py_repr object (k + j) version m attributes = (out, Finished).
Proof.
  intros py_repr object. induction k as [|k IH]; intros version m attributes out H j; cbn [startelement] in H; [discriminate|].
  cbn [Nat.add startelement].
  match type of H with match ?x with _ => _ end = _ => destruct x as [l|]; [|discriminate] end.
  destruct (separate_plainvalues l [] []) as [complex plain].
  match type of H with match ?x with _ => _ end = _ => destruct x as [[text attrs]|] eqn:E; [|discriminate] end.
  apply gapp_fst in H as (ko & EG & ->).
  assert (EL : forall v m a o, gthen (startelement py_repr object k v m a) ([XEnd (zs (model_name m))], Finished) = (o, Finished) ->
               gthen (startelement py_repr object (k + j) v m a) ([XEnd (zs (model_name m))], Finished) = (o, Finished)).
  { intros v m' a o H. apply gthen_fst in H as (x & y & Hx & Hy & ->). rewrite (IH _ _ _ _ Hx j). inversion Hy; subst. reflexivity. }
  match goal with |- gapp ?a (gmap ?g complex) = _ => assert (G : gmap g complex = (ko, Finished)); [|rewrite G; reflexivity] end.
  eapply gmap_same; [exact EG|]. intros [name [a v]] o _ HF.
  assert (ARR : forall ms cls fs l0,
    gapp [XStart (zs "Array") [(zs "name", zs name)]] (gthen (gmap (fun i => match i with
            | VDict d => gthen (startelement py_repr object k version (Struct_type cls [(ms, fs)]) d) ([XEnd (zs (model_name (Struct_type cls [(ms, fs)])))], Finished)
            | _ => ([], Failed TypeError) end) l0) ([XEnd (zs "Array")], Finished)) = (o, Finished) ->
    gapp [XStart (zs "Array") [(zs "name", zs name)]] (gthen (gmap (fun i => match i with
            | VDict d => gthen (startelement py_repr object (k + j) version (Struct_type cls [(ms, fs)]) d) ([XEnd (zs (model_name (Struct_type cls [(ms, fs)])))], Finished)
            | _ => ([], Failed TypeError) end) l0) ([XEnd (zs "Array")], Finished)) = (o, Finished)).
  { intros ms cls fs l0 H. apply gapp_fst in H as (b & H & ->). apply gthen_fst in H as (x & y & Hx & Hy & ->).
    assert (G : gmap (fun i => match i with
            | VDict d => gthen (startelement py_repr object (k + j) version (Struct_type cls [(ms, fs)]) d) ([XEnd (zs (model_name (Struct_type cls [(ms, fs)])))], Finished)
            | _ => ([], Failed TypeError) end) l0 = (x, Finished)).
    { eapply gmap_same; [exact Hx|]. intros [] oi _ HI; try discriminate. apply EL. exact HI. }
    rewrite G. inversion Hy; subst. reflexivity. }
  destruct v as [v|]; [|discriminate]. destruct v; try discriminate.
  - destruct (item_of a) as [[ti fi]|]; [|discriminate]. destruct ti; destruct fi; try discriminate; try exact HF; exact (ARR _ _ _ _ HF).
  - destruct (item_of a) as [[ti fi]|]; [|discriminate]. destruct ti; destruct fi; try discriminate; try exact HF; exact (ARR _ _ _ _ HF).
  - destruct a as [t f| |]; try discriminate; [|exact (EL _ _ _ _ HF)]. destruct t; try discriminate. destruct f; try discriminate. exact (EL _ _ _ _ HF).
Qed.
Lemma to_xml_more : forall py_repr object k evs o out, modelevents_to_xmlevents py_repr object k evs o = (out, Finished) ->
  forall j, modelevents_to_xmlevents py_repr object (k + j) evs o = (out, Finished).
Proof.
  intros py_repr object k. induction evs as [|[it|it] evs IH]; intros o out H j; cbn [modelevents_to_xmlevents] in H |- *; [exact H| |].
  - apply gthen_fst in H as (a & b & Ha & Hb & ->). rewrite (start_more _ _ _ _ _ _ _ Ha j), (IH _ _ Hb j). reflexivity.
  - unfold gcons in H. destruct (modelevents_to_xmlevents py_repr object k evs o) as [b ob] eqn:E. cbn in H. inversion H; subst. rewrite (IH _ _ E j). reflexivity.
Qed.

(** ** Levels of models *)
Lemma models_levels : forall version o records done out o', models_of version o done records out o' ->
  forall b prev, (exists pre rp mp, done = pre ++ [(rp, mp)] /\ r_level rp = prev) -> (exists r0 m0 after, done = (r0, m0) :: after /\ r_level r0 = b) ->
  legal_from b prev (map (fun rm => r_level (fst rm)) out).
Proof.
  intros version o records done out o' H.
  induction H as [done|done r rest parent m out o' F P R M IH|done r rest parent e F P R|done r rest D|done r rest A]; intros b prev (pre & rp & mp & E1 & L1) (r0 & m0 & after & E2 & L2); cbn [map legal_from fst]; try exact I.
  destruct F as [F1 F2]. split.
  - split.
    + destruct (Z_lt_ge_dec (r_level r) b); [|lia]. exfalso. apply F2. exists r0, m0, after. split; [exact E2|lia].
    + destruct (Z_lt_ge_dec (prev + 1) (r_level r)); [|lia]. exfalso. apply F1. exists pre, rp, mp. split; [exact E1|lia].
  - apply IH.
    + exists done, r, m. split; reflexivity.
    + exists r0, m0, (after ++ [(r, m)]). rewrite E2. split; [reflexivity|exact L2].
Qed.
Lemma models_legal : forall version o records out o', models_of version o [] records out o' ->
  Spec_Tree.legal (map (fun rm => r_level (fst rm)) out).
Proof.
  intros version o records out o' H. inversion H as [|? r rest parent m out' ? F P R M| | |]; subst; cbn [map Spec_Tree.legal fst]; try exact I.
  apply (models_levels _ _ _ _ _ _ M).
  - exists [], r, m. split; reflexivity.
  - exists r, m, []. split; reflexivity.
Qed.

Lemma models_bytes : forall version o records done out o', Forall (fun r => all_bytes (r_payload r)) records ->
  models_of version o done records out o' -> forall r m, In (r, m) out -> all_bytes (r_payload r).
Proof.
  intros version o records done out o' HB HM r m HI. destruct (each_record _ _ _ _ _ _ HM) as (E1 & _). rewrite Forall_forall in HB. apply HB.
  assert (HI' : In r (map fst out)) by (apply in_map_iff; exists (r, m); auto).
  rewrite E1 in HI'. revert HI'. generalize (List.length out). intros n. clear. revert records.
  induction n as [|n IH]; intros [|x l] H; cbn in H; try contradiction. destruct H as [->|H]; [left; reflexivity|right; auto].
Qed.

Fixpoint forest_map {A B} (f : A -> B) (t : forest A) : forest B :=
  match t with FNil => FNil | FCons x k n => FCons (f x) (forest_map f k) (forest_map f n) end.
Lemma preorder_map : forall A B (g : A -> B) f d, preorder d (forest_map g f) = map (fun lx => (fst lx, g (snd lx))) (preorder d f).
Proof. intros A B g. induction f as [|x k IHk n IHn]; intros d; [reflexivity|]. cbn [forest_map preorder map fst snd]. rewrite map_app, IHk, IHn. reflexivity. Qed.

Lemma iter_finished : forall A (items : list (Z * A)) base stack, prefix_event_iter base stack items Finished = prefix_event_loop base stack items.
Proof.
  intros A. induction items as [|[l x] items IH]; intros base stack; [reflexivity|]. cbn [prefix_event_iter prefix_event_loop].
  destruct (pop_to _ stack) as [out [s'|e]]; [|reflexivity]. destruct (check_level _ s'); [reflexivity|]. rewrite IH. reflexivity.
Qed.

(** The items of a forest, in order. *)
Fixpoint items_of {A} (f : forest A) : list A :=
  match f with FNil => [] | FCons x k n => x :: items_of k ++ items_of n end.
Lemma preorder_items : forall A (f : forest A) d, map snd (preorder d f) = items_of f.
Proof. intros A. induction f as [|x k IHk n IHn]; intros d; [reflexivity|]. cbn. rewrite map_app, IHk, IHn. reflexivity. Qed.

(** ** The types of the records *)
Lemma bindata_tag : forall version parent tagid payload m, reads version parent tagid payload (Ok m) -> m_type m = "BinData" -> tagid = 18.
Proof.
  intros version parent tagid payload m H T. inversion H as [d tr s E R|d0 d tr0 tr1 s0 s t E R L| | |]; subst; cbn [m_type] in T.
  - clear - T. unfold type_of_tag in T.
    repeat match type of T with match ?x with _ => _ end = _ => destruct x end; try discriminate T; reflexivity.
  - exfalso. subst t. inversion R as [? ? ? C HI| | | | | | | | | | | | | | |]; subst. destruct HI as (s1 & HI & _). unfold control_ids in HI. cbn in HI.
    repeat match type of HI with _ \/ _ => destruct HI as [HI|HI] end; try discriminate; contradiction.
Qed.

Lemma shown_kept : forall embedbin version parent tagid payload m attrs, reads version parent tagid payload (Ok m) ->
  shown_members embedbin m attrs -> kept (m_type m) (m_content m) attrs.
Proof.
  assert (ALL : forall t l, kept t l l) by (intros t l; induction l; constructor; assumption).
  intros embedbin version parent tagid payload m attrs HR [EN|read attrs' ES HE]; [apply ALL|].
  inversion HE as [e HO|a flags content HB HF|a a' flags id ext name data t HF HN HRd HT HB HA|]; subst; try apply ALL.
  destruct HB as (word & groups & nm & V & G & ->). cbn [hd]. apply kp_same.
  apply (kp_data _ (embedded_content id ext)); [reflexivity| |constructor].
  split.
  - cbn. constructor; [intros [HH|[]]; discriminate HH|]. constructor; [intros []|constructor].
  - constructor; [split; [left; reflexivity|eexists; reflexivity]|]. constructor; [split; [right; left; reflexivity|eexists; reflexivity]|constructor].
Qed.

(** ** Items, with the embedded data *)
Section Docinfo.
  Variable repr : view -> list Z.
  Variable object : list Z.
  Variable fuel : nat.
  Variable version : list Z.
  Variable embedbin : option (list Z -> res (list Z)).

  Definition item_of_record (rm : record * model) : mitem := mkMitem version (record_model (m_type (snd rm))) (m_content (snd rm)).
  Definition embed_part (evs : list (event mitem)) (o : outcome) : gen (event mitem) :=
    match embedbin with Some read => embed_items read evs o | None => (evs, o) end.
  Definition to_xml (g : gen (event mitem)) : gen xevent := modelevents_to_xmlevents (fun v => repr (view_of v)) object fuel (fst g) (snd g).

  Lemma to_xml_end : forall it g, to_xml (gcons (EEnd it) g) = gcons (XEnd (zs (model_name (mi_model it)))) (to_xml g).
  Proof. intros it [evs o]. reflexivity. Qed.
  Lemma to_xml_start : forall it g, to_xml (gcons (EStart it) g) =
    gthen (startelement (fun v => repr (view_of v)) object fuel (mi_version it) (mi_model it) (mi_attributes it)) (to_xml g).
  Proof. intros it [evs o]. reflexivity. Qed.
  Lemma embed_end : forall it evs o, embed_part (EEnd it :: evs) o = gcons (EEnd it) (embed_part evs o).
  Proof. intros it evs o. unfold embed_part. destruct embedbin; reflexivity. Qed.

  (** What is known of one record. *)
  Definition record_starts (rm : record * model) : Prop := exists attrs t,
    (forall evs o, embed_part (EStart (item_of_record rm) :: evs) o = gcons (EStart (mkMitem version (record_model (m_type (snd rm))) attrs)) (embed_part evs o)) /\
    shown_members embedbin (snd rm) attrs /\
    startelement (fun v => repr (view_of v)) object fuel version (record_model (m_type (snd rm))) attrs = (opening t, Finished) /\
    root_name t = zs (m_type (snd rm)) /\
    Spec_XmlElement.element repr object (m_type (snd rm)) (views attrs) t.

  Lemma records_written : forall f, (forall rm, In rm (items_of f) -> record_starts rm) ->
    exists ts, written (shown_record repr object embedbin) f ts /\
      forall rest o, to_xml (embed_part (walk (forest_map item_of_record f) ++ rest) o) = gapp (flat_map events_of ts) (to_xml (embed_part rest o)).
  Proof.
    induction f as [|x kids IHk next IHn]; intros H.
    - exists []. split; [constructor|]. intros rest o. cbn [forest_map walk app flat_map]. destruct (to_xml _); reflexivity.
    - cbn [items_of] in H. destruct (H x (or_introl eq_refl)) as (attrs & t & EM & SM & ST & RN & EL).
      destruct IHk as (ks & WK & EK); [intros rm HI; apply H; right; apply in_or_app; left; exact HI|].
      destruct IHn as (ns & WN & EN); [intros rm HI; apply H; right; apply in_or_app; right; exact HI|].
      exists (with_children t ks :: ns). split.
      + constructor; [exists attrs; split; assumption|exact WK|exact WN].
      + intros rest o. cbn [forest_map walk app]. rewrite EM, to_xml_start. cbn [mi_version mi_model mi_attributes]. rewrite ST, gthen_fin.
        rewrite <- app_assoc. cbn [app]. rewrite EK, embed_end, to_xml_end, EN. cbn [flat_map]. rewrite more_children, RN. unfold item_of_record. cbn [mi_model].
        change (model_name (record_model (m_type (snd x)))) with (m_type (snd x)). unfold gapp, gcons. cbn [fst snd]. rewrite <- !app_assoc. reflexivity.
  Qed.
End Docinfo.

Lemma read_record_starts : forall repr object fuel version embedbin r m parent, version_ok version -> node_ok parent -> all_bytes (r_payload r) ->
  (forall read n d, embedbin = Some read -> read n = Ok d -> all_bytes d) ->
  reads version parent (r_tagid r) (r_payload r) (Ok m) -> ~ In (m_type m) unwritten ->
  (forall read x, embedbin = Some read -> ~ embedding read (mkBev true (m_type m) (m_content m)) (Raise x)) ->
  record_starts repr object (4 + fuel) version embedbin (r, m).
Proof.
  intros repr object fuel version embedbin r m parent HV HN HB HD HR HU HF.
  assert (G : exists attrs, (forall evs o, embed_part embedbin (EStart (item_of_record version (r, m)) :: evs) o =
                gcons (EStart (mkMitem version (record_model (m_type m)) attrs)) (embed_part embedbin evs o)) /\ shown_members embedbin m attrs).
  { destruct embedbin as [read|].
    - assert (EV : event_of_record (mkBev true (m_type m) (m_content m))).
      { destruct (string_dec (m_type m) "BinData") as [e|n]; [|intros Q; contradiction]. pose proof (bindata_tag _ _ _ _ _ HR e) as T. rewrite T in HR.
        exact (proj2 (bindata_record version parent (r_payload r) m true HV HN HB HR)). }
      pose proof (embed_event_ok read _ (fun n d => HD read n d eq_refl) EV) as E.
      assert (K : exists attrs, embed_event read (mkBev true (m_type m) (m_content m)) = Ok (mkBev true (m_type m) attrs)).
      { unfold embed_event in E |- *. cbn [b_start b_model b_attrs andb] in E |- *. destruct (String.eqb (m_type m) "BinData") eqn:EB; [|eexists; reflexivity].
        match type of E with embedding _ _ ?x => remember x as y eqn:EY; destruct y as [e'|x'] end.
        - exists (b_attrs e'). apply String.eqb_eq in EB. inversion E; subst; cbn [b_attrs]; reflexivity.
        - exfalso. exact (HF read x' eq_refl E). }
      destruct K as (attrs & K). rewrite K in E. exists attrs. split; [|exact (sm_embedded _ _ read attrs eq_refl E)].
      intros evs o. unfold embed_part, item_of_record. cbn [embed_items mi_model mi_attributes mi_version]. change (model_name (record_model (m_type (snd (r, m))))) with (m_type m).
      cbn [snd]. rewrite K. reflexivity.
    - exists (m_content m). split; [|constructor; reflexivity]. reflexivity. }
  destruct G as (attrs & EM & SM). pose proof (shown_kept _ _ _ _ _ _ _ HR SM) as HK.
  destruct (record_element repr object version parent (r_tagid r) (r_payload r) m attrs [] fuel HB HR HU HK) as (t & ST & EL).
  { split; [constructor|constructor]. }
  rewrite app_nil_r in ST, EL. exists attrs, t. cbn [snd]. repeat split; try assumption. inversion EL; reflexivity.
Qed.

Theorem docinfo_written : forall repr object fuel version embedbin records out, version_ok version ->
  Forall (fun r => all_bytes (r_payload r)) records -> (forall r rest, records = r :: rest -> r_level r = 0) ->
  (forall read n d, embedbin = Some read -> read n = Ok d -> all_bytes d) ->
  models_of version Finished [] records out Finished ->
  (forall r m, In (r, m) out -> ~ In (m_type m) unwritten) ->
  (forall r m read x, In (r, m) out -> embedbin = Some read -> ~ embedding read (mkBev true (m_type m) (m_content m)) (Raise x)) ->
  exists f ts, preorder 0 f = map (fun rm => (r_level (fst rm), rm)) out /\ written (shown_record repr object embedbin) f ts /\
    xmlevents (fun v => repr (view_of v)) object (4 + fuel) (docinfo_events embedbin version (out, Finished)) =
      (events_of (Elem (zs "DocInfo") [] [] ts), Finished).
Proof.
  intros repr object fuel version embedbin records out HV HB H0 HD HM HU HF.
  set (items := map (fun rm : record * model => (r_level (fst rm), rm)) out).
  assert (L : map fst items = map (fun rm => r_level (fst rm)) out) by (unfold items; rewrite map_map; reflexivity).
  destruct (legal_exists _ items) as (f & EF); [rewrite L; exact (models_legal _ _ _ _ _ HM)|].
  assert (B : match items with [] => 0 | (b, _) :: _ => b end = 0).
  { unfold items. inversion HM as [|? r rest parent m out' ? F P R M| | |]; subst; [reflexivity|]. cbn. exact (H0 r rest eq_refl). }
  rewrite B in EF. destruct (each_record _ _ _ _ _ _ HM) as (E1 & E2 & _).
  assert (EI : items_of f = out). { rewrite <- (preorder_items _ f 0), <- EF. unfold items. rewrite map_map. cbn. apply map_id. }
  destruct (records_written repr object (4 + fuel) version embedbin f) as (ts & W & EX).
  { rewrite EI. intros [r m] HI. destruct (In_nth_error _ _ HI) as (i & Hi). destruct (E2 i r m Hi) as (parent & P & R).
    apply (read_record_starts repr object fuel version embedbin r m parent); auto.
    - exact (proj2 (nearest_is _ _ _ P)).
    - exact (models_bytes _ _ _ _ _ _ HB HM r m HI).
    - exact (HU r m HI).
    - intros read x. exact (HF r m read x HI). }
  exists f, ts. split; [symmetry; exact EF|]. split; [exact W|].
  unfold xmlevents, docinfo_events, prefix_binmodels_with_event. cbn [fst snd]. rewrite iter_finished.
  assert (EP : map (fun rm : record * model => (r_level (fst rm), mkMitem version (record_model (m_type (snd rm))) (m_content (snd rm)))) out = preorder 0 (forest_map (item_of_record version) f)).
  { rewrite preorder_map, <- EF. unfold items. rewrite map_map. reflexivity. }
  rewrite EP. change (prefix_event_loop None [mkMitem [] (Other_class "") []]) with (prefix_event (mkMitem [] (Other_class "") [])). rewrite prefix_event_forest.
  cbn [fst snd]. specialize (EX [] Finished). rewrite app_nil_r in EX. unfold embed_part, to_xml in EX. cbn [fst snd modelevents_to_xmlevents] in EX.
  assert (W2 : forall g, modelevents_to_xmlevents (fun v => repr (view_of v)) object (4 + fuel) (fst g) (snd g) = (flat_map events_of ts, Finished) ->
    modelevents_to_xmlevents (fun v => repr (view_of v)) object (4 + fuel) (fst (wrap_modelevents (mkMitem [] (Other_class "DocInfo") []) g))
      (snd (wrap_modelevents (mkMitem [] (Other_class "DocInfo") []) g)) = (events_of (Elem (zs "DocInfo") [] [] ts), Finished)).
  { intros [evs o] HG. cbn [fst snd] in HG.
    assert (A : forall evs more, modelevents_to_xmlevents (fun v => repr (view_of v)) object (4 + fuel) evs o = (more, Finished) -> o = Finished /\
       modelevents_to_xmlevents (fun v => repr (view_of v)) object (4 + fuel) (evs ++ [EEnd (mkMitem [] (Other_class "DocInfo") [])]) Finished = (more ++ [XEnd (zs "DocInfo")], Finished)).
    { clear. induction evs as [|[it|it] evs IH]; intros more H; cbn [modelevents_to_xmlevents app] in H |- *.
      - inversion H; subst. split; reflexivity.
      - apply gthen_fst in H as (a & b & Ha & Hb & ->). apply IH in Hb as [-> Hb]. split; [reflexivity|]. rewrite Ha, Hb. unfold gthen, gapp. cbn [fst snd]. rewrite app_assoc. reflexivity.
      - unfold gcons in H. destruct (modelevents_to_xmlevents _ _ _ evs o) as [b ob] eqn:E. cbn [fst snd] in H. inversion H; subst. destruct (IH b eq_refl) as [-> Hb]. split; [reflexivity|]. rewrite Hb. reflexivity. }
    destruct (A _ _ HG) as [-> HE]. unfold wrap_modelevents, gthen, gapp, gcons. cbn [fst snd].
    cbn [modelevents_to_xmlevents]. rewrite HE. reflexivity. }
  destruct embedbin as [read|]; apply W2.
  - rewrite EX. unfold gapp. cbn. rewrite app_nil_r. reflexivity.
  - rewrite EX. unfold gapp. cbn. rewrite app_nil_r. reflexivity.
Qed.

(** ** As bytes *)
Lemma written_named : forall repr object embedbin f ts, written (shown_record repr object embedbin) f ts ->
  (forall rm attrs t, In rm (items_of f) -> shown_members embedbin (snd rm) attrs -> Spec_XmlElement.element repr object (m_type (snd rm)) (views attrs) t -> well_named t) ->
  Forall well_named ts.
Proof.
  intros repr object embedbin f ts H. induction H as [|x kids next t ks ts (attrs & SM & EL) HK IHK HN IHN]; intros HW; [constructor|].
  cbn [items_of] in HW. constructor.
  - apply with_named; [exact (HW x attrs t (or_introl eq_refl) SM EL)|]. apply IHK. intros rm a t' HI. apply HW. right. apply in_or_app. left. exact HI.
  - apply IHN. intros rm a t' HI. apply HW. right. apply in_or_app. right. exact HI.
Qed.

Theorem docinfo_document : forall repr object version embedbin records out, version_ok version ->
  Forall (fun r => all_bytes (r_payload r) /\ 0 <= r_level r) records -> (forall r rest, records = r :: rest -> r_level r = 0) ->
  (forall read n d, embedbin = Some read -> read n = Ok d -> all_bytes d) ->
  models_of version Finished [] records out Finished ->
  (forall r m, In (r, m) out -> ~ In (m_type m) unwritten) ->
  (forall r m read x, In (r, m) out -> embedbin = Some read -> ~ embedding read (mkBev true (m_type m) (m_content m)) (Raise x)) ->
  exists n f ts, preorder 0 f = map (fun rm => (r_level (fst rm), rm)) out /\ written (shown_record repr object embedbin) f ts /\
    (forall k fuel, xmlevents (fun v => repr (view_of v)) object (4 + fuel)
       (docinfo_events embedbin version (stream_models (n + k) version (records, Finished))) =
       (events_of (Elem (zs "DocInfo") [] [] ts), Finished)) /\
    Forall well_named ts /\
    (Forall writable_text ts -> forall decl, exists chunks text body,
       xml_bytechunks decl (events_of (Elem (zs "DocInfo") [] [] ts)) = (chunks, Finished) /\
       concat chunks = (if decl then xml_declaration else []) ++ body /\
       utf8_decode body = Some text /\ xml_read text = Some (read_back [] (events_of (Elem (zs "DocInfo") [] [] ts)))).
Proof.
  intros repr object version embedbin records out HV HB H0 HD HM HU HF.
  assert (HB1 : Forall (fun r => all_bytes (r_payload r)) records) by (revert HB; apply Forall_impl; tauto).
  assert (HB2 : Forall (fun r => 0 <= r_level r) records) by (revert HB; apply Forall_impl; tauto).
  destruct (parse_models_is version records Finished HB1) as (n & out' & o' & HM' & EP).
  destruct (models_of_fun version Finished records [] nothing_done out Finished out' o' HM HM') as [<- <-].
  destruct (docinfo_written repr object 0 version embedbin records out HV HB1 H0 HD HM HU HF) as (f & ts & EF & W & EX).
  assert (ES : forall k, stream_models (n + k) version (records, Finished) = (out, Finished)).
  { intros k. rewrite <- (EP k). apply grouping_irrelevant; assumption. }
  assert (WN : Forall well_named ts).
  { apply (written_named _ _ _ _ _ W). assert (EI : items_of f = out) by (rewrite <- (preorder_items _ f 0), EF, map_map; cbn; apply map_id). rewrite EI.
    intros [r m] attrs t HI SM EL. cbn [snd] in *. destruct (each_record _ _ _ _ _ _ HM) as (E1 & E2 & _). destruct (In_nth_error _ _ HI) as (i & Hi). destruct (E2 i r m Hi) as (parent & P & R).
    apply (record_named repr object version parent (r_tagid r) (r_payload r) m attrs [] t); try assumption.
    - apply (models_bytes _ _ _ _ _ _ HB1 HM r m HI).
    - exact (shown_kept _ _ _ _ _ _ _ R SM).
    - reflexivity.
    - rewrite app_nil_r. exact EL. }
  exists n, f, ts. split; [exact EF|]. split; [exact W|]. split; [|split; [exact WN|]].
  - intros k fuel. rewrite ES. apply (to_xml_more _ _ 4 _ _ _ EX fuel).
  - intros WT decl.
    assert (N : nested [] (events_of (Elem (zs "DocInfo") [] [] ts))).
    { pose proof (nested_elements [Elem (zs "DocInfo") [] [] ts] [] [] nested_nil) as N. cbn [flat_map] in N. rewrite !app_nil_r in N. exact N. }
    assert (WR : Forall writable (events_of (Elem (zs "DocInfo") [] [] ts))).
    { pose proof (writable_elements [Elem (zs "DocInfo") [] [] ts]) as Q. cbn [flat_map] in Q. rewrite app_nil_r in Q. apply Q.
      - constructor; [|constructor]. constructor; [apply xml_nameb_sound; reflexivity|constructor|constructor|exact WN].
      - constructor; [|constructor]. constructor; [constructor|constructor|exact WT]. }
    exact (bytes_read_back decl _ N WR).
Qed.

(** ** Ids *)
Definition id_keys : list (string * string) :=
  [("Paragraph", "paragraph_id"); ("TableControl", "table_id"); ("GShapeObjectControl", "gshape_id");
   ("ShapeComponent", "shape_id"); ("SectionDef", "section_id")].
Definition addable_key (T : string) (parts : list (list field_spec)) (key : string) : bool :=
  match form_of T key with Plain => true | _ => false end && negb (existsb (String.eqb key) (member_names parts)) &&
  negb (existsb (fun n => if list_eq_dec Z.eq_dec (attribute_name key) n then true else false) (possible_names T parts)) && negb (String.eqb key "<text>").
Lemma id_keys_ok : forallb (fun p => forallb (fun k => negb (String.eqb (fst k) (snd p)) || addable_key (snd p) (map record_fields (classes_of (fst p) (snd p))) (snd k)) id_keys) pairs = true.
Proof. vm_compute. reflexivity. Qed.
Theorem ids_addable : forall version parent tagid payload m key n, reads version parent tagid payload (Ok m) ->
  In (m_type m, key) id_keys -> addable (m_type m) (record_parts tagid (m_type m)) (views [(key, VInt n)]).
Proof.
  intros version parent tagid payload m key n HR HI.
  assert (P : In (type_of_tag tagid, m_type m) pairs).
  { inversion HR as [d tr s E R|d0 d tr0 tr1 s0 s t E R L| | |]; subst; cbn [m_type]; [apply tag_pair|exact (refined_pair _ _ _ _ R)]. }
  pose proof id_keys_ok as H. rewrite forallb_forall in H. specialize (H _ P). rewrite forallb_forall in H. specialize (H _ HI). cbn [fst snd] in H.
  rewrite String.eqb_refl in H. cbn [negb orb] in H. unfold addable_key in H. apply andb_prop in H as [H H4]. apply andb_prop in H as [H H3]. apply andb_prop in H as [H1 H2].
  apply negb_true_iff in H2, H3, H4. apply String.eqb_neq in H4.
  split; [constructor; [intros []|constructor]|]. constructor; [|constructor]. cbn [fst snd views map view_of].
  change (record_parts tagid (m_type m)) with (map record_fields (classes_of (type_of_tag tagid) (m_type m))). split; [destruct (form_of (m_type m) key); try discriminate; reflexivity|]. split.
  - intros HH. assert (existsb (String.eqb key) (member_names (map record_fields (classes_of (type_of_tag tagid) (m_type m)))) = true); [|congruence].
    apply existsb_exists. exists key. split; [exact HH|apply String.eqb_refl].
  - split; [|exact H4]. intros HH. match type of H3 with ?x = false => assert (x = true); [|congruence] end.
    apply existsb_exists. exists (attribute_name key). split; [exact HH|]. destruct (list_eq_dec _ _ _); congruence.
Qed.
