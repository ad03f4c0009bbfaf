(** The element of a record that was read. *)
From Coq Require Import ZArith String List Bool Lia Permutation.
From Verif Require Import Base BaseFacts Model_Text Model_Dataio Model_Record Model_ParaText Model_Bintype Model_Classes Model_Layouts Model_Models
  Model_XmlText Model_XmlElement Spec_Dataio Spec_Oleprops Spec_Bintype Spec_Models Spec_Layouts Spec_XmlElement
  Proof_Text Proof_Dataio Proof_OleText Proof_Bintype Proof_Models Proof_Embed Proof_Layouts Proof_Fits Proof_XmlElement Proof_XmlEntry Proof_XmlParts.
Import ListNotations.
Open Scope string_scope.
Open Scope list_scope.
Open Scope Z_scope.

Definition declared (c : string) : bool := match class_fields c with Some _ => true | None => false end.
Definition type_classes (T : string) : list string := rev (filter declared (mro class_mro_fuel T)).
Definition faces_of (c : string) : faces := match dict_get c class_faces with Some fs => fs | None => [] end.
Definition type_parts (T : string) : list (list field_spec * faces) := map (fun c => (record_fields c, faces_of c)) (type_classes T).

Lemma fields_are : forall c, members_of (match class_fields c with Some l => l | None => [] end) = as_members (record_fields c).
Proof. intros c. pose proof (class_type_is c) as E. rewrite as_type_fields in E. unfold class_type in E. injection E as E. exact E. Qed.
Lemma record_model_is : forall T, record_model T = Struct_type T (map (fun p => (as_members (fst p), snd p)) (type_parts T)).
Proof.
  intros T. unfold record_model, type_parts. f_equal. rewrite map_map. cbn [fst snd]. unfold type_classes, declared.
  apply map_ext. intros c. rewrite fields_are. reflexivity.
Qed.
Lemma undeclared : forall c, declared c = false -> record_fields c = [].
Proof.
  intros c H. pose proof (fields_are c) as E. unfold declared in H. destruct (class_fields c); [discriminate|].
  destruct (record_fields c) as [|[[[? ?] ?] ?] ?]; [reflexivity|discriminate].
Qed.

(** ** The declarations are as they have to be *)
Definition classes_of (base T : string) : list string := base :: (if String.eqb T base then [] else refinement_layouts T).
Fixpoint same_strings (a b : list string) : bool :=
  match a, b with [], [] => true | x :: a, y :: b => String.eqb x y && same_strings a b | _, _ => false end.
Definition pair_ok (base T : string) : bool :=
  same_strings (filter declared (classes_of base T)) (type_classes T) &&
  distinct_names (map fname (concat (map record_fields (classes_of base T)))) &&
  (existsb (String.eqb T) unwritten || ok 4 T (type_parts T)).
Definition pairs : list (string * string) :=
  map (fun t => (snd t, snd t)) tag_models ++ [("UnknownTagModel", "UnknownTagModel")] ++
  map (fun t => ("Control", fst t)) control_ids ++
  map (fun t => ("ListHeader", t)) ["TableCaption"; "TableCell"; "GShapeObjectCaption"; "TextboxParagraphList"; "HeaderParagraphList"; "FooterParagraphList"] ++
  map (fun t => ("ControlData", t)) ["BookmarkControlData"; "FieldClickHereData"; "SectionDefData"].
Lemma pairs_ok : forallb (fun p => pair_ok (fst p) (snd p)) pairs = true.
Proof. vm_compute. reflexivity. Qed.

Lemma plain_records : forall c, plain_items (Fields (record_fields c)) = true.
Proof.
  intros c. unfold record_fields.
  match goal with |- context [find ?f ?l] => destruct (find f l) as [[n fs]|] eqn:F; [|reflexivity]; apply find_some in F as [F _];
    assert (L : forallb (fun e => plain_items (Fields (snd e))) l = true) by (vm_compute; reflexivity) end.
  rewrite forallb_forall in L. exact (L _ F).
Qed.
Lemma pair_of : forall base T, In (base, T) pairs -> pair_ok base T = true.
Proof. intros base T H. pose proof pairs_ok as P. rewrite forallb_forall in P. exact (P _ H). Qed.
Lemma tag_pair : forall tagid, In (type_of_tag tagid, type_of_tag tagid) pairs.
Proof.
  intros tagid. rewrite <- model_type_is. unfold model_type. destruct (zdict_get tagid tag_models) as [t|] eqn:E.
  - apply in_or_app. left. assert (I : exists k, In (k, t) tag_models).
    { revert E. induction tag_models as [|[k t'] l IH]; intros E; [discriminate|]. cbn [zdict_get] in E. destruct (tagid =? k).
      - injection E as ->. exists k. left. reflexivity.
      - destruct (IH E) as [k' I]. exists k'. right. exact I. }
    destruct I as [k I]. apply in_map_iff. exists (k, t). split; [reflexivity|exact I].
  - apply in_or_app. right. left. reflexivity.
Qed.
Lemma refined_pair : forall parent base d t, refined parent base d (Ok (Some t)) -> In (base, t) pairs.
Proof.
  intros parent base d t H. unfold pairs. rewrite !in_app_iff. right. right.
  inversion H; subst; try (right; left; cbn; tauto); try (right; right; cbn; tauto).
  left. match goal with K : is_control_type _ _ |- _ => destruct K as (s & I & _) end. apply in_map_iff. exists (t, s). split; [reflexivity|exact I].
Qed.

Section Record.
  Variable version : list Z.
  Variable parent : node.

  Lemma layout_fits : forall c s tr s' d, all_bytes (s_rest s) -> layout version parent c s = (tr, s', Some (Ok d)) ->
    fit_fields version parent (record_fields c) [] d /\ all_bytes (s_rest s').
  Proof.
    intros c s tr s' d HB H. unfold layout in H. apply andthen_ok in H as (tr1 & s1 & x & tr2 & E & H). rewrite class_type_is in E.
    destruct (reads_fit version parent _ (plain_records c) (records_ok c) None [] None s tr1 s1 x (or_intror eq_refl) HB E) as (F & B & _).
    destruct x as [[]|]; try discriminate. unfold ret in H. inversion H; subst. split; [|exact B]. inversion F; subst. assumption.
  Qed.
  Lemma fit_fields_names : forall fs d, NoDup (map fname fs) -> fit_fields version parent fs [] d -> under (map fst d) (map fname fs).
  Proof.
    intros fs d HN H. destruct (kept_fit version parent "" fs [] d H HN) as (l & E & K). cbn [app] in E. subst l.
    exact (fit_names _ _ _ _ _ _ (K d (kept_self "" d))).
  Qed.
  Lemma layouts_fit : forall cs d s tr s' D, all_bytes (s_rest s) -> NoDup (map fst d ++ map fname (concat (map record_fields cs))) ->
    layouts version parent cs d s = (tr, s', Some (Ok D)) ->
    exists ds, D = d ++ concat ds /\ Forall2 (fun c e => fit_fields version parent (record_fields c) [] e) cs ds.
  Proof.
    induction cs as [|c cs IH]; intros d s tr s' D HB HN H; cbn [layouts] in H.
    - unfold ret in H. inversion H; subst. exists []. split; [symmetry; apply app_nil_r|constructor].
    - apply andthen_ok in H as (tr1 & s1 & e & tr2 & E & H). destruct (layout_fits c s tr1 s1 e HB E) as (F & B).
      cbn [map concat] in HN. rewrite map_app, app_assoc in HN. pose proof (proj1 (proj1 (nodup_app _ _) HN)) as N1.
      assert (U : under (map fst e) (map fname (record_fields c))).
      { apply fit_fields_names; [|exact F]. apply nodup_app in N1. apply N1. }
      assert (U2 : under (map fst d ++ map fst e) (map fst d ++ map fname (record_fields c))) by (apply under_app; [apply under_refl|exact U]).
      assert (O : overwritten d e = d ++ e) by (apply fold_sets; rewrite map_app; apply (proj2 U2); exact N1).
      rewrite O in H. destruct (IH (d ++ e) s1 tr2 s' D B) as (ds & -> & G); [|exact H|].
      + rewrite map_app. apply (proj2 (under_app _ _ _ _ U2 (under_refl _)) HN).
      + exists (e :: ds). split; [cbn [concat]; rewrite <- app_assoc; reflexivity|constructor; assumption].
  Qed.

  Lemma kept_parts : forall T cs ds, Forall2 (fun c e => fit_fields version parent (record_fields c) [] e) cs ds ->
    NoDup (map fname (concat (map record_fields cs))) -> forall A, kept T (concat ds) A ->
    exists ls, A = concat ls /\ Forall2 (fun c l => fit_list version parent T (record_fields c) [] l) cs ls.
  Proof.
    intros T cs ds H. induction H as [|c e cs ds F H IH]; intros HN A K; cbn [concat] in K.
    - inversion K; subst. exists []. split; [reflexivity|constructor].
    - apply kept_app in K as (a & b & -> & K1 & K2). cbn [map concat] in HN. rewrite map_app in HN. apply nodup_app in HN as (N1 & N2 & _).
      destruct (IH N2 b K2) as (ls & -> & G). destruct (kept_fit version parent T _ [] e F N1) as (l & E & KF). cbn [app] in E. subst l.
      exists (a :: ls). split; [reflexivity|constructor; [apply KF; exact K1|exact G]].
  Qed.
  Lemma declared_parts : forall T cs ls, Forall2 (fun c l => fit_list version parent T (record_fields c) [] l) cs ls ->
    exists ls', concat ls' = concat ls /\
      Forall2 (fun p l => fit_list version parent T (fst p) [] l) (map (fun c => (record_fields c, faces_of c)) (filter declared cs)) ls'.
  Proof.
    intros T cs ls H. induction H as [|c l cs ls F H (ls' & E & G)]; [exists []; split; [reflexivity|constructor]|].
    cbn [filter]. destruct (declared c) eqn:D.
    - exists (l :: ls'). split; [cbn; rewrite E; reflexivity|]. cbn [map]. constructor; [exact F|exact G].
    - exists ls'. split; [|exact G]. rewrite (undeclared c D) in F. inversion F; subst. exact E.
  Qed.
  Lemma declared_fields : forall cs, concat (map record_fields (filter declared cs)) = concat (map record_fields cs).
  Proof.
    induction cs as [|c cs IH]; [reflexivity|]. cbn [filter]. destruct (declared c) eqn:D; cbn [map concat]; [rewrite IH; reflexivity|].
    rewrite (undeclared c D). exact IH.
  Qed.
  Lemma same_strings_eq : forall a b, same_strings a b = true -> a = b.
  Proof.
    induction a as [|x a IH]; intros [|y b] H; try discriminate; [reflexivity|]. cbn in H. apply andb_prop in H as [H1 H2].
    apply String.eqb_eq in H1. subst. f_equal. apply IH. exact H2.
  Qed.
End Record.

Lemma record_layouts : forall version parent tagid payload m, all_bytes payload -> reads version parent tagid payload (Ok m) ->
  exists base, base = type_of_tag tagid /\ pair_ok base (m_type m) = true /\
  exists tr s, layouts version parent (classes_of base (m_type m)) [] (open_bytes payload) = (tr, s, Some (Ok (m_content m))).
Proof.
  intros version parent tagid payload m HB HR.
  assert (OV : forall c s tr s' d, all_bytes (s_rest s) -> layout version parent c s = (tr, s', Some (Ok d)) -> NoDup (map fname (record_fields c)) -> overwritten [] d = d).
  { intros c s tr s' d HB' E HN. destruct (layout_fits version parent c s tr s' d HB' E) as [F _].
    apply (fold_sets d []). cbn [app]. apply (proj2 (fit_fields_names version parent _ d HN F)). exact HN. }
  exists (type_of_tag tagid). split; [reflexivity|]. inversion HR as [d tr s E R|d0 d tr0 tr1 s0 s t E R L| | |]; subst; cbn [m_type m_content].
  - pose proof (pair_of _ _ (tag_pair tagid)) as P. split; [exact P|]. unfold classes_of. rewrite String.eqb_refl. cbn [layouts]. rewrite E. cbn [andthen].
    unfold pair_ok in P. apply andb_prop in P as [P _]. apply andb_prop in P as [_ P]. apply distinct_names_sound in P.
    unfold classes_of in P. rewrite String.eqb_refl in P. cbn [map concat] in P. rewrite app_nil_r in P.
    rewrite (OV _ (open_bytes payload) _ _ _ HB E P). unfold ret. eauto.
  - pose proof (pair_of _ _ (refined_pair _ _ _ _ R)) as P. split; [exact P|]. unfold classes_of. unfold pair_ok, classes_of in P. pose proof (refined_differs _ _ _ _ R) as ND.
    rewrite ND in P |- *. cbn [layouts]. rewrite E. cbn [andthen].
    apply andb_prop in P as [P _]. apply andb_prop in P as [_ P]. apply distinct_names_sound in P. cbn [map concat] in P. rewrite map_app in P. apply nodup_app in P as (P & _).
    rewrite (OV _ (open_bytes payload) _ _ _ HB E P). rewrite L. eauto.
Qed.
(** The members of a record are those of its declarations. *)
Lemma record_fits : forall version parent tagid payload m, all_bytes payload -> reads version parent tagid payload (Ok m) ->
  exists ds, m_content m = concat ds /\ Forall2 (fun c e => fit_fields version parent (record_fields c) [] e) (classes_of (type_of_tag tagid) (m_type m)) ds.
Proof.
  intros version parent tagid payload m HB HR. destruct (record_layouts _ _ _ _ _ HB HR) as (base & EB & P & tr & s & E).
  unfold pair_ok in P. apply andb_prop in P as [P P3]. apply andb_prop in P as [P1 P2]. apply distinct_names_sound in P2.
  apply layouts_fit in E as (ds & ED & F); [|exact HB|exact P2]. subst base. exists ds. split; [exact ED|exact F].
Qed.

Theorem record_element : forall repr object version parent tagid payload m A X fuel, all_bytes payload ->
  reads version parent tagid payload (Ok m) -> ~ In (m_type m) unwritten -> kept (m_type m) (m_content m) A ->
  addable (m_type m) (record_parts tagid (m_type m)) (views X) ->
  exists t, startelement (fun v => repr (view_of v)) object (4 + fuel) version (record_model (m_type m)) (A ++ X) = (opening t, Finished) /\
            Spec_XmlElement.element repr object (m_type m) (views (A ++ X)) t.
Proof.
  intros repr object version parent tagid payload m A X fuel HB HR HU HK HX.
  destruct (record_layouts _ _ _ _ _ HB HR) as (base & EB & P & tr & s & E). unfold pair_ok in P. apply andb_prop in P as [P P3]. apply andb_prop in P as [P1 P2].
  apply same_strings_eq in P1. apply distinct_names_sound in P2. apply orb_prop in P3 as [P3|P3]; [apply in_existsb in P3; contradiction|].
  apply layouts_fit in E as (ds & ED & F); [|exact HB|exact P2]. cbn [app] in ED. rewrite ED in HK.
  destruct (kept_parts version parent (m_type m) _ ds F P2 A HK) as (ls & -> & FL).
  destruct (declared_parts version parent (m_type m) _ ls FL) as (ls' & EL & FL'). rewrite P1 in FL'. change (map (fun c => (record_fields c, faces_of c)) (type_classes (m_type m))) with (type_parts (m_type m)) in FL'.
  assert (HX' : addable (m_type m) (map fst (type_parts (m_type m))) (views X)).
  { assert (C : concat (map fst (type_parts (m_type m))) = concat (record_parts tagid (m_type m))).
    { unfold type_parts. rewrite map_map. cbn [fst]. rewrite <- P1, declared_fields, EB. reflexivity. }
    unfold addable, member_names, possible_names in *. rewrite C. exact HX. }
  rewrite <- EL. rewrite record_model_is.
  exact (ok_good repr object version parent 4 fuel _ _ P3 ls' X FL' HX').
Qed.
