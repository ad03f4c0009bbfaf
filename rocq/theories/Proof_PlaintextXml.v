(** The text of a section, from its XML. *)
From Coq Require Import ZArith String List Bool Lia Permutation.
From Verif Require Import Base BaseFacts Model_Tree Spec_Tree Model_ParaText Spec_ParaText Model_Shape Spec_Shape Model_Lang Model_Classes Model_XmlModel.
From Verif Require Import Model_Text Model_Dataio Model_Record Model_Bintype Model_Layouts Model_Models Model_Oleprops Model_Embed Spec_Embed
  Model_XmlText Model_XmlElement Model_XmlFile Spec_XmlText Spec_Bintype Spec_Models Spec_Oleprops Spec_Layouts Spec_XmlElement Spec_XmlModel Spec_Section Spec_XmlFile Spec_XmlSummary Spec_XmlHwp
  Proof_Record Proof_Text Proof_Tree Proof_Models Proof_Layouts Proof_Fits Proof_Section Proof_XmlText Proof_OleText Proof_XmlElement Proof_XmlEntry Proof_XmlRecord Proof_XmlNames Proof_XmlDocument Proof_XmlDocinfo
  Proof_XmlPasses Proof_XmlFile Proof_XmlSection Proof_XmlSummary Proof_XmlIds Proof_XmlHwp Model_Plaintext Spec_Plaintext Proof_Plaintext.
Import ListNotations.
Open Scope string_scope.
Open Scope list_scope.
Open Scope Z_scope.

(** ** Members without character data *)
Definition plain_key (k : string) : bool := negb (String.eqb k "<text>").
Fixpoint silent (v : view) : bool :=
  match v with
  | Items l => forallb silent l
  | Members d => forallb (fun m => plain_key (fst m) && silent (snd m)) d
  | _ => true
  end.
Definition all_silent (d : list (string * view)) : bool := forallb (fun m => plain_key (fst m) && silent (snd m)) d.
Fixpoint kind_silent (k : kind) : bool :=
  match k with
  | Fields fs => forallb (fun f => plain_key (fst (fst (fst f))) && kind_silent (snd f)) fs
  | Repeat _ k | Counted _ k | Times _ k => kind_silent k
  | Choice _ _ l => forallb (fun a => kind_silent (snd a)) l
  | _ => true
  end.
Lemma records_silent : forall c, kind_silent (Fields (record_fields c)) = true.
Proof.
  intros c. unfold record_fields.
  match goal with |- context [find ?f ?l] => destruct (find f l) as [[n fs]|] eqn:F; [|reflexivity]; apply find_some in F as [F _];
    assert (L : forallb (fun e => kind_silent (Fields (snd e))) l = true) by (vm_compute; reflexivity) end.
  rewrite forallb_forall in L. exact (L _ F).
Qed.
Lemma silent_views : forall d, all_silent (views d) = forallb (fun kv => plain_key (fst kv) && silent (view_of (snd kv))) d.
Proof. induction d as [|[k v] d IH]; [reflexivity|]. cbn [views map all_silent forallb fst snd]. f_equal. exact IH. Qed.
Lemma silent_set : forall d k v, all_silent (views d) = true -> plain_key k = true -> silent (view_of v) = true -> all_silent (views (dict_set k v d)) = true.
Proof.
  intros d k v. rewrite !silent_views. induction d as [|[k' v'] d IH]; intros HD HK HV; cbn [dict_set forallb fst snd] in *.
  - rewrite HK, HV. reflexivity.
  - apply andb_prop in HD as [HD1 HD2]. destruct (String.eqb k k'); cbn [forallb fst snd].
    + rewrite HD2. apply andb_prop in HD1 as [HD1 _]. rewrite ?HD1, ?HK, HV. reflexivity.
    + rewrite HD1, IH; auto.
Qed.
Section Fitting.
  Variable version : list Z.
  Variable parent : node.
  Lemma forall_silent : forall k l, (forall v, fits version parent k [] (Some v) -> silent (view_of v) = true) ->
    Forall (fun v => fits version parent k [] (Some v)) l -> forallb silent (map view_of l) = true.
  Proof. intros k l HK H. rewrite forallb_forall. intros x HI. apply in_map_iff in HI as (v & <- & HI). rewrite Forall_forall in H. auto. Qed.
  Lemma fields_silent : forall fs, Forall (fun f => kind_silent (snd f) = true -> forall env v, fits version parent (snd f) env (Some v) -> silent (view_of v) = true) fs ->
    kind_silent (Fields fs) = true -> forall env d, fit_fields version parent fs env d -> all_silent (views env) = true -> all_silent (views d) = true.
  Proof.
    intros fs H. induction H as [|f fs HF H IH]; intros HN env d HD HE.
    - inversion HD; subst. exact HE.
    - cbn [kind_silent forallb] in HN. apply andb_prop in HN as [HN1 HN2]. apply andb_prop in HN1 as [HK HN1].
      inversion HD; subst; cbn [fst snd] in *; try (eapply IH; eassumption).
      match goal with X : fit_fields _ _ _ (added_to _ ?x _) _ |- _ => destruct x as [x'|]; cbn [added_to] in X; (eapply IH; [exact HN2|exact X|]) end; [|exact HE].
      apply silent_set; [exact HE|exact HK|]. eapply HF; [exact HN1|eassumption].
  Qed.
  Lemma fits_silent : forall k, kind_silent k = true -> forall env v, fits version parent k env (Some v) -> silent (view_of v) = true.
  Proof.
    apply (kind_rect' (fun k => kind_silent k = true -> forall env v, fits version parent k env (Some v) -> silent (view_of v) = true));
      try (intros; match goal with F : fits _ _ _ _ _ |- _ => inversion F; subst; reflexivity end).
    - intros fs IH HN env v HF. inversion HF; subst. cbn [view_of silent]. change (all_silent (views d) = true).
      eapply fields_silent; try eassumption. reflexivity.
    - intros n k IH HN env v HF. inversion HF; subst. cbn [view_of silent]. eapply forall_silent; [|eassumption]. apply IH, HN.
    - intros w k IH HN env v HF. inversion HF; subst. cbn [view_of silent]. eapply forall_silent; [|eassumption]. apply IH, HN.
    - intros n k IH HN env v HF. inversion HF; subst. cbn [view_of silent]. eapply forall_silent; [|eassumption]. apply IH, HN.
    - intros m g l IH HN env v HF. inversion HF; subst. cbn [kind_silent] in HN.
      match goal with F : find _ l = Some _ |- _ => apply find_some in F as [F _] end. rewrite Forall_forall in IH. rewrite forallb_forall in HN.
      eapply (IH (n, k)); [eassumption|apply (HN (n, k)); assumption|eassumption].
  Qed.
  Lemma record_silent : forall c d, fit_fields version parent (record_fields c) [] d -> all_silent (views d) = true.
  Proof. intros c d H. eapply fields_silent; [|apply records_silent|exact H|reflexivity]. apply Forall_forall. intros f _. apply fits_silent. Qed.
End Fitting.
Lemma model_silent : forall version parent tagid payload m, all_bytes payload -> reads version parent tagid payload (Ok m) -> all_silent (views (m_content m)) = true.
Proof.
  intros version parent tagid payload m HB HR. destruct (record_fits _ _ _ _ _ HB HR) as (ds & E & F). rewrite E, silent_views. clear E.
  induction F as [|c e cs es FE F IH]; [reflexivity|]. cbn [concat]. rewrite forallb_app, IH, andb_true_r. rewrite <- silent_views. exact (record_silent _ _ _ _ FE).
Qed.

(** ** All items but texts are without character data *)
Definition quiet_item (x : Model_XmlModel.item) : Prop := i_model x = "Text" \/ all_silent (attribute_views x) = true.
Lemma silent_filter : forall p x, all_silent (attribute_views x) = true -> all_silent (attribute_views (mkItem (i_model x) (i_ref x) (filter p (i_attrs x)))) = true.
Proof.
  intros p x. unfold attribute_views. cbn [i_attrs]. induction (i_attrs x) as [|kv l IH]; [trivial|]. cbn [map all_silent forallb filter fst snd]. intros H. apply andb_prop in H as [H1 H2].
  destruct (p kv); [|now apply IH]. cbn [map forallb fst snd]. rewrite H1. now apply IH.
Qed.
Lemma silent_attr_set : forall k n l, forallb (fun m : string * view => plain_key (fst m) && silent (snd m)) (map (fun kv => (fst kv, attribute_view (snd kv))) l) = true -> plain_key k = true ->
  forallb (fun m : string * view => plain_key (fst m) && silent (snd m)) (map (fun kv => (fst kv, attribute_view (snd kv))) (attr_set k (Model_XmlModel.VInt n) l)) = true.
Proof.
  intros k n l H HK. induction l as [|[k' v] l IH]; cbn [attr_set map forallb fst snd] in *; [now rewrite HK|]. apply andb_prop in H as [H1 H2].
  destruct (String.eqb k' k); cbn [map forallb fst snd]; [|rewrite H1; now apply IH]. rewrite H2. apply andb_prop in H1 as [H1 _]. now rewrite H1.
Qed.
Section Items.
  Variable version : list Z.
  Variable out : list (record * model).
  Hypothesis OK : forall i r m, nth_error out i = Some (r, m) -> all_bytes (r_payload r) /\ exists parent, reads version parent (r_tagid r) (r_payload r) (Ok m).
  Theorem quiet_items : forall sid g, all (fun x => if para_data x then D1 out x else quiet_item x) (fst g) -> all quiet_item (fst (section_events sid g)).
  Proof.
    intros sid. apply section_events_all with (Q := quiet_item) (Q2 := quiet_item).
    - intros t s. now left.
    - intros c k s. right. unfold controlchar_item. destruct (_ || _); reflexivity.
    - intros i. right. reflexivity.
    - intros x l d i (j & r & m & ref & E & ->) HM HA HI. right.
      unfold model_is in HM. cbn [pass_item i_model] in HM. apply String.eqb_eq in HM. destruct (OK _ _ _ E) as (HB & parent & HR).
      destruct (pass_linesegs _ _ _ HM HA) as (ls & I1 & I2). destruct (lines_in _ _ _ I2 HI) as (d' & I3 & I4).
      destruct (fit_line _ _ _ (lineseg_values _ _ _ _ _ _ _ HB HR HM I1 I3) _ I4) as (a & b & c & d1 & e & f & g & h & n & -> & _). reflexivity.
    - right. reflexivity.
    - intros x [HX|HX] HT; [left; exact HX|]. right. unfold del_item, attr_del. now apply silent_filter.
    - intros x HX _. exact HX.
    - intros. left. reflexivity.
    - intros x HX. exact HX.
    - intros s x _ _ [HX|HX] _; destruct sid as [n|]; cbn [section_item]; [left; exact HX|left; exact HX| |right; exact HX].
      right. unfold set_item, attribute_views, all_silent. cbn [i_attrs]. now apply silent_attr_set.
    - right. reflexivity.
  Qed.
  Lemma record_quiet : forall i r m ref, nth_error out i = Some (r, m) -> let x := pass_item ref m in if para_data x then D1 out x else quiet_item x.
  Proof.
    intros i r m ref E x. subst x. destruct (para_data _) eqn:EP; [exists i, r, m; eauto|]. right. rewrite views_back, values_back.
    - destruct (OK _ _ _ E) as (HB & parent & HR). exact (model_silent _ _ _ _ _ HB HR).
    - intros HT. unfold para_data, model_is in EP. cbn [pass_item i_model] in EP. rewrite HT in EP. discriminate EP.
  Qed.
End Items.
Lemma records_quiet : forall version records out f, Forall (fun r => all_bytes (r_payload r)) records -> models_of version Finished [] records out Finished ->
  preorder 0 f = pass_items 1 out -> all (fun x => if para_data x then D1 out x else quiet_item x) (walk f).
Proof.
  intros version records out f HB HM EF. apply all_walk. apply forest_items. intros x HI. rewrite <- (preorder_items _ f 0), EF in HI. apply in_map_iff in HI as (lx & <- & HI).
  destruct (pass_in _ _ _ HI) as (i & r & m & E1 & E2). rewrite E2. exact (record_quiet version out (out_ok version records out Finished Finished HB HM) i r m _ E1).
Qed.

(** ** Elements that give no text *)
Definition speaking : list string := ["Paragraph"; "TableControl"; "GShapeObjectControl"].
Definition mute_name (n : list Z) : bool := negb (existsb (fun s => name_is s n) speaking).
Inductive mute : xtree -> Prop :=
| mute_elem : forall n attrs kids, mute_name n = true -> Forall mute kids -> mute (Elem n attrs [] kids).
Definition mute_form (key : string) (f : form) : bool :=
  match f with
  | Child c | Children c => mute_name (zs c)
  | Chosen _ _ names => forallb (fun n => mute_name (zs (snd n))) names
  | Colors => mute_name (zs key)
  | _ => true
  end.
Lemma forms_mute : forall name key, mute_form key (form_of name key) = true.
Proof.
  intros name key. unfold form_of. destruct (look name forms) as [l|] eqn:L; [|reflexivity]. destruct (look key l) as [f|] eqn:F; [|reflexivity].
  apply look_in in L. apply look_in in F.
  assert (A : forallb (fun e => forallb (fun m => mute_form (fst m) (snd m)) (snd e)) forms = true) by (vm_compute; reflexivity).
  rewrite forallb_forall in A. specialize (A _ L). cbn [snd] in A. rewrite forallb_forall in A. exact (A _ F).
Qed.
Lemma silent_data : forall d, all_silent d = true -> character_data d = [].
Proof.
  intros d H. unfold character_data. destruct (look "<text>" d) as [v|] eqn:E; [|reflexivity]. apply look_in in E. unfold all_silent in H. rewrite forallb_forall in H. specialize (H _ E). discriminate H.
Qed.
Definition own_kids (t : xtree) : list xtree := match t with Elem _ _ _ kids => kids end.
Definition own_text (t : xtree) : list Z := match t with Elem _ _ text _ => text end.
Section Own.
  Variable repr : view -> list Z.
  Variable object : list Z.
  Lemma element_mute : forall name d t, Spec_XmlElement.element repr object name d t -> all_silent d = true -> own_text t = [] /\ Forall mute (own_kids t) /\ root_name t = zs name.
  Proof.
    assert (KEYS : forall key (x : view) r, all_silent ((key, x) :: r) = true -> plain_key key = true /\ silent x = true /\ all_silent r = true).
    { intros key x r H. unfold all_silent in H. cbn [forallb fst snd] in H. apply andb_prop in H as [H H2]. apply andb_prop in H as [H0 H1]. auto. }
    assert (SUB : forall m key, all_silent m = true -> all_silent (m ++ [("attribute-name", Text (zs key))]) = true).
    { intros m key H. unfold all_silent in *. rewrite forallb_app, H. reflexivity. }
    assert (B : forall t c, own_text t = [] /\ Forall mute (own_kids t) /\ root_name t = zs c -> mute_name (zs c) = true -> mute t).
    { intros [n a x k] c (H1 & H2 & H3) H. cbn in *. subst. now constructor. }
    apply (element_ind' repr object
      (fun name d t _ => all_silent d = true -> own_text t = [] /\ Forall mute (own_kids t) /\ root_name t = zs name)
      (fun name d r ts _ => all_silent r = true -> Forall mute ts)
      (fun c l ts _ => mute_name (zs c) = true -> forallb silent l = true -> Forall mute ts)).
    - intros name d listed attrs kids _ _ _ _ IH HS. cbn [own_text own_kids root_name]. split; [now apply silent_data|]. split; [now apply IH|reflexivity].
    - constructor.
    - intros name d key x r ts _ _ IH HS. apply KEYS in HS. now apply IH.
    - intros name d key c m r t ts F _ IH _ IH' HS. apply KEYS in HS as (_ & HX & HS). pose proof (forms_mute name key) as O. rewrite F in O. constructor; [|now apply IH']. apply (B _ c); [|exact O]. apply IH. now apply SUB.
    - intros name d key member group names n c m r t ts F _ HI _ IH _ IH' HS. apply KEYS in HS as (_ & HX & HS). pose proof (forms_mute name key) as O. rewrite F in O. cbn [mute_form] in O. rewrite forallb_forall in O.
      constructor; [|now apply IH']. apply (B _ c); [|exact (O _ HI)]. apply IH. now apply SUB.
    - intros name d key c l r us ts F _ IH _ IH' HS. apply KEYS in HS as (_ & HX & HS). pose proof (forms_mute name key) as O. rewrite F in O. constructor; [|now apply IH']. constructor; [reflexivity|]. now apply IH.
    - intros name d key l r us ts F C _ IH' HS. apply KEYS in HS as (_ & HX & HS). pose proof (forms_mute name key) as O. rewrite F in O. apply Forall_app. split; [|now apply IH'].
      clear - C O. induction C; constructor; [|assumption]. constructor; [exact O|constructor].
    - constructor.
    - intros c m l t ts _ IH _ IH' HC HS. cbn [forallb] in HS. apply andb_prop in HS as [H1 H2]. constructor; [|now apply IH']. apply (B _ c); [|exact HC]. now apply IH.
  Qed.
End Own.

(** ** The nodes a parser makes of an element *)
Definition read_attributes (attrs : list (list Z * list Z)) : list (list Z * list Z) := map (fun kv => (fst kv, without_nul (snd kv))) attrs.
Fixpoint node_of (t : xtree) : xnode :=
  match t with
  | Elem n attrs text kids => Element n (read_attributes attrs) ((match without_nul text with [] => [] | c :: r => [Characters (c :: r)] end) ++ map node_of kids)
  end.
Fixpoint xtree_all (P : xtree -> Prop) (H : forall n a x k, Forall P k -> P (Elem n a x k)) (t : xtree) : P t :=
  match t with
  | Elem n a x k => H n a x k ((fix go l : Forall P l := match l with [] => Forall_nil P | t :: r => Forall_cons t (xtree_all P H t) (go r) end) k)
  end.
Lemma flushed : forall ks acc n r, read_back acc (flat_map events_of ks ++ XEnd n :: r) = flush acc (read_back [] (flat_map events_of ks ++ XEnd n :: r)).
Proof. intros ks acc n r. destruct ks as [|[n' a' x' k'] ks]; reflexivity. Qed.
Lemma build_kids : forall ks, Forall (fun t => forall opened done r, build opened done (read_back [] (events_of t ++ r)) = build opened (node_of t :: done) (read_back [] r)) ks ->
  forall opened done r, build opened done (read_back [] (flat_map events_of ks ++ r)) = build opened (rev (map node_of ks) ++ done) (read_back [] r).
Proof.
  intros ks H. induction H as [|t ks H1 H2 IH]; intros opened done r; [reflexivity|]. cbn [flat_map map rev]. rewrite <- !app_assoc, H1, IH. reflexivity.
Qed.
Lemma build_events : forall t opened done r, build opened done (read_back [] (events_of t ++ r)) = build opened (node_of t :: done) (read_back [] r).
Proof.
  apply (xtree_all (fun t => forall opened done r, build opened done (read_back [] (events_of t ++ r)) = build opened (node_of t :: done) (read_back [] r))).
  intros n a x k H opened done r. cbn [events_of app]. rewrite <- !app_assoc. cbn [app read_back flush build].
  assert (E : forall before, build ((n, read_attributes a, done) :: opened) before (read_back [] (flat_map events_of k ++ XEnd n :: r)) =
    build opened (Element n (read_attributes a) (rev before ++ map node_of k) :: done) (read_back [] r)).
  { intros before. rewrite (build_kids k H). cbn [read_back flush build]. now rewrite rev_app_distr, rev_involutive. }
  cbn [node_of]. destruct x as [|c x]; [exact (E [])|]. cbn [app read_back]. rewrite flushed. destruct (without_nul (c :: x)) as [|c' x']; [exact (E [])|]. cbn [flush build app]. exact (E [Characters (c' :: x')]).
Qed.
Theorem build_is : forall t, build [] [] (read_back [] (events_of t)) = Some [node_of t].
Proof. intros t. pose proof (build_events t [] [] []) as H. rewrite app_nil_r in H. exact H. Qed.

(** ** Templates *)
Definition gives_text (t : xtree) : list Z := apply_templates (node_of t).
Lemma name_is_model : forall s x, name_is s (zs (i_model x)) = model_is s x.
Proof.
  intros s x. unfold name_is, model_is. destruct (list_eq_dec Z.eq_dec (zs (i_model x)) (zs s)) as [E|E].
  - apply zs_inj in E. symmetry. now apply String.eqb_eq.
  - destruct (String.eqb_spec (i_model x) s) as [H|H]; [|reflexivity]. now rewrite H in E.
Qed.
Lemma flat_map_map : forall A B C (f : A -> B) (g : B -> list C) l, flat_map g (map f l) = flat_map (fun x => g (f x)) l.
Proof. intros A B C f g l. induction l as [|x l IH]; [reflexivity|]. cbn. now rewrite IH. Qed.
Lemma first_none : forall ts, first_text (map node_of ts) = [].
Proof. induction ts as [|[n a x k] ts IH]; [reflexivity|exact IH]. Qed.
Lemma mute_gives : forall t, mute t -> gives_text t = [].
Proof.
  apply (xtree_all (fun t => mute t -> gives_text t = [])). intros n a x k IH H. inversion H as [? ? ? HN HK]; subst. unfold gives_text. cbn [node_of apply_templates without_nul filter app].
  unfold mute_name, speaking in HN. cbn [existsb] in HN. apply negb_true_iff in HN. repeat (apply orb_false_elim in HN as [?N HN]). rewrite N, N0, N1.
  assert (E : flat_map apply_templates (map node_of k) = []).
  { rewrite flat_map_map. clear - IH HK. induction k as [|t k IHk]; [reflexivity|]. inversion IH; subst. inversion HK; subst. cbn [flat_map]. change (apply_templates (node_of t)) with (gives_text t). rewrite H1 by assumption. now apply IHk. }
  destruct (name_is "Text" n); [apply first_none|]. destruct (name_is "ControlChar" n); [reflexivity|exact E].
Qed.
Lemma mutes_give : forall ts, Forall mute ts -> flat_map gives_text ts = [].
Proof. intros ts H. induction H as [|t ts H1 H2 IH]; [reflexivity|]. cbn [flat_map]. now rewrite (mute_gives t H1), IH. Qed.
Lemma gives_elem : forall n a x k, gives_text (Elem n a x k) =
  if name_is "Paragraph" n then without_nul x ++ flat_map gives_text k ++ [10]
  else if name_is "Text" n then without_nul x else if name_is "ControlChar" n then []
  else if name_is "TableControl" n then table_text else if name_is "GShapeObjectControl" n then picture_text
  else without_nul x ++ flat_map gives_text k.
Proof.
  intros n a x k. unfold gives_text. cbn [node_of apply_templates]. rewrite !flat_map_app, flat_map_map.
  assert (E : flat_map apply_templates (match without_nul x with [] => [] | c :: r => [Characters (c :: r)] end) = without_nul x) by (destruct (without_nul x); [reflexivity|cbn; now rewrite app_nil_r]).
  rewrite E. destruct (name_is "Paragraph" n); [now rewrite <- app_assoc|]. destruct (name_is "Text" n); [|reflexivity]. destruct (without_nul x) as [|c r]; [apply first_none|reflexivity].
Qed.

(** ** Trees of elements *)
Lemma node_parts_of : forall repr object x t, shown_node repr object x t -> quiet_item x ->
  root_name t = zs (i_model x) /\ own_text t = (if is_text x then characters x else []) /\ Forall mute (own_kids t).
Proof.
  intros repr object x t HS HQ. inversion HS as [t' H1 H2 H3|t' H1 H2|attrs H1 H2 H3|listed attrs H1 H2 H3 H4]; subst.
  - assert (ET : is_text x = false).
    { unfold is_text, model_is. destruct (String.eqb_spec (i_model x) "Text") as [E|E]; [|reflexivity]. exfalso. apply H1. rewrite E. now left. }
    destruct HQ as [HQ|HQ]; [exfalso; apply H1; rewrite HQ; now left|]. destruct (element_mute _ _ _ _ _ H3 HQ) as (E1 & E2 & E3). rewrite ET. auto.
  - assert (ET : is_text x = false) by (unfold is_text, model_is; now rewrite H1). destruct HQ as [HQ|HQ]; [congruence|]. rewrite ET.
    destruct (element_mute _ _ _ _ _ H2) as (E1 & E2 & E3); [|rewrite H1; auto]. clear - HQ. unfold all_silent, attribute_views in *. revert HQ. induction (i_attrs x) as [|[k a] l IH]; [trivial|]. cbn [map forallb fst snd].
    intros H. apply andb_prop in H as [HA HB]. rewrite (IH HB), andb_true_r. apply andb_prop in HA as [HA HC]. unfold line_view. cbn [fst snd]. rewrite HA. cbn [andb]. destruct a; try exact HC. destruct (String.eqb k "lineseg_flags"); reflexivity.
  - assert (ET : is_text x = false) by (unfold is_text, model_is; now rewrite H1). rewrite ET. cbn [root_name own_text own_kids]. rewrite H1. auto.
  - cbn [root_name own_text own_kids]. split; [reflexivity|]. split; [|constructor]. unfold is_text, model_is. destruct (String.eqb_spec (i_model x) "Text") as [E|E]; [reflexivity|].
    unfold characters. replace (filter (is_characters x) (i_attrs x)) with (@nil (string * aval)); [reflexivity|]. symmetry. apply String.eqb_neq in E. clear - E. induction (i_attrs x) as [|kv l IH]; [reflexivity|].
    cbn [filter]. unfold is_characters at 1. rewrite E. exact IH.
Qed.
Lemma without_app : forall a b, without_nul (a ++ b) = without_nul a ++ without_nul b.
Proof. intros. apply filter_app. Qed.
Theorem written_gives : forall repr object g ts, written (shown_node repr object) g ts -> all_forest quiet_item g -> flat_map gives_text ts = without_nul (prints characters g).
Proof.
  intros repr object g ts H. induction H as [|x k n t ks ts HS HK IHK HN IHN]; intros HQ; [reflexivity|]. destruct HQ as (Q1 & Q2 & Q3). specialize (IHK Q2). specialize (IHN Q3).
  cbn [flat_map prints]. rewrite without_app, IHN. f_equal. destruct (node_parts_of _ _ _ _ HS Q1) as (E1 & E2 & E3). destruct t as [nm attrs text kids]. cbn [root_name own_text own_kids with_children] in *. subst nm text.
  rewrite gives_elem, !name_is_model, flat_map_app, (mutes_give _ E3). cbn [app]. rewrite IHK. unfold node_prints. fold (is_para x) (is_text x) (is_char x).
  destruct (is_para x) eqn:EP; [destruct (para_unlike x EP) as (_ & _ & _ & _ & -> & _); now rewrite without_app|]. destruct (is_text x); [reflexivity|]. destruct (is_char x); [reflexivity|].
  destruct (model_is "TableControl" x); [reflexivity|]. destruct (model_is "GShapeObjectControl" x); reflexivity.
Qed.
Lemma numbers_silent : (forall before t t' after, numbered before t t' after -> gives_text t' = gives_text t /\ root_name t' = root_name t) /\
  (forall before ts ts' after, all_numbered before ts ts' after -> flat_map gives_text ts' = flat_map gives_text ts).
Proof.
  apply numbered_both.
  - intros before n attrs text kids number attrs' kids' after _ _ _ IH. rewrite !gives_elem, IH. now split.
  - reflexivity.
  - intros before t t' middle ts ts' after _ [E1 _] _ E2. cbn [flat_map]. now rewrite E1, E2.
Qed.

(** ** Section definitions *)
Lemma count_cons : forall x k n, definition_records (FCons x k n) = ((if is_sectiondef x then 1 else 0) + definition_records k + definition_records n)%nat.
Proof. intros x k n. unfold definition_records. rewrite starts_cons. cbn [filter]. rewrite filter_app. destruct (is_sectiondef x); cbn [List.length]; rewrite app_length; lia. Qed.
Definition all_definitions (l : list (Model_XmlModel.item * meaning)) : nat := definitions (all_of (map snd l)).
Lemma all_definitions_cons : forall x m l, all_definitions ((x, m) :: l) = (definitions m + all_definitions l)%nat.
Proof. reflexivity. Qed.
Lemma all_definitions_filter : forall p l, (all_definitions (filter p l) + all_definitions (filter (fun t => negb (p t)) l) = all_definitions l)%nat.
Proof. intros p l. induction l as [|[x m] l IH]; [reflexivity|]. cbn [filter]. destruct (p (x, m)); cbn [negb]; rewrite !all_definitions_cons; lia. Qed.
Lemma element_definitions : forall x m, definitions (element_says x m) = ((if is_sectiondef x then 1 else 0) + definitions m)%nat.
Proof.
  intros x m. unfold element_says. destruct (is_sectiondef x) eqn:E.
  - assert (U : model_is "TableControl" x = false /\ model_is "GShapeObjectControl" x = false) by (split; by_model x). destruct U as [-> ->]. reflexivity.
  - destruct (model_is "TableControl" x); [reflexivity|]. destruct (model_is "GShapeObjectControl" x); reflexivity.
Qed.
Lemma laid_definitions : forall chunks ms, List.length ms = controls_in chunks -> definitions (laid_out chunks ms) = definitions (all_of ms).
Proof.
  unfold controls_in. induction chunks as [|[t|ct] chunks IH]; intros ms H; cbn [laid_out map ctl_of concat app filter] in *.
  - destruct ms; [reflexivity|discriminate H].
  - cbn [and_then definitions says Nat.add]. now apply IH.
  - destruct (extended_code (chunk_control_code ct)); [|now apply IH]. destruct ms as [|m ms]; [discriminate H|]. cbn [List.length] in H. cbn [and_then definitions all_of fold_right]. f_equal. apply IH. lia.
Qed.
Lemma chunks_codes : forall k, concat (map (fun c => map chunk_control_code (ctl_of c)) (chunks_of (roots k))) = para_codes k.
Proof.
  intros k. unfold chunks_of, para_codes. destruct (last_of "ParaText" (roots k)) as [x|]; [|reflexivity]. destruct (attr_get "chunks" (i_attrs x)) as [[]|]; try reflexivity.
  unfold control_codes. rewrite map_map. f_equal. apply map_ext. intros [r [t|ct]]; reflexivity.
Qed.
Lemma told_controls : forall f, List.length (filter (fun t => is_ctl (fst t)) (told f)) = List.length (filter is_ctl (roots f)).
Proof. induction f as [|x k _ n IH]; [reflexivity|]. cbn [told filter fst roots]. destruct (is_ctl x); cbn [List.length]; now rewrite IH. Qed.
Lemma told_definitions : forall f m, shaped m f -> all_definitions (told f) = definition_records f.
Proof.
  induction f as [|x k IHk n IHn]; intros m H; [reflexivity|]. cbn [shaped] in H. destruct H as [H HN]. cbn [told]. rewrite all_definitions_cons, count_cons, (IHn m HN). f_equal.
  destruct (is_para x) eqn:EP.
  - assert (ED : is_sectiondef x = false) by by_model x. rewrite ED. destruct m.
    + exfalso. destruct (para_unlike x EP) as (_ & _ & _ & EC & _ & _ & _ & _ & ED'). destruct H as [[H _]|[[H|H] _]]; [congruence|congruence|]. apply plain_unlike in H. destruct H as [(E & _) _]. congruence.
    + destruct H as [(_ & _ & HC) HK]. specialize (IHk _ HK). unfold paragraph_says. cbn [and_then definitions says Nat.add]. rewrite Nat.add_0_r. rewrite told_roots, laid_definitions.
      2:{ unfold controls_in. rewrite chunks_codes, map_length, told_controls. exact HC. }
      rewrite <- IHk, <- (all_definitions_filter (fun t => is_ctl (fst t)) (told k)). unfold all_definitions. lia.
  - rewrite element_definitions. fold (all_definitions (told k)). f_equal. destruct m; [destruct H as [[_ ->]|(_ & H & _)]; [reflexivity|exact (IHk _ H)]|].
    destruct (is_tablebody x); [destruct H as [-> _]; reflexivity|]. destruct H as (_ & H & _). exact (IHk _ H).
Qed.

(** ** Sections and files *)
Lemma section_gives_text : forall repr object version s t, Forall (fun r => all_bytes (r_payload r)) (snd s) -> section_made repr object version s t ->
  exists f, section_records version (snd s) f /\ (definition_records f = 1%nat -> gives_text t = without_nul (section_text f)).
Proof.
  intros repr object version [sid records] t HB (out & f & g & HM & EF & HS & ST & EM & EG & HW). cbn [fst snd] in *. exists f. split; [now exists out|]. intros HD.
  assert (HQ : all_forest quiet_item g).
  { apply walk_all. pose proof (quiet_items version out (out_ok version records out Finished Finished HB HM) (Some sid) (walk f, Finished) (records_quiet version records out f HB HM EF)) as H. now rewrite EG in H. }
  pose proof (written_gives _ _ _ _ HW HQ) as E. cbn [flat_map] in E. rewrite app_nil_r in E. rewrite E. f_equal.
  apply (section_prints characters (Some sid) f g); [intros ? ? ?; reflexivity|exact HS|exact ST|]. destruct HS as [_ HS _]. now rewrite <- (told_definitions f false HS) in HD.
Qed.

(** ** No character below the space is in a text *)
Definition printable (c : Z) : Prop := 0x20 <= c.
Definition chunk_printable (x : (Z * Z) * chunk) : Prop := match snd x with ChText t => Forall printable t | ChCtl _ => True end.
Lemma units_free : forall us, Forall (fun u => 0 <= u < 65536) us -> control_free (concat (map Spec_Text.le16 us)) -> Forall printable us.
Proof.
  intros us H. induction H as [|u us Hu H IH]; intros F; constructor; cbn [map concat Spec_Text.le16 app control_free] in F; destruct F as [F1 F2]; [|now apply IH].
  unfold printable. assert (u = 256 * (u / 256) + u mod 256) by (apply Z.div_mod; lia). assert (0 <= u mod 256 < 256) by (apply Z.mod_pos_bound; lia). assert (0 <= u / 256) by (apply Z.div_pos; lia). lia.
Qed.
Lemma text_free : forall t, Forall Spec_Text.scalar t -> control_free (Spec_Text.utf16le_bytes t) -> Forall printable t.
Proof.
  intros t Hs F. apply units_free in F.
  - revert F. unfold Spec_Text.utf16_units. clear - Hs. induction Hs as [|c t Hc Hs IH]; intros F; constructor; cbn [map concat] in F; apply Forall_app in F as [F1 F2]; [|now apply IH].
    unfold Spec_Text.utf16_units_of, Spec_Text.scalar, printable in *. destruct (Z.ltb_spec c 65536); [|lia]. inversion F1; assumption.
  - unfold Spec_Text.utf16_units. clear F. induction Hs as [|c t Hc Hs IH]; [constructor|]. cbn [map concat]. apply Forall_app. split; [|exact IH].
    unfold Spec_Text.utf16_units_of, Spec_Text.scalar in *. destruct (Z.ltb_spec c 65536); [constructor; [lia|constructor]|].
    assert (0 <= (c - 65536) / 1024 < 1024) by (split; [apply Z.div_pos; lia|apply Z.div_lt_upper_bound; lia]). assert (0 <= (c - 65536) mod 1024 < 1024) by (apply Z.mod_pos_bound; lia).
    repeat constructor; lia.
Qed.
Lemma para_printable : (forall p b out o, para_text p b out o -> Forall chunk_printable out) /\ (forall p b out o, para_text_at_control p b out o -> Forall chunk_printable out).
Proof.
  apply Proof_ParaText.para_text_both; intros; try assumption; repeat constructor; try assumption. cbn. apply text_free; assumption.
Qed.
Lemma chunks_printable : forall b l, all_bytes b -> parse_chunks b = (l, Finished) -> Forall chunk_printable l.
Proof. intros b l HB E. apply Proof_ParaText.parse_chunks_spec in E; [|exact HB]. exact (proj1 para_printable _ _ _ _ E). Qed.
Lemma paratext_tag : forall version parent tagid payload m, reads version parent tagid payload (Ok m) -> m_type m = "ParaText" -> type_of_tag tagid = "ParaText".
Proof.
  intros version parent tagid payload m HR HT.
  assert (P : In (type_of_tag tagid, m_type m) pairs).
  { inversion HR as [d tr s E R|d0 d tr0 tr1 s0 s t E R L| | |]; subst; cbn [m_type]; [apply tag_pair|exact (refined_pair _ _ _ _ R)]. }
  assert (C : forallb (fun p => negb (String.eqb (snd p) "ParaText") || String.eqb (fst p) "ParaText") pairs = true) by (vm_compute; reflexivity).
  rewrite forallb_forall in C. specialize (C _ P). cbn [fst snd] in C. rewrite HT, String.eqb_refl in C. cbn in C. apply String.eqb_eq. exact C.
Qed.
Lemma chunks_value : forall version parent tagid payload m l, all_bytes payload -> reads version parent tagid payload (Ok m) -> m_type m = "ParaText" ->
  In ("chunks", VChunks l) (m_content m) -> Forall chunk_printable l.
Proof.
  intros version parent tagid payload m l HB HR HT HI. pose proof (paratext_tag _ _ _ _ _ HR HT) as ET.
  destruct (record_fits _ _ _ _ _ HB HR) as (ds & EC & F). rewrite ET, HT in F. change (classes_of "ParaText" "ParaText") with ["ParaText"] in F.
  inversion F as [|? e ? ? FE FN]; subst. inversion FN; subst. cbn [concat] in EC. rewrite app_nil_r in EC. rewrite EC in HI.
  cbn in FE. apply fit_always in FE as (x & X & K). inversion X; subst. cbn [added_to dict_set] in K. inversion K; subst.
  match goal with E : _ = m_content m |- _ => rewrite <- E in HI | E : m_content m = _ |- _ => rewrite E in HI end. destruct HI as [HI|[]]. inversion HI; subst. eapply chunks_printable; eassumption.
Qed.
Lemma pass_chunks : forall ref m l, m_type m = "ParaText" -> attr_get "chunks" (i_attrs (pass_item ref m)) = Some (Model_XmlModel.VChunks l) -> In ("chunks", VChunks l) (m_content m).
Proof.
  intros ref m l HT. unfold pass_item. cbn [i_attrs]. rewrite HT. induction (m_content m) as [|[k v] c IH]; intros H; [discriminate|].
  cbn [map attr_get fst snd] in H. destruct (String.eqb k "chunks") eqn:E.
  - apply String.eqb_eq in E. subst k. left. destruct v; try discriminate H. cbn in H. inversion H; subst. reflexivity.
  - right. exact (IH H).
Qed.
Definition item_printable (x : Model_XmlModel.item) : Prop :=
  forall l, model_is "ParaText" x = true -> attr_get "chunks" (i_attrs x) = Some (Model_XmlModel.VChunks l) -> Forall chunk_printable l.
Lemma records_printable : forall version records out f, Forall (fun r => all_bytes (r_payload r)) records -> models_of version Finished [] records out Finished ->
  preorder 0 f = pass_items 1 out -> all_forest item_printable f.
Proof.
  intros version records out f HB HM EF. apply forest_items. intros x HI. rewrite <- (preorder_items _ f 0), EF in HI. apply in_map_iff in HI as (lx & <- & HI).
  destruct (pass_in _ _ _ HI) as (i & r & m & E1 & E2). rewrite E2. intros l HP HA. destruct (out_ok version records out Finished Finished HB HM i r m E1) as (HB' & parent & HR).
  unfold model_is in HP. cbn [pass_item i_model] in HP. apply String.eqb_eq in HP. exact (chunks_value _ _ _ _ _ _ HB' HR HP (pass_chunks _ _ _ HP HA)).
Qed.
Definition line_or_more (c : Z) : Prop := c = 10 \/ 0x20 <= c.
Definition clean (m : meaning) : Prop := Forall line_or_more (front m) /\ Forall line_or_more (body m).
Lemma clean_nothing : clean nothing.
Proof. split; constructor. Qed.
Lemma clean_then : forall a b, clean a -> clean b -> clean (and_then a b).
Proof. intros a b [] []. split; cbn [front body and_then]; apply Forall_app; auto. Qed.
Lemma clean_says : forall t, Forall line_or_more t -> clean (says t).
Proof. intros t H. split; [constructor|exact H]. Qed.
Lemma clean_all : forall ms, Forall clean ms -> clean (all_of ms).
Proof. intros ms H. induction H; [apply clean_nothing|]. cbn [all_of fold_right]. now apply clean_then. Qed.
Lemma clean_laid : forall chunks ms, Forall (fun c => match c with ChText t => Forall printable t | _ => True end) chunks -> Forall clean ms -> clean (laid_out chunks ms).
Proof.
  intros chunks ms H. revert ms. induction H as [|[t|ct] chunks HT H IH]; intros ms HM; [apply clean_nothing| |]; cbn [laid_out].
  - apply clean_then; [|now apply IH]. apply clean_says. apply Forall_impl with (2 := HT). intros c. now right.
  - destruct (extended_code _); [|now apply IH]. destruct HM as [|m ms HM1 HM2]; [now apply IH|]. apply clean_then; [exact HM1|now apply IH].
Qed.
Lemma clean_element : forall x m, clean m -> clean (element_says x m).
Proof.
  assert (T : forall l, forallb (fun c => (c =? 10) || (0x20 <=? c)) l = true -> Forall line_or_more l).
  { intros l H. rewrite forallb_forall in H. apply Forall_forall. intros c HI. specialize (H c HI). unfold line_or_more. apply orb_prop in H as [H|H]; lia. }
  intros x m [H1 H2]. unfold element_says. destruct (model_is "TableControl" x); [split; [exact H1|now apply T]|]. destruct (model_is "GShapeObjectControl" x); [split; [exact H1|now apply T]|].
  destruct (is_sectiondef x); [|now split]. split; [apply Forall_app; now split|constructor].
Qed.
Lemma clean_told : forall f, all_forest item_printable f -> Forall (fun t => clean (snd t)) (told f) /\ Forall item_printable (roots f).
Proof.
  induction f as [|x k IHk n IHn]; intros H; [split; constructor|]. destruct H as (H1 & H2 & H3). specialize (IHk H2). specialize (IHn H3). cbn [told roots].
  split; [|constructor; [exact H1|apply IHn]]. constructor; [|apply IHn]. destruct IHk as [IHk RK]. cbn [snd].
  assert (F : forall p, Forall clean (map snd (filter p (told k)))).
  { intros p. apply Forall_map. rewrite Forall_forall in *. intros t HI. apply filter_In in HI as [HI _]. now apply IHk. }
  destruct (is_para x).
  - unfold paragraph_says. apply clean_then; [apply clean_all, F|]. apply clean_then; [|apply clean_says; constructor; [now left|constructor]]. apply clean_laid; [|apply F].
    rewrite told_roots. unfold chunks_of, last_of.
    match goal with |- context [match ?o with Some _ => _ | None => _ end] => destruct o as [y|] eqn:EY end; [|constructor].
    apply find_some in EY as [HI HY]. apply in_rev in HI. destruct (attr_get "chunks" (i_attrs y)) as [[]|] eqn:EA; try constructor. rewrite Forall_forall in RK. specialize (RK y HI _ HY EA).
    apply Forall_map. exact RK.
  - apply clean_element, clean_all. rewrite Forall_forall in *. intros m HI. apply in_map_iff in HI as (t & <- & HI). now apply IHk.
Qed.
Lemma clean_section : forall version records f, Forall (fun r => all_bytes (r_payload r)) records -> section_records version records f -> Forall line_or_more (section_text f).
Proof.
  intros version records f HB (out & HM & EF). destruct (clean_told f (records_printable _ _ _ _ HB HM EF)) as [H _]. unfold section_text, section_says.
  assert (C : clean (all_of (map snd (told f)))) by (apply clean_all, Forall_map, H). apply Forall_app. exact C.
Qed.
Lemma clean_same : forall t, Forall line_or_more t -> without_nul t = t.
Proof. intros t H. induction H as [|c t HC H IH]; [reflexivity|]. unfold without_nul. cbn [filter]. unfold line_or_more in HC. destruct (Z.eqb_spec c 0); [lia|]. cbn [negb]. f_equal. exact IH. Qed.

(** ** Files *)
Lemma sections_give : forall repr object version sections ss, Forall (fun s => section_fits version (snd s)) sections ->
  (forall s f, In s sections -> section_records version (snd s) f -> definition_records f = 1%nat) ->
  Forall2 (section_made repr object version) sections ss ->
  exists fs, Forall2 (fun s f => section_records version (snd s) f) sections fs /\ flat_map gives_text ss = concat (map section_text fs).
Proof.
  intros repr object version sections ss HF HD H. induction H as [|s t sections ss HM H IH]; [exists []; split; [constructor|reflexivity]|].
  inversion HF as [|? ? [F1 _ _] F2]; subst. destruct (IH F2) as (fs & I1 & I2); [intros s' f HI; apply HD; now right|].
  assert (HB : Forall (fun r => all_bytes (r_payload r)) (snd s)) by (apply Forall_impl with (2 := F1); tauto).
  destruct (section_gives_text _ _ _ _ _ HB HM) as (f & R & G). exists (f :: fs). split; [constructor; assumption|].
  cbn [flat_map map concat]. rewrite I2, (G (HD _ _ (or_introl eq_refl) R)), (clean_same _ (clean_section _ _ _ HB R)). reflexivity.
Qed.
Lemma document_text : forall before v s ds ss t after, root_name s = zs "HwpSummaryInfo" ->
  numbered before (Elem (zs "HwpDoc") [(zs "version", v)] [] [s; Elem (zs "DocInfo") [] [] ds; Elem (zs "BodyText") [] [] ss]) t after ->
  plaintext (read_back [] (events_of t)) = Some (flat_map gives_text ss).
Proof.
  intros before v s ds ss t after HS H. inversion H as [? ? ? ? ? ? ? ? ? _ _ N]; subst. inversion N as [|? ? s' ? ? ? ? N1 N2]; subst. inversion N2 as [|? ? d' ? ? ? ? N3 N4]; subst.
  inversion N4 as [|? ? b' ? ? ? ? N5 N6]; subst. inversion N6; subst. unfold plaintext. rewrite build_is. f_equal.
  destruct (proj1 numbers_silent _ _ _ _ N1) as [_ E1]. rewrite HS in E1. inversion N3 as [? ? ? ? ? ? ? ? ? _ _ _]; subst. inversion N5 as [? ? ? ? ? ? ? ? ? _ _ N7]; subst.
  destruct s' as [sn sa sx sk]. cbn [root_name] in E1. subst sn. apply numbers_silent in N7.
  assert (E : forall tree rest, tree = Elem (zs "HwpDoc") attrs' [] [Elem (zs "HwpSummaryInfo") sa sx sk; Elem (zs "DocInfo") attrs'0 [] rest; Elem (zs "BodyText") attrs'1 [] kids'0] ->
    root_template [node_of tree] = flat_map apply_templates (map node_of kids'0)).
  { intros tree rest ->. unfold root_template. cbn [filter]. replace (named_node "HwpDoc" _) with true by reflexivity. cbn [flat_map]. rewrite app_nil_r.
    match goal with |- flat_map ?h (children_named _ ?x) = _ => change (children_named "BodyText" x) with [node_of (Elem (zs "BodyText") attrs'1 [] kids'0)] end. cbn [flat_map kids_of_node node_of without_nul filter app]. now rewrite app_nil_r. }
  etransitivity; [exact (E _ kids' eq_refl)|]. rewrite flat_map_map. exact N7.
Qed.
Theorem text_of_document : forall time_text repr object version embedbin formats summary_bytes summary docinfo sections,
  version_ok version -> (forall read n d, embedbin = Some read -> read n = Ok d -> all_bytes d) ->
  stream_reads_as formats summary_bytes summary -> (forall set, In set (pss_sets summary) -> times_ok time_text (ps_properties set)) ->
  docinfo_fits version embedbin docinfo -> Forall (fun s => section_fits version (snd s)) sections ->
  (forall s f, In s sections -> section_records version (snd s) f -> definition_records f = 1%nat) ->
  exists n t fs,
    Forall2 (fun s f => section_records version (snd s) f) sections fs /\
    (forall k fuel, xmlevents (fun v => repr (view_of v)) object (4 + fuel)
       (hwp5file_events time_text embedbin version summary (stream_models (n + k) version (docinfo, Finished))
          (map (fun s => (fst s, stream_models (n + k) version (snd s, Finished))) sections)) = (events_of t, Finished)) /\
    (writable_text t -> forall decl, exists chunks text body,
       xml_bytechunks decl (events_of t) = (chunks, Finished) /\ concat chunks = (if decl then xml_declaration else []) ++ body /\
       utf8_decode body = Some text /\ xml_read text = Some (read_back [] (events_of t))) /\
    plaintext (read_back [] (events_of t)) = Some (concat (map section_text fs)).
Proof.
  intros time_text repr object version embedbin formats summary_bytes summary docinfo sections HV HD HS HT HDF HF H1.
  destruct (made_document time_text repr object version embedbin formats summary_bytes summary docinfo sections HV HD HS HT HDF HF) as (n & s & ds & ss & v & t & after & M1 & M2 & M3 & M4 & M5 & M6 & M7 & M8).
  destruct (sections_give _ _ _ _ _ HF H1 M3) as (fs & F1 & F2). exists n, t, fs. repeat (split; [assumption|]). assert (SN : root_name s = zs "HwpSummaryInfo") by (inversion M1; reflexivity). rewrite (document_text _ _ _ _ _ _ _ SN M5). now rewrite F2.
Qed.
