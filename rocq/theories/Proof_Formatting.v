(** From records to the nodes style sheets see. *)
From Coq Require Import ZArith String List Bool Lia Permutation.
From Verif Require Import Base BaseFacts Model_Tree Spec_Tree Model_ParaText Spec_ParaText Model_Shape Spec_Shape Model_Lang Model_Classes Model_XmlModel.
From Verif Require Import Model_Text Model_Dataio Model_Record Model_Bintype Model_Layouts Model_Models Model_Oleprops Model_Embed Spec_Embed
  Model_XmlText Model_XmlElement Model_XmlFile Spec_XmlText Spec_Bintype Spec_Models Spec_Oleprops Spec_Layouts Spec_XmlElement Spec_XmlModel Spec_Section Spec_XmlFile Spec_XmlSummary Spec_XmlHwp
  Proof_Record Proof_Text Proof_Tree Proof_Models Proof_Layouts Proof_Fits Proof_Section Proof_XmlText Proof_OleText Proof_XmlElement Proof_XmlEntry Proof_XmlRecord Proof_XmlNames Proof_XmlDocument Proof_XmlDocinfo
  Proof_XmlPasses Proof_XmlFile Proof_XmlSection Proof_XmlSummary Proof_XmlIds Proof_XmlHwp Model_Plaintext Spec_Plaintext Proof_Plaintext Proof_PlaintextXml Spec_Formatting.
From Verif Require Model_Html Spec_Html Proof_Html Proof_Html3 Model_Opendoc Spec_Opendoc Proof_Opendoc6.
Import ListNotations.
Open Scope string_scope.
Open Scope list_scope.
Open Scope Z_scope.

(** ** Elements of a tree *)
Fixpoint xparts (t : xtree) : list xtree := match t with Elem _ _ _ kids => t :: flat_map xparts kids end.
Definition xnamed (s : string) (t : xtree) : bool := name_is s (root_name t).
Definition xhas (s : string) (t : xtree) : bool := existsb (xnamed s) (own_kids t).
Definition all_of_nodes (document : list xnode) : list xnode := map Model_Html.self (Model_Html.all_nodes document).

Lemma all_parts : forall document, all_of_nodes document = flat_map Spec_Html.parts document.
Proof.
  intros document. unfold all_of_nodes, Model_Html.all_nodes. induction document as [|x l IH]; [reflexivity|]. cbn [flat_map]. now rewrite map_app, IH, Proof_Opendoc6.parts_below.
Qed.
Lemma filter_flat_map : forall A B (p : B -> bool) (f : A -> list B) l, filter p (flat_map f l) = flat_map (fun x => filter p (f x)) l.
Proof. intros A B p f l. induction l as [|x l IH]; [reflexivity|]. cbn. now rewrite filter_app, IH. Qed.
Lemma map_flat : forall A B C (g : B -> C) (f : A -> list B) l, map g (flat_map f l) = flat_map (fun x => map g (f x)) l.
Proof. intros A B C g f l. induction l as [|x l IH]; [reflexivity|]. cbn. now rewrite map_app, IH. Qed.
Lemma flat_map_same : forall A B (f g : A -> list B) l, (forall x, In x l -> f x = g x) -> flat_map f l = flat_map g l.
Proof. intros A B f g l H. induction l as [|x l IH]; [reflexivity|]. cbn. rewrite H by now left. f_equal. apply IH. intros y HI. apply H. now right. Qed.
Lemma text_nodes : forall (t : list Z) p, (forall c, p (Characters c) = false) -> forall ks, filter p (flat_map Spec_Html.parts (match t with [] => [] | c :: r => [Characters (c :: r)] end ++ ks)) = filter p (flat_map Spec_Html.parts ks).
Proof. intros [|c r] p H ks; [reflexivity|]. cbn [app flat_map]. rewrite filter_app. cbn [Spec_Html.parts filter]. now rewrite H. Qed.
Lemma parts_of : forall (p : xnode -> bool) q, (forall t, p (node_of t) = q t) -> (forall c, p (Characters c) = false) ->
  forall t, filter p (Spec_Html.parts (node_of t)) = map node_of (filter q (xparts t)).
Proof.
  intros p q PQ PC. apply xtree_all. intros n a x k IH. cbn [xparts]. rewrite <- (PQ (Elem n a x k)) || idtac. cbn [filter]. rewrite <- PQ. cbn [node_of Spec_Html.parts].
  cbn [filter]. rewrite (text_nodes _ p PC), filter_flat_map, flat_map_map.
  assert (E : flat_map (fun y => filter p (Spec_Html.parts (node_of y))) k = map node_of (filter q (flat_map xparts k))).
  { rewrite filter_flat_map, map_flat. apply flat_map_same. intros y HI. rewrite Forall_forall in IH. now apply IH. }
  rewrite E. destruct (p _); reflexivity.
Qed.
Lemma nodes_of : forall p q, (forall t, p (node_of t) = q t) -> (forall c, p (Characters c) = false) ->
  forall t, filter p (all_of_nodes [node_of t]) = map node_of (filter q (xparts t)).
Proof. intros p q PQ PC t. rewrite all_parts. cbn [flat_map]. rewrite app_nil_r. now apply parts_of. Qed.
Lemma node_name : forall s t, named_node s (node_of t) = xnamed s t.
Proof. intros s [n a x k]. reflexivity. Qed.
Lemma node_children : forall s t, children_named s (node_of t) = map node_of (filter (xnamed s) (own_kids t)).
Proof.
  intros s [n a x k]. cbn [node_of children_named own_kids]. rewrite filter_app.
  assert (E : filter (fun k0 => match k0 with Element n0 _ _ => name_is s n0 | Characters _ => false end) (match without_nul x with [] => [] | c :: r => [Characters (c :: r)] end) = []) by (destruct (without_nul x); reflexivity).
  rewrite E. cbn [app]. clear E. induction k as [|t k IH]; [reflexivity|]. cbn [map filter]. change (match node_of t with Element n0 _ _ => name_is s n0 | Characters _ => false end) with (named_node s (node_of t)).
  rewrite node_name. destruct (xnamed s t); cbn [map]; now rewrite IH.
Qed.
Lemma node_has : forall s t, match children_named s (node_of t) with [] => false | _ => true end = xhas s t.
Proof.
  intros s t. rewrite node_children. unfold xhas. induction (own_kids t) as [|u l IH]; [reflexivity|]. cbn [filter existsb]. destruct (xnamed s u); [reflexivity|exact IH].
Qed.
Lemma parents_of : forall s t, Spec_Html.parents s [node_of t] = map node_of (filter (xhas s) (xparts t)).
Proof. intros s t. unfold Spec_Html.parents. apply nodes_of; [apply node_has|reflexivity]. Qed.
Lemma named_of : forall s t, filter (named_node s) (all_of_nodes [node_of t]) = map node_of (filter (xnamed s) (xparts t)).
Proof. intros s t. apply nodes_of; [apply node_name|reflexivity]. Qed.

(** ** Elements without those of certain names *)
Definition calm (names : list string) (t : xtree) : Prop := Forall (fun u => forall s, In s names -> xnamed s u = false) (xparts t).
Lemma calm_less : forall names names' t, incl names' names -> calm names t -> calm names' t.
Proof. intros names names' t H C. unfold calm in *. eapply Forall_impl; [|exact C]. intros u HU s HS. apply HU. now apply H. Qed.
Lemma calm_elem : forall names n a x k, calm names (Elem n a x k) <-> (forall s, In s names -> name_is s n = false) /\ Forall (calm names) k.
Proof.
  intros names n a x k. unfold calm. cbn [xparts]. split.
  - intros H. inversion H as [|? ? H1 H2]; subst. split; [exact H1|]. apply Forall_forall. intros u HI. apply Forall_forall. intros v HV. rewrite Forall_forall in H2. apply H2. apply in_flat_map. now exists u.
  - intros [H1 H2]. constructor; [exact H1|]. apply Forall_forall. intros v HV. apply in_flat_map in HV as (u & HU & HV). rewrite Forall_forall in H2. specialize (H2 u HU). rewrite Forall_forall in H2. now apply H2.
Qed.
Lemma calm_named : forall names s t, In s names -> calm names t -> filter (xnamed s) (xparts t) = [].
Proof. intros names s t HS H. apply Proof_Html.filter_none. intros u HI. unfold calm in H. rewrite Forall_forall in H. now apply H. Qed.
Lemma calms_have : forall names s ks, In s names -> Forall (calm names) ks -> existsb (xnamed s) ks = false.
Proof.
  intros names s ks HS H. induction H as [|[n a x k] ks H1 H2 IH]; [reflexivity|]. cbn [existsb]. apply calm_elem in H1 as [H1 _]. unfold xnamed at 1. cbn [root_name]. rewrite H1 by exact HS. exact IH.
Qed.
Lemma calm_has : forall names s t, In s names -> Forall (calm names) (own_kids t) -> filter (xhas s) (xparts t) = [].
Proof.
  intros names s t HS. revert t. apply (xtree_all (fun t => Forall (calm names) (own_kids t) -> filter (xhas s) (xparts t) = [])). intros n a x k IH H. cbn [own_kids] in H. cbn [xparts filter]. unfold xhas at 1. cbn [own_kids].
  rewrite (calms_have names s k HS H), filter_flat_map. apply Proof_Html3.flat_map_none. intros u HI. rewrite Forall_forall in IH, H. apply IH; [exact HI|]. specialize (H u HI). destruct u as [n' a' x' k']. now apply calm_elem in H.
Qed.
(** Names that no part of an element has by itself. *)
Definition own_names : list string := shape_types ++ ["Paragraph"; "ColumnSet"; "PageDef"].
Definition calm_form (key : string) (f : form) : bool :=
  let ok := fun c => forallb (fun s => negb (name_is s (zs c))) own_names in
  match f with
  | Child c | Children c => ok c
  | Chosen _ _ names => forallb (fun n => ok (snd n)) names
  | Colors => ok key
  | _ => true
  end.
Lemma forms_calm : forall name key, calm_form key (form_of name key) = true.
Proof.
  intros name key. unfold form_of. destruct (look name forms) as [l|] eqn:L; [|reflexivity]. destruct (look key l) as [f|] eqn:F; [|reflexivity].
  apply look_in in L. apply look_in in F.
  assert (A : forallb (fun e => forallb (fun m => calm_form (fst m) (snd m)) (snd e)) forms = true) by (vm_compute; reflexivity).
  rewrite forallb_forall in A. specialize (A _ L). cbn [snd] in A. rewrite forallb_forall in A. exact (A _ F).
Qed.
Lemma calm_name : forall c, forallb (fun s => negb (name_is s (zs c))) own_names = true -> forall s, In s own_names -> name_is s (zs c) = false.
Proof. intros c H s HS. rewrite forallb_forall in H. specialize (H s HS). now apply negb_true_iff in H. Qed.
Section Own.
  Variable repr : view -> list Z.
  Variable object : list Z.
  Lemma element_calm : forall name d t, Spec_XmlElement.element repr object name d t -> Forall (calm own_names) (own_kids t) /\ root_name t = zs name.
  Proof.
    assert (B : forall t c, Forall (calm own_names) (own_kids t) /\ root_name t = zs c -> forallb (fun s => negb (name_is s (zs c))) own_names = true -> calm own_names t).
    { intros [n a x k] c (H2 & H3) H. cbn in *. subst. apply calm_elem. split; [now apply calm_name|exact H2]. }
    apply (element_ind' repr object
      (fun name d t _ => Forall (calm own_names) (own_kids t) /\ root_name t = zs name)
      (fun name d r ts _ => Forall (calm own_names) ts)
      (fun c l ts _ => forallb (fun s => negb (name_is s (zs c))) own_names = true -> Forall (calm own_names) ts)).
    - intros name d listed attrs kids _ _ _ _ IH. cbn [own_kids root_name]. auto.
    - constructor.
    - intros name d key x r ts _ _ IH. exact IH.
    - intros name d key c m r t ts F _ IH _ IH'. pose proof (forms_calm name key) as O. rewrite F in O. constructor; [|exact IH']. now apply (B _ c).
    - intros name d key member group names n c m r t ts F _ HI _ IH _ IH'. pose proof (forms_calm name key) as O. rewrite F in O. cbn [calm_form] in O. rewrite forallb_forall in O.
      constructor; [|exact IH']. apply (B _ c); [exact IH|exact (O _ HI)].
    - intros name d key c l r us ts F _ IH _ IH'. pose proof (forms_calm name key) as O. rewrite F in O. constructor; [|exact IH']. apply calm_elem. split; [|now apply IH]. apply calm_name. reflexivity.
    - intros name d key l r us ts F C _ IH'. pose proof (forms_calm name key) as O. rewrite F in O. apply Forall_app. split; [|exact IH'].
      clear - C O. induction C; constructor; [|assumption]. apply calm_elem. split; [now apply calm_name|constructor].
    - constructor.
    - intros c m l t ts _ IH _ IH' HC. constructor; [|now apply IH']. now apply (B _ c).
  Qed.
End Own.

(** ** With numbers *)
Lemma numbered_names_kept : (forall before t t' after, numbered before t t' after -> root_name t' = root_name t /\ (forall names, calm names t -> calm names t')) /\
  (forall before ts ts' after, all_numbered before ts ts' after -> forall names, Forall (calm names) ts -> Forall (calm names) ts').
Proof.
  apply numbered_both.
  - intros before n attrs text kids number attrs' kids' after _ _ _ IH. split; [reflexivity|]. intros names. rewrite !calm_elem. intros [H1 H2]. split; [exact H1|now apply IH].
  - constructor.
  - intros before t t' middle ts ts' after _ [_ E1] _ E2 names H. inversion H; subst. constructor; auto.
Qed.
Lemma all_numbered_app : forall a b before ts after, all_numbered before (a ++ b) ts after ->
  exists ts1 ts2 middle, ts = ts1 ++ ts2 /\ all_numbered before a ts1 middle /\ all_numbered middle b ts2 after.
Proof.
  induction a as [|t a IH]; intros b before ts after H.
  - exists [], ts, before. split; [reflexivity|]. split; [constructor|exact H].
  - cbn [app] in H. inversion H as [|? ? t' m ? us ? N1 N2]; subst. destruct (IH _ _ _ _ N2) as (ts1 & ts2 & mid & -> & A1 & A2).
    exists (t' :: ts1), ts2, mid. split; [reflexivity|]. split; [econstructor; eassumption|exact A2].
Qed.
Definition with_number {A} (shows : A -> xtree -> Prop) (x : A) (u' : xtree) : Prop := exists u b a, shows x u /\ numbered b u u' a.
Lemma written_numbered : forall A (shows : A -> xtree -> Prop) f ts, written shows f ts ->
  forall before ts' after, all_numbered before ts ts' after -> written (with_number shows) f ts'.
Proof.
  intros A shows f ts H. induction H as [|x k n t ks ts HS HK IHK HN IHN]; intros before ts' after N; inversion N as [|? ? t' m ? us ? N1 N2]; subst; [constructor|].
  destruct t as [nm attrs text own]. cbn [with_children] in N1. inversion N1 as [? ? ? ? ? number attrs' kids' ? NA PA NK]; subst.
  destruct (all_numbered_app _ _ _ _ _ NK) as (own' & ks' & mid & -> & A1 & A2).
  change (Elem nm attrs' text (own' ++ ks')) with (with_children (Elem nm attrs' text own') ks'). constructor; [|now apply (IHK _ _ _ A2)|now apply (IHN _ _ _ N2)].
  exists (Elem nm attrs text own), before, mid. split; [exact HS|]. econstructor; eassumption.
Qed.
Lemma written_app : forall A (shows : A -> xtree -> Prop) f g ts, written shows (fapp f g) ts -> exists a b, ts = a ++ b /\ written shows f a /\ written shows g b.
Proof.
  intros A shows f g. induction f as [|x k _ n IH]; intros ts H.
  - exists [], ts. split; [reflexivity|]. split; [constructor|exact H].
  - cbn [fapp] in H. inversion H as [|? ? ? t ks us HS HK HN]; subst. destruct (IH _ HN) as (a & b & -> & H1 & H2). exists (with_children t ks :: a), b. split; [reflexivity|]. split; [now constructor|exact H2].
Qed.
Lemma written_trees : forall A (shows : A -> xtree -> Prop) f ts, written shows f ts ->
  Forall2 (fun t u => exists u0 ks, shows (fst t) u0 /\ written shows (snd t) ks /\ u = with_children u0 ks) (trees f) ts.
Proof. intros A shows f ts H. induction H as [|x k n t ks ts HS HK _ HN IHN]; [constructor|]. cbn [trees]. constructor; [|exact IHN]. exists t, ks. auto. Qed.
(** What is written for items that are no shapes. *)
Lemma written_calm : forall A names (shows : A -> xtree -> Prop) (nm : A -> string) f ts, written shows f ts ->
  (forall x u, shows x u -> Forall (calm names) (own_kids u) /\ root_name u = zs (nm x)) -> (forall x, In x (all_items f) -> ~ In (nm x) names) -> Forall (calm names) ts.
Proof.
  intros A names shows nm f ts H. induction H as [|x k n t ks ts HS HK IHK HN IHN]; intros HO HX; [constructor|].
  destruct (HO _ _ HS) as [O1 O2]. destruct t as [n0 a0 x0 k0]. cbn [own_kids root_name with_children] in *. subst n0.
  constructor; [|apply IHN; [exact HO|intros y HI; apply HX; right; apply in_or_app; now right]]. apply calm_elem. split.
  - intros s HS'. unfold name_is. destruct (list_eq_dec _ _ _) as [E|E]; [|reflexivity]. exfalso. apply zs_inj in E. apply (HX x); [now left|]. now rewrite E.
  - apply Forall_app. split; [exact O1|]. apply IHK; [exact HO|]. intros y HI. apply HX. right. apply in_or_app. now left.
Qed.
Lemma with_number_own : forall A names (shows : A -> xtree -> Prop) (nm : A -> string), (forall x u, shows x u -> Forall (calm names) (own_kids u) /\ root_name u = zs (nm x)) ->
  forall x u, with_number shows x u -> Forall (calm names) (own_kids u) /\ root_name u = zs (nm x).
Proof.
  intros A names shows nm H x u' (u & b & a & HS & N). destruct (H _ _ HS) as [H1 H2]. inversion N as [? ? ? ? ? ? ? ? ? _ _ NK]; subst. cbn [own_kids root_name] in *. split; [|exact H2].
  exact (proj2 numbered_names_kept _ _ _ _ NK _ H1).
Qed.
