(** The names of elements and attributes. *)
From Coq Require Import ZArith String List Bool Lia Permutation.
From Verif Require Import Base BaseFacts Model_Text Model_Dataio Model_Record Model_ParaText Model_Bintype Model_Classes Model_Layouts Model_Models
  Model_XmlText Model_XmlElement Spec_Dataio Spec_XmlText Spec_Oleprops Spec_Bintype Spec_Models Spec_Layouts Spec_XmlElement
  Proof_XmlText Proof_Bintype Proof_Models Proof_Layouts Proof_Fits Proof_XmlElement Proof_XmlEntry Proof_XmlParts Proof_XmlRecord.
Import ListNotations.
Open Scope string_scope.
Open Scope list_scope.
Open Scope Z_scope.

Definition xml_nameb (n : list Z) : bool := match n with [] => false | c :: r => name_start c && forallb name_char r end.
Lemma xml_nameb_sound : forall n, xml_nameb n = true -> xml_name n.
Proof. intros [|c r] H; [discriminate|]. cbn in *. apply andb_prop in H as [H1 H2]. split; [exact H1|]. apply Forall_forall. rewrite forallb_forall in H2. exact H2. Qed.
Lemma name_app : forall n s, xml_nameb n = true -> forallb name_char s = true -> xml_nameb (n ++ s) = true.
Proof. intros [|c r] s H1 H2; [discriminate|]. cbn in *. apply andb_prop in H1 as [H1 H3]. rewrite H1, forallb_app, H3, H2. reflexivity. Qed.

Definition good_key (k : string) : bool := String.eqb k "<text>" || xml_nameb (zs k) && xml_nameb (attribute_name k).
Fixpoint tidy (v : view) : bool :=
  match v with
  | Flags _ gs => forallb (fun g => xml_nameb (attribute_name (fst g))) gs
  | Items l => forallb tidy l
  | Members d => forallb (fun m => good_key (fst m) && tidy (snd m)) d
  | _ => true
  end.
Definition tidies (d : list (string * view)) : bool := forallb (fun m => good_key (fst m) && tidy (snd m)) d.

Lemma look_in : forall {V} k (l : list (string * V)) v, look k l = Some v -> In (k, v) l.
Proof.
  intros V k l v H. unfold look in H. destruct (find _ l) as [[k' v']|] eqn:F; [|discriminate]. apply find_some in F as [F E]. cbn in *.
  apply String.eqb_eq in E. inversion H; subst. exact F.
Qed.

(** The table of forms *)
Definition form_named (f : form) : bool :=
  match f with
  | Child c | Children c => xml_nameb (zs c)
  | Chosen _ _ names => forallb (fun n => xml_nameb (zs (snd n))) names
  | _ => true
  end.
Lemma forms_named : forall name key, form_named (form_of name key) = true.
Proof.
  intros name key. unfold form_of. destruct (look name forms) as [l|] eqn:L; [|reflexivity]. destruct (look key l) as [f|] eqn:F; [|reflexivity].
  apply look_in in L. apply look_in in F.
  assert (A : forallb (fun e => forallb (fun m => form_named (snd m)) (snd e)) forms = true) by (vm_compute; reflexivity).
  rewrite forallb_forall in A. specialize (A _ L). cbn [snd] in A. rewrite forallb_forall in A. exact (A _ F).
Qed.
Lemma text_plain : forall name, form_of name "<text>" = Plain.
Proof.
  intros name. unfold form_of. destruct (look name forms) as [l|] eqn:L; [|reflexivity]. apply look_in in L.
  assert (A : forallb (fun e => match look "<text>" (snd e) with None => true | Some _ => false end) forms = true) by (vm_compute; reflexivity).
  rewrite forallb_forall in A. specialize (A _ L). cbn [snd] in A. destruct (look "<text>" l); [discriminate|reflexivity].
Qed.

Lemma zs_app : forall a b, zs (a ++ b)%string = zs a ++ zs b.
Proof. induction a as [|c a IH]; intros b; [reflexivity|]. cbn. f_equal. apply IH. Qed.

Section Names.
  Variable repr : view -> list Z.
  Variable object : list Z.

  Lemma attribute_named : forall name key x l, attributes_of repr (form_of name key) key x l -> good_key key = true -> tidy x = true ->
    Forall (fun a => xml_name (fst a)) l.
  Proof.
    intros name key x l H HK HT.
    assert (K : key = "<text>" \/ xml_nameb (attribute_name key) = true).
    { unfold good_key in HK. apply orb_prop in HK as [HK|HK]; [left; apply String.eqb_eq; exact HK|right; apply andb_prop in HK; apply HK]. }
    assert (ONE : forall t : list Z, xml_nameb (attribute_name key) = true -> Forall (fun a => xml_name (fst a)) [(attribute_name key, t)]).
    { intros t HN. constructor; [|constructor]. apply xml_nameb_sound. exact HN. }
    destruct K as [-> | K].
    { rewrite text_plain in H. inversion H; subst; try constructor; [congruence|]. contradiction. }
    inversion H; subst; try (apply ONE; exact K); try constructor.
    - apply xml_nameb_sound. exact K.
    - cbn [tidy] in HT. match goal with F : Forall2 _ gs _ |- _ => clear - HT F; induction F as [|g a gs l [E _] F IH]; constructor end.
      + cbn [forallb] in HT. apply andb_prop in HT as [HT _]. rewrite E. apply xml_nameb_sound. exact HT.
      + cbn [forallb] in HT. apply andb_prop in HT as [_ HT]. apply IH. exact HT.
    - cbn [fst]. unfold attribute_name in *. rewrite zs_app, map_app. apply xml_nameb_sound, name_app; [exact K|reflexivity].
    - repeat constructor; cbn [fst]; unfold attribute_name in *; rewrite zs_app, map_app; apply xml_nameb_sound, name_app; try exact K; reflexivity.
  Qed.
  Lemma missing_named : forall name d, Forall (fun a => xml_name (fst a)) (missing object name d).
  Proof.
    intros name d. unfold missing. apply Forall_app. split.
    - destruct (look "bindata" d); [constructor|]. destruct (String.eqb name "BinData"); [|constructor]. constructor; [|constructor]. apply xml_nameb_sound. reflexivity.
    - destruct (look "rowcols" d); [constructor|]. destruct (String.eqb name "TableBody"); [|constructor]. constructor; [|constructor]. apply xml_nameb_sound. reflexivity.
  Qed.

  Scheme element_ind' := Induction for Spec_XmlElement.element Sort Prop
    with children_ind' := Induction for children Sort Prop
    with elements_ind' := Induction for elements Sort Prop.

  Theorem element_named : forall name d t, Spec_XmlElement.element repr object name d t -> xml_nameb (zs name) = true -> tidies d = true -> well_named t.
  Proof.
    assert (SUB : forall d key, tidies d = true -> good_key key = true -> tidies (d ++ [("attribute-name", Text (zs key))]) = true).
    { intros d key HD HK. unfold tidies in *. rewrite forallb_app, HD. reflexivity. }
    assert (KEYS : forall key (x : view) r, tidies ((key, x) :: r) = true -> good_key key = true /\ tidy x = true /\ tidies r = true).
    { intros key x r H. unfold tidies in H. cbn [forallb fst snd] in H. apply andb_prop in H as [H H2]. apply andb_prop in H as [H0 H1]. auto. }
    apply (element_ind' repr object
      (fun name d t _ => xml_nameb (zs name) = true -> tidies d = true -> well_named t)
      (fun name d r ts _ => tidies r = true -> Forall well_named ts)
      (fun c l ts _ => xml_nameb (zs c) = true -> forallb tidy l = true -> Forall well_named ts)).
    - intros name d listed attrs kids F P N C IH HN HT. constructor; [apply xml_nameb_sound; exact HN|exact N| |exact (IH HT)].
      apply Permutation_sym in P. apply (Permutation_Forall P). apply Forall_app. split; [|apply missing_named].
      apply Forall_concat. clear - F HT KEYS. induction F as [|[key x] l d listed HA F IH]; constructor.
      + apply KEYS in HT as (HK & HX & _). exact (attribute_named name key x l HA HK HX).
      + apply KEYS in HT as (_ & _ & HT). auto.
    - constructor.
    - intros name d key x r ts _ C IH HT. apply KEYS in HT. apply IH, HT.
    - intros name d key c m r t ts EF E IHE C IHC HT. apply KEYS in HT as (HK & HX & HT). constructor; [|auto]. apply IHE.
      + pose proof (forms_named name key) as FN. rewrite EF in FN. exact FN.
      + apply SUB; [exact HX|exact HK].
    - intros name d key member group names n c m r t ts EF EG HI E IHE C IHC HT. apply KEYS in HT as (HK & HX & HT). constructor; [|auto]. apply IHE.
      + pose proof (forms_named name key) as FN. rewrite EF in FN. cbn [form_named] in FN. rewrite forallb_forall in FN. exact (FN _ HI).
      + apply SUB; [exact HX|exact HK].
    - intros name d key c l r us ts EF E IHE C IHC HT. apply KEYS in HT as (HK & HX & HT). constructor; [|auto].
      pose proof (forms_named name key) as FN. rewrite EF in FN. constructor.
      + apply xml_nameb_sound. reflexivity.
      + constructor; [intros []|constructor].
      + constructor; [|constructor]. apply xml_nameb_sound. reflexivity.
      + apply IHE; [exact FN|exact HX].
    - intros name d key l r us ts EF E C IHC HT. apply KEYS in HT as (HK & HX & HT). apply Forall_app. split; [|auto].
      assert (K : xml_nameb (zs key) = true).
      { unfold good_key in HK. apply orb_prop in HK as [HK|HK]; [|apply andb_prop in HK; apply HK]. apply String.eqb_eq in HK. subst key. rewrite text_plain in EF. discriminate. }
      clear - E K. induction E as [|n r g b a l ts _ _ _ _ E IH]; constructor; [|exact IH]. constructor.
      + apply xml_nameb_sound. exact K.
      + apply distinct_texts_sound. reflexivity.
      + repeat (constructor; [apply xml_nameb_sound; reflexivity|]). constructor.
      + constructor.
    - constructor.
    - intros c m l t ts E IHE ES IHS HC HT. cbn [forallb] in HT. apply andb_prop in HT as [HT1 HT2]. constructor; auto.
  Qed.
End Names.

(** ** What records have *)
Fixpoint kind_named (k : kind) : bool :=
  match k with
  | Bits _ gs => forallb (fun g => match g with Group n _ _ _ => xml_nameb (attribute_name n) end) gs
  | Fields fs => forallb (fun f => good_key (fst (fst (fst f))) && kind_named (snd f)) fs
  | Repeat _ k | Counted _ k | Times _ k => kind_named k
  | Choice _ _ l => forallb (fun a => kind_named (snd a)) l
  | _ => true
  end.
Lemma records_named : forall c, kind_named (Fields (record_fields c)) = true.
Proof.
  intros c. unfold record_fields.
  match goal with |- context [find ?f ?l] => destruct (find f l) as [[n fs]|] eqn:F; [|reflexivity]; apply find_some in F as [F _];
    assert (L : forallb (fun e => kind_named (Fields (snd e))) l = true) by (vm_compute; reflexivity) end.
  rewrite forallb_forall in L. exact (L _ F).
Qed.

Lemma forallb_ext' : forall A (f g : A -> bool) l, (forall x, f x = g x) -> forallb f l = forallb g l.
Proof. intros A f g l H. induction l as [|x l IH]; [reflexivity|]. cbn. rewrite H, IH. reflexivity. Qed.
Lemma forallb_map : forall A B (f : B -> bool) (g : A -> B) l, forallb f (map g l) = forallb (fun x => f (g x)) l.
Proof. intros A B f g l. induction l as [|x l IH]; [reflexivity|]. cbn. rewrite IH. reflexivity. Qed.

Section Fitting.
  Variable version : list Z.
  Variable parent : node.

  Lemma tidies_views : forall d, tidies (views d) = forallb (fun kv => good_key (fst kv) && tidy (view_of (snd kv))) d.
  Proof. induction d as [|[k v] d IH]; [reflexivity|]. cbn [views map tidies forallb fst snd]. f_equal. exact IH. Qed.
  Lemma tidies_set : forall d k v, tidies (views d) = true -> good_key k = true -> tidy (view_of v) = true -> tidies (views (dict_set k v d)) = true.
  Proof.
    intros d k v. rewrite !tidies_views. induction d as [|[k' v'] d IH]; intros HD HK HV; cbn [dict_set forallb fst snd] in *.
    - rewrite HK, HV. reflexivity.
    - apply andb_prop in HD as [HD1 HD2]. destruct (String.eqb k k'); cbn [forallb fst snd].
      + rewrite HD2. apply andb_prop in HD1 as [HD1 _]. rewrite ?HD1, ?HK, HV. reflexivity.
      + rewrite HD1, IH; auto.
  Qed.

  Lemma forall_tidy : forall k l, (forall v, fits version parent k [] (Some v) -> tidy (view_of v) = true) ->
    Forall (fun v => fits version parent k [] (Some v)) l -> forallb tidy (map view_of l) = true.
  Proof. intros k l HK H. rewrite forallb_forall. intros x HI. apply in_map_iff in HI as (v & <- & HI). rewrite Forall_forall in H. auto. Qed.

  Lemma fields_tidy : forall fs, Forall (fun f => kind_named (snd f) = true -> forall env v, fits version parent (snd f) env (Some v) -> tidy (view_of v) = true) fs ->
    kind_named (Fields fs) = true -> forall env d, fit_fields version parent fs env d -> tidies (views env) = true -> tidies (views d) = true.
  Proof.
    intros fs H. induction H as [|f fs HF H IH]; intros HN env d HD HE.
    - inversion HD; subst. exact HE.
    - cbn [kind_named forallb] in HN. apply andb_prop in HN as [HN1 HN2]. apply andb_prop in HN1 as [HK HN1].
      inversion HD; subst; cbn [fst snd] in *; try (eapply IH; eassumption).
      match goal with X : fit_fields _ _ _ (added_to _ ?x _) _ |- _ => destruct x as [x'|]; cbn [added_to] in X; (eapply IH; [exact HN2|exact X|]) end; [|exact HE].
      apply tidies_set; [exact HE|exact HK|]. eapply HF; [exact HN1|eassumption].
  Qed.

  Lemma fits_tidy : forall k, kind_named k = true -> forall env v, fits version parent k env (Some v) -> tidy (view_of v) = true.
  Proof.
    apply (kind_rect' (fun k => kind_named k = true -> forall env v, fits version parent k env (Some v) -> tidy (view_of v) = true));
      try (intros; match goal with F : fits _ _ _ _ _ |- _ => inversion F; subst; reflexivity end).
    - intros w gs HN env v HF. inversion HF; subst. cbn [view_of tidy kind_named] in *. rewrite !map_map, forallb_map.
      match goal with |- forallb ?f _ = _ => rewrite (forallb_ext' _ f (fun g => match g with Group n _ _ _ => xml_nameb (attribute_name n) end)) end; [exact HN|].
      intros [gn lo hi e]. reflexivity.
    - intros fs IH HN env v HF. inversion HF; subst. cbn [view_of tidy]. change (tidies (views d) = true).
      eapply fields_tidy; try eassumption. reflexivity.
    - intros n k IH HN env v HF. inversion HF; subst. cbn [view_of tidy]. eapply forall_tidy; [|eassumption]. apply IH, HN.
    - intros w k IH HN env v HF. inversion HF; subst. cbn [view_of tidy]. eapply forall_tidy; [|eassumption]. apply IH, HN.
    - intros n k IH HN env v HF. inversion HF; subst. cbn [view_of tidy]. eapply forall_tidy; [|eassumption]. apply IH, HN.
    - intros m g l IH HN env v HF. inversion HF; subst. cbn [kind_named] in HN.
      match goal with F : find _ l = Some _ |- _ => apply find_some in F as [F _] end. rewrite Forall_forall in IH. rewrite forallb_forall in HN.
      eapply (IH (n, k)); [eassumption|apply (HN (n, k)); assumption|eassumption].
  Qed.

  Lemma record_tidy : forall c d, fit_fields version parent (record_fields c) [] d -> tidies (views d) = true.
  Proof.
    intros c d H. eapply fields_tidy; [|apply records_named|exact H|reflexivity]. apply Forall_forall. intros f _. apply fits_tidy.
  Qed.
End Fitting.

Lemma kept_tidy : forall T l l', kept T l l' -> tidies (views l) = true -> tidies (views l') = true.
Proof.
  intros T l l' H. rewrite !tidies_views. induction H as [|m l l' H IH|v l l' E H IH|d x l l' E HA H IH]; intros HT; cbn [forallb fst snd] in *; auto.
  - apply andb_prop in HT as [-> HT]. auto.
  - apply andb_prop in HT as [_ HT]. auto.
  - apply andb_prop in HT as [HD HT]. rewrite (IH HT). cbn [view_of tidy] in *. rewrite map_app, forallb_app. apply andb_prop in HD as [HK HD]. rewrite HK, HD. cbn [andb].
    rewrite andb_true_r. rewrite forallb_forall. intros y HI. apply in_map_iff in HI as (kv & <- & HI). destruct HA as [_ HA]. rewrite Forall_forall in HA. specialize (HA kv HI) as (HI2 & t & ->).
    cbn [fst snd view_of tidy]. rewrite andb_true_r. destruct HI2 as [<-|[<-|[]]]; reflexivity.
Qed.

Lemma pair_named : forall base T, In (base, T) pairs -> xml_nameb (zs T) = true.
Proof.
  intros base T H. assert (A : forallb (fun p => xml_nameb (zs (snd p))) pairs = true) by (vm_compute; reflexivity).
  rewrite forallb_forall in A. exact (A _ H).
Qed.

(** The element of a record has names that can be written. *)
Theorem record_named : forall repr object version parent tagid payload m A X t, all_bytes payload ->
  reads version parent tagid payload (Ok m) -> kept (m_type m) (m_content m) A -> tidies (views X) = true ->
  Spec_XmlElement.element repr object (m_type m) (views (A ++ X)) t -> well_named t.
Proof.
  intros repr object version parent tagid payload m A X t HB HR HK HX HE.
  assert (G : xml_nameb (zs (m_type m)) = true /\ tidies (views (m_content m)) = true).
  { inversion HR as [d tr s E R|d0 d tr0 tr1 s0 s t' E R L| | |]; subst; cbn [m_type m_content].
    - split; [exact (pair_named _ _ (tag_pair tagid))|]. apply layout_fits in E as [F _]; [|exact HB]. exact (record_tidy _ _ _ _ F).
    - pose proof (refined_pair _ _ _ _ R) as P. split; [exact (pair_named _ _ P)|].
      apply layout_fits in E as [F B]; [|exact HB]. apply record_tidy in F. clear - F B L. revert d0 s0 tr1 F B L.
      induction (refinement_layouts t') as [|c cs IH]; intros d0 s0 tr1 F B L; cbn [layouts] in L.
      + unfold ret in L. inversion L; subst. exact F.
      + apply andthen_ok in L as (tr2 & s1 & e & tr3 & E & L). apply layout_fits in E as [FE BE]; [|exact B]. apply record_tidy in FE.
        eapply IH; [|exact BE|exact L]. clear - F FE. unfold overwritten. revert d0 F FE. induction e as [|[k v] e IH]; intros d0 F FE; [exact F|].
        cbn [fold_left fst snd]. rewrite tidies_views in FE. cbn [forallb fst snd] in FE. apply andb_prop in FE as [FE1 FE2]. apply andb_prop in FE1 as [K V].
        apply IH; [apply tidies_set; assumption|]. rewrite tidies_views. exact FE2. }
  destruct G as [GN GT]. apply (element_named repr object _ _ _ HE GN).
  unfold views. rewrite map_app. unfold tidies. rewrite forallb_app. apply andb_true_intro. split; [exact (kept_tidy _ _ _ HK GT)|exact HX].
Qed.
