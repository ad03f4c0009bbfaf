(** The attributes and children of one member. *)
From Coq Require Import ZArith String List Bool Lia Permutation.
From Verif Require Import Base BaseFacts Model_Text Model_Dataio Model_Record Model_ParaText Model_Bintype Model_Classes Model_Layouts Model_Models
  Model_XmlText Model_XmlElement Spec_Dataio Spec_Oleprops Spec_Bintype Spec_Models Spec_Layouts Spec_XmlElement
  Proof_Text Proof_Dataio Proof_OleText Proof_Bintype Proof_Models Proof_Embed Proof_Layouts Proof_Fits Proof_XmlElement.
Import ListNotations.
Open Scope string_scope.
Open Scope list_scope.
Open Scope Z_scope.

(** ** What has to be true of the declarations *)

(** Members that others refer to stay as they were read. *)
Definition referable (m : string) : bool := negb (existsb (String.eqb m) ["chid0"; "rowcols"; "bindata"]).
Fixpoint plain_test (t : test) : bool :=
  match t with
  | Always => true
  | IsSet m _ | IsClear m _ => referable m
  | IdIs _ => true
  | ParentIs _ => false
  | Both a b => plain_test a && plain_test b
  end.
Definition test_ok (key : string) (t : test) (k : kind) (T : string) : bool :=
  match t with
  | ParentIs s => String.eqb key "chid0" && negb (String.eqb "" s) && match k, form_of T key with Id4, Plain => true | _, _ => false end
  | _ => plain_test t
  end.
Definition always_there (v : Z * Z * Z * Z) (t : test) : bool :=
  let '(a, b, c, d) := v in (a =? 0) && (b =? 0) && (c =? 0) && (d =? 0) && match t with Always => true | _ => false end.
Definition has_group (known : list (string * list group)) (m g : string) : bool :=
  match dict_get m known with
  | Some gs => match dict_get g (map group_field gs) with Some _ => true | None => false end
  | None => false
  end.
Definition depends_ok (known : list (string * list group)) (v : Z * Z * Z * Z) (t : test) (k : kind) : bool :=
  match k with
  | Times (Member m) _ => always_there v t && referable m
  | Times (GroupLessOne m g) _ => referable m && has_group known m g
  | Times (ParentMember _) _ => false
  | Choice m g _ => always_there v t && referable m && has_group known m g
  | _ => true
  end.
Definition learned (key : string) (v : Z * Z * Z * Z) (t : test) (k : kind) (known : list (string * list group)) : list (string * list group) :=
  match k with Bits _ gs => if always_there v t && referable key then (key, gs) :: known else known | _ => known end.
Definition special (T key : string) : bool :=
  String.eqb T "BinData" && String.eqb key "bindata" || String.eqb T "TableBody" && String.eqb key "rowcols".
Definition special_ok (T key : string) (v : Z * Z * Z * Z) (t : test) (k : kind) : bool :=
  if String.eqb T "BinData" && String.eqb key "bindata" then always_there v t && match k with Choice _ _ _ => true | _ => false end
  else if String.eqb T "TableBody" && String.eqb key "rowcols" then
    always_there v t && match k with Times _ (Unsigned _) => true | _ => false end && match form_of T key with Plain => true | _ => false end
  else match k with Choice _ _ _ => false | _ => true end.

Section Static.
  (** for a part that becomes an element *)
  Variable ok : string -> list field_spec -> faces -> bool.

  Fixpoint choice_ok (l : list (Z * kind)) (fl : list face) (names : list (Z * string)) : bool :=
    match l, fl, names with
    | [], [], [] => true
    | (n, Fields fs) :: l, FStruct cls fcs :: fl, (n', cls') :: names =>
        (n =? n') && String.eqb cls cls' && ok cls fs fcs && choice_ok l fl names
    | _, _, _ => false
    end.
  Definition side_ok (side : string) (f : field_spec) : bool :=
    match f with
    | (key, v, t, Signed _) => String.eqb key side && always_there v t
    | _ => false
    end.
  Definition form_ok (T key : string) (k : kind) (f : face) (fm : form) : bool :=
    match k, f, fm with
    | Bits w gs, FPlain, Hex d => Nat.eqb d (2 * w) && Nat.ltb 0 w
    | Unsigned 2, FWchar, Char => true
    | Unsigned 2, FStorage, Storage => true
    | Signed 4, FColor, Color => true
    | Fields [l; r; t; b], FMargin, Box => side_ok "left" l && side_ok "right" r && side_ok "top" t && side_ok "bottom" b
    | Fields fs, FStruct cls fcs, Child cls' => String.eqb cls cls' && ok cls fs fcs
    | (Repeat _ (Fields fs) | Counted _ (Fields fs) | Times _ (Fields fs)), FArray (FStruct cls fcs), Children cls' =>
        String.eqb cls cls' && ok cls fs fcs
    | (Repeat _ (Signed 4) | Counted _ (Signed 4) | Times _ (Signed 4)), FArray FColor, Colors => true
    | Repeat n (Unsigned _), (FPlain | FArray FPlain), Tuple => negb (Nat.eqb n 1)
    | (Counted _ (Unsigned _ | Id4) | Times _ (Unsigned _)), (FPlain | FArray FPlain), Plain => true
    | Choice m g l, FSel fl, Chosen m' g' names => String.eqb m m' && String.eqb g g' && choice_ok l fl names
    | (Unsigned _ | Signed _ | Real | Id4 | Prefixed | Hexadecimal _), FPlain, Plain => true
    | _, _, _ => false
    end.
  Fixpoint fields_ok (T : string) (fcs : faces) (known : list (string * list group)) (fs : list field_spec) : bool :=
    match fs with
    | [] => true
    | (key, v, t, k) :: r =>
        form_ok T key k (face_of key fcs) (form_of T key) && test_ok key t k T && depends_ok known v t k && special_ok T key v t k &&
        negb (existsb (String.eqb key) ["<text>"; "attribute-name"; "inline"]) && fields_ok T fcs (learned key v t k known) r
    end.
End Static.

Fixpoint distinct_texts (l : list (list Z)) : bool :=
  match l with [] => true | x :: r => negb (existsb (fun y => if list_eq_dec Z.eq_dec x y then true else false) r) && distinct_texts r end.
Fixpoint distinct_names (l : list string) : bool :=
  match l with [] => true | x :: r => negb (existsb (String.eqb x) r) && distinct_names r end.
Definition extra_ok (T : string) (parts : list (list field_spec)) (key : string) : bool :=
  match form_of T key with Plain => true | _ => false end && negb (existsb (String.eqb key) (member_names parts)) &&
  negb (existsb (fun y => if list_eq_dec Z.eq_dec (attribute_name key) y then true else false) (possible_names T parts)).
Fixpoint ok (n : nat) (T : string) (parts : list (list field_spec * faces)) : bool :=
  match n with
  | O => false
  | S k =>
      forallb (fun p => fields_ok (fun T fs fcs => ok k T [(fs, fcs)] && forallb (extra_ok T [fs]) ["<text>"; "attribute-name"; "inline"])
                 T (snd p) [] (fst p)) parts &&
      distinct_names (member_names (map fst parts)) && distinct_texts (possible_names T (map fst parts)) &&
      extra_ok T (map fst parts) "<text>" && negb (String.eqb T "Text") &&
      (if String.eqb T "BinData" then existsb (String.eqb "bindata") (member_names (map fst parts)) else true) &&
      (if String.eqb T "TableBody" then existsb (String.eqb "rowcols") (member_names (map fst parts)) else true)
  end.

Lemma distinct_texts_sound : forall l, distinct_texts l = true -> NoDup l.
Proof.
  induction l as [|x l IH]; intros H; constructor; cbn in H; apply andb_prop in H as [H1 H2]; auto.
  intros HI. apply negb_true_iff in H1. rewrite <- not_true_iff_false in H1. apply H1. apply existsb_exists. exists x. split; [exact HI|].
  destruct (list_eq_dec Z.eq_dec x x); congruence.
Qed.
Lemma distinct_names_sound : forall l, distinct_names l = true -> NoDup l.
Proof.
  induction l as [|x l IH]; intros H; constructor; cbn in H; apply andb_prop in H as [H1 H2]; auto.
  intros HI. apply negb_true_iff in H1. rewrite <- not_true_iff_false in H1. apply H1. apply existsb_exists. exists x. split; [exact HI|apply String.eqb_refl].
Qed.
Lemma existsb_false_in : forall x l, existsb (String.eqb x) l = false -> ~ In x l.
Proof.
  intros x l H HI. rewrite <- not_true_iff_false in H. apply H. apply existsb_exists. exists x. split; [exact HI|apply String.eqb_refl].
Qed.
Lemma existsb_text_in : forall x l, existsb (fun y => if list_eq_dec Z.eq_dec x y then true else false) l = false -> ~ In x l.
Proof.
  intros x l H HI. rewrite <- not_true_iff_false in H. apply H. apply existsb_exists. exists x. split; [exact HI|]. destruct (list_eq_dec Z.eq_dec x x); congruence.
Qed.
Lemma extra_sound : forall T parts key, extra_ok T parts key = true ->
  form_of T key = Plain /\ ~ In key (member_names parts) /\ ~ In (attribute_name key) (possible_names T parts).
Proof.
  intros T parts key H. unfold extra_ok in H. apply andb_prop in H as [H H3]. apply andb_prop in H as [H1 H2].
  apply negb_true_iff in H2, H3. repeat split; [destruct (form_of T key); congruence|apply existsb_false_in; exact H2|apply existsb_text_in; exact H3].
Qed.

(** ** References are the same when a record is written *)
Lemma tests_agree : forall c env values, (forall m, referable m = true -> dict_get m env = dict_get m values) -> forall t, plain_test t = true ->
  match as_cond t with None => True | Some f => f c (VDict env) = f no_parent (VDict values) end.
Proof.
  intros c env values HE t. induction t as [|m g|m g|id|s|a IHa b IHb]; intros H; cbn [as_cond plain_test] in *.
  - exact I.
  - unfold flag_set, ref_member_flag, ref_member. rewrite (HE m H). reflexivity.
  - unfold ref_member_flag, ref_member. rewrite (HE m H). reflexivity.
  - unfold chid_is, ref_member. rewrite (HE "chid" eq_refl). reflexivity.
  - discriminate.
  - apply andb_prop in H as [H1 H2]. specialize (IHa H1). specialize (IHb H2). destruct (as_cond a), (as_cond b); try exact I.
    unfold both. rewrite IHa, IHb. reflexivity.
Qed.
Lemma counts_agree : forall c env values n, (forall m, referable m = true -> dict_get m env = dict_get m values) ->
  match n with Member m | GroupLessOne m _ => referable m = true | ParentMember _ => False end ->
  as_count n c (VDict env) = as_count n no_parent (VDict values).
Proof.
  intros c env values [m|m|m g] HE H; [|contradiction|]; cbn [as_count].
  - unfold ref_member_int, ref_member. rewrite (HE m H). reflexivity.
  - unfold n_entries, ref_member_flag, ref_member. rewrite (HE m H). reflexivity.
Qed.
Lemma groups_agree : forall (c : node) env values m g, (forall m, referable m = true -> dict_get m env = dict_get m values) -> referable m = true ->
  ref_member_flag m g c (VDict env) = ref_member_flag m g no_parent (VDict values).
Proof. intros c env values m g HE H. unfold ref_member_flag, ref_member. rewrite (HE m H). reflexivity. Qed.
Lemma always_sound : forall version c v t env, always_there v t = true -> visible (Some version) (as_version v) = true /\ forall b, cond_is c t env b -> b = true.
Proof.
  intros version c [[[a b] d] e] t env H. unfold always_there in H. apply andb_prop in H as [H Ht]. unfold as_version. rewrite H. split; [reflexivity|].
  destruct t; try discriminate. intros b0 H0. exact H0.
Qed.
Definition knows (known : list (string * list group)) (values : list (string * value)) : Prop :=
  forall m gs, dict_get m known = Some gs -> referable m = true /\ exists n, dict_get m values = Some (VFlags (map group_field gs) n).
Lemma known_group : forall known values m g, knows known values -> has_group known m g = true ->
  exists x, ref_member_flag m g no_parent (VDict values) = Ok x.
Proof.
  intros known values m g HK H. unfold has_group in H. destruct (dict_get m known) as [gs|] eqn:E; [|discriminate].
  destruct (HK m gs E) as (_ & n & EN). unfold ref_member_flag, ref_member. rewrite EN. cbn [bind].
  destruct (dict_get g (map group_field gs)) as [[[? ?] ?]|]; [eauto|discriminate].
Qed.

(** ** One member *)
Section Entry.
  Variable repr : view -> list Z.
  Variable object : list Z.
  Let py_repr : value -> list Z := fun v => repr (view_of v).
  Variable version : list Z.
  Variable c : node.
  Variable fuel : nat.

  (** xmlformat.py 195-232, one of the parts that are elements *)
  Definition child (x : typed) : gen xevent :=
    let element (m : emodel) (attributes : list (string * value)) : gen xevent :=
      gthen (startelement py_repr object fuel version m attributes) ([XEnd (zs (model_name m))], Finished) in
    let '(name, (a, v)) := x in
    match v with
    | Held (VDict d) =>
        let d' := dict_set "attribute-name" (VText (zs name)) d in
        match a with
        | Declared_as (TStruct _ ms) (FStruct cls fs) => element (Struct_type cls [(ms, fs)]) d'
        | Type_of_value => element (Other_class "dict") d'
        | _ => ([], Failed AssertionError)
        end
    | Held (VTuple items) | Held (VList items) =>
        match item_of a with
        | Some (TStruct _ ms, FStruct cls fs) =>
            gapp [XStart (zs "Array") [(zs "name", zs name)]]
              (gthen (gmap (fun i => match i with
                                     | VDict d => element (Struct_type cls [(ms, fs)]) d
                                     | _ => ([], Failed TypeError)
                                     end) items)
                     ([XEnd (zs "Array")], Finished))
        | Some (_, FColor) =>
            gmap (fun i => match i with
                           | VInt n => ([XStart (zs name) (color_attributes n); XEnd (zs name)], Finished)
                           | _ => ([], Failed TypeError)
                           end) items
        | _ => ([], Failed AssertionError)
        end
    | _ => ([], Failed AssertionError)
    end.

  Definition is_part (x : typed) : bool := negb (is_margin (fst (snd x))) && is_complex_type (fst (snd x)) (snd (snd x)).
  Definition xattrs (l : list (string * list Z)) : list (list Z * list Z) := map (fun kv => (attribute_name (fst kv), snd kv)) l.
  Definition plain_entry (x : typed) (attrs : list (list Z * list Z)) : Prop :=
    is_part x = false /\ exists l, expanded_xmlattribute py_repr object x = Ok l /\ xattrs l = attrs.
  Definition entry (T : string) (all : list (string * view)) (key : string) (v : value) (a : atype) (attrs : list (list Z * list Z)) (kids : list xtree) : Prop :=
    attributes_of repr (form_of T key) key (view_of v) attrs /\
    (forall r ts, children repr object T all r ts -> children repr object T all ((key, view_of v) :: r) (kids ++ ts)) /\
    (plain_entry (key, (a, Held v)) attrs /\ kids = [] \/
     is_part (key, (a, Held v)) = true /\ attrs = [] /\ child (key, (a, Held v)) = (flat_map events_of kids, Finished)).

  (** What is known of the parts. *)
  Variable okp : string -> list field_spec -> faces -> bool.
  Hypothesis parts_ok : forall cls fs fcs, okp cls fs fcs = true ->
    (forall key, In key ["<text>"; "attribute-name"; "inline"] -> extra_ok cls [fs] key = true) /\ NoDup (map fname fs) /\
    forall l x, fit_list version c cls fs [] l -> addable cls [fs] (views x) ->
    exists t, startelement py_repr object fuel version (Struct_type cls [(as_members fs, fcs)]) (l ++ x) = (opening t, Finished) /\
              Spec_XmlElement.element repr object cls (views (l ++ x)) t.

  Lemma closed : forall cls d t, Spec_XmlElement.element repr object cls d t -> events_of t = opening t ++ [XEnd (zs cls)].
  Proof. intros cls d t H. inversion H; subst. cbn. rewrite <- app_assoc. reflexivity. Qed.

  Lemma gthen_done : forall {A} (a b : list A) o, gthen (a, Finished) (b, o) = (a ++ b, o).
  Proof. reflexivity. Qed.

  Lemma struct_child : forall cls fs fcs key d x, okp cls fs fcs = true -> fits version c (Fields fs) [] (Some (VDict d)) -> annotations x ->
    exists t, gthen (startelement py_repr object fuel version (Struct_type cls [(as_members fs, fcs)])
                       (dict_set "attribute-name" (VText (zs key)) (d ++ x))) ([XEnd (zs cls)], Finished) = (events_of t, Finished) /\
              Spec_XmlElement.element repr object cls (views (d ++ x) ++ [("attribute-name", Text (zs key))]) t.
  Proof.
    intros cls fs fcs key d x HO HF [HX1 HX2]. destruct (parts_ok cls fs fcs HO) as (HE & HN & HP). inversion HF; subst.
    destruct (kept_fit version c cls fs [] d H2 HN) as (l & El & HL). cbn [app] in El. subst l. specialize (HL d (kept_self cls d)).
    assert (EX : forall k, In k ["<text>"; "inline"; "attribute-name"] -> form_of cls k = Plain /\ ~ In k (map fname fs) /\ ~ In (attribute_name k) (possible_names cls [fs])).
    { intros k HK. specialize (HE k ltac:(cbn in *; tauto)). apply extra_sound in HE as (E1 & E2 & E3). repeat split; auto.
      unfold member_names in E2. cbn in E2. rewrite app_nil_r in E2. exact E2. }
    assert (NX : ~ In "attribute-name" (map fst x)).
    { intros HI. apply in_map_iff in HI as ((k & v) & E & HI). cbn in E. subst k. rewrite Forall_forall in HX2. apply HX2 in HI as [HI _]. cbn in HI. intuition discriminate. }
    assert (ND : ~ In "attribute-name" (map fst d)).
    { intros HI. apply (proj1 (fit_names _ _ _ _ _ _ HL)) in HI. exact (proj1 (proj2 (EX "attribute-name" ltac:(cbn; tauto))) HI). }
    rewrite dict_set_new.
    2:{ apply dict_get_notin. rewrite map_app. intros HI. apply in_app_or in HI. tauto. }
    rewrite <- app_assoc. destruct (HP d (x ++ [("attribute-name", VText (zs key))]) HL) as (t & E & S).
    { assert (U : forall k v, In (k, v) (x ++ [("attribute-name", VText (zs key))]) -> In k ["<text>"; "inline"; "attribute-name"] /\ exists t, v = VText t).
      { intros k v HI. apply in_app_or in HI as [HI|[HI|[]]].
        - rewrite Forall_forall in HX2. apply HX2 in HI as [H1 H3]. cbn in *. split; [tauto|exact H3].
        - inversion HI; subst. cbn. split; [tauto|eauto]. }
      split.
      - unfold views. rewrite map_map. cbn [fst]. rewrite map_app. cbn [map fst].
        assert (I : forall a b, In a ["<text>"; "inline"; "attribute-name"] -> In b ["<text>"; "inline"; "attribute-name"] -> attribute_name a = attribute_name b -> a = b).
        { intros a b HA HB. cbn in HA, HB. destruct HA as [<-|[<-|[<-|[]]]], HB as [<-|[<-|[<-|[]]]]; vm_compute; congruence. }
        rewrite <- (map_map fst attribute_name x). change ([attribute_name "attribute-name"]) with (map attribute_name ["attribute-name"]). rewrite <- map_app.
        assert (NN : NoDup (map fst x ++ ["attribute-name"])).
        { apply nodup_app. repeat split; [exact HX1|constructor; [intros []|constructor]|]. intros k HK [<-|[]]. contradiction. }
        assert (IN : forall k, In k (map fst x ++ ["attribute-name"]) -> In k ["<text>"; "inline"; "attribute-name"]).
        { intros k HK. apply in_app_or in HK as [HK|[<-|[]]]; [|cbn; tauto]. apply in_map_iff in HK as ((k' & v) & <- & HK). eapply U, in_or_app. left. exact HK. }
        clear - NN IN I. induction NN as [|k l HN NN IH]; cbn [map]; constructor.
        + intros HI. apply in_map_iff in HI as (k' & E & HI). apply I in E; [subst; contradiction| |]; apply IN; cbn; auto.
        + apply IH. intros k' HK. apply IN. right. exact HK.
      - unfold views. apply Forall_map. apply Forall_forall. intros [k v] HI. cbn [fst snd]. destruct (U k v HI) as [UK [t ->]].
        destruct (EX k UK) as (E1 & E2 & E3). repeat split; auto. unfold member_names. cbn. rewrite app_nil_r. exact E2. }
    exists t. rewrite E. cbn [gthen]. rewrite gthen_done || (unfold gapp; cbn [fst snd]). split.
    - rewrite (closed _ _ _ S). reflexivity.
    - unfold views in S |- *. rewrite !map_app in S. rewrite !map_app, <- app_assoc. exact S.
  Qed.

  Lemma struct_items : forall cls fs fcs l, okp cls fs fcs = true -> Forall (fun v => fits version c (Fields fs) [] (Some v)) l ->
    exists ts, gmap (fun i => match i with
                              | VDict d => gthen (startelement py_repr object fuel version (Struct_type cls [(as_members fs, fcs)]) d) ([XEnd (zs cls)], Finished)
                              | _ => ([], Failed TypeError)
                              end) l = (flat_map events_of ts, Finished) /\
               elements repr object cls (map view_of l) ts.
  Proof.
    intros cls fs fcs l HO H. destruct (parts_ok cls fs fcs HO) as (HE & HN & HP). induction H as [|v l HF H IH].
    - exists []. split; [reflexivity|constructor].
    - destruct IH as (ts & E & S). inversion HF; subst. destruct (kept_fit version c cls fs [] d H3 HN) as (l' & El & HL). cbn [app] in El. subst l'.
      specialize (HL d (kept_self cls d)). destruct (HP d [] HL) as (t & Et & St).
      { split; constructor. }
      rewrite app_nil_r in Et, St. exists (t :: ts). cbn [gmap]. rewrite Et, E. cbn [gthen gapp fst snd]. split.
      + cbn [flat_map]. rewrite (closed _ _ _ St). reflexivity.
      + cbn [map view_of]. constructor; assumption.
  Qed.
  Lemma color_items : forall key w l, Forall (fun v => fits version c (Signed w) [] (Some v)) l ->
    exists ts, gmap (fun i => match i with
                              | VInt n => ([XStart (zs key) (color_attributes n); XEnd (zs key)], Finished)
                              | _ => ([], Failed TypeError)
                              end) l = (flat_map events_of ts, Finished) /\ colors_of key (map view_of l) ts.
  Proof.
    intros key w l H. induction H as [|v l HF H IH].
    - exists []. split; [reflexivity|constructor].
    - destruct IH as (ts & E & S). inversion HF; subst.
      exists (color_element key n (fmt_d (red n)) (fmt_d (green n)) (fmt_d (blue n)) (fmt_d (alpha n)) :: ts). cbn [gmap]. rewrite E. split.
      + cbn [gthen]. unfold gapp. cbn [fst snd flat_map color_element events_of app]. unfold color_attributes. rewrite !shifted_byte, color_str_is by lia.
        unfold red, green, blue, alpha. change (n / 2 ^ 0) with (n / 1). rewrite Z.div_1_r. reflexivity.
      + cbn [map view_of]. constructor; try apply decimal_ok. exact S.
  Qed.

  Lemma ch_plain : forall T all key x, match form_of T key with Child _ | Children _ | Colors | Chosen _ _ _ => False | _ => True end ->
    forall r ts, children repr object T all r ts -> children repr object T all ((key, x) :: r) ([] ++ ts).
  Proof. intros T all key x H r ts HR. cbn [app]. apply ch_none; assumption. Qed.

  Lemma plain_list : forall l, Forall (fun v => exists n, v = VInt n) l \/ Forall (fun v => exists n, v = VText n) l ->
    exists ts, join (zs ", ") (map (Model_XmlElement.item_text py_repr) l) = comma_separated ts /\ Forall2 (item_text repr) (map view_of l) ts.
  Proof.
    intros l H. exists (map (Model_XmlElement.item_text py_repr) l). split; [apply comma_join|].
    destruct H as [H|H]; induction H as [|v l [n ->] H IH]; cbn [map]; constructor; try exact IH.
    - cbn. constructor. apply decimal_ok.
    - cbn. constructor.
  Qed.
  Lemma ints_of : forall w l, Forall (fun v => fits version c (Unsigned w) [] (Some v)) l -> Forall (fun v => exists n, v = VInt n) l.
  Proof. intros w l H. eapply Forall_impl; [|exact H]. intros v HF. inversion HF; subst. eauto. Qed.
  Lemma ids_of : forall l, Forall (fun v => fits version c Id4 [] (Some v)) l -> Forall (fun v => exists n, v = VText n) l.
  Proof. intros l H. eapply Forall_impl; [|exact H]. intros v HF. inversion HF; subst. eauto. Qed.

  Lemma list_text : forall (b : bool) l, List.length l <> 1%nat \/ b = true -> xmlattrval py_repr (if b then VList l else VTuple l) =
    (if b then zs "[" else zs "(") ++ join (zs ", ") (map (Model_XmlElement.item_text py_repr) l) ++ (if b then zs "]" else zs ")").
  Proof. intros [|] l H; [reflexivity|]. destruct H as [H|H]; [|discriminate]. destruct l as [|u [|w l]]; [reflexivity| |reflexivity]. cbn in H. congruence. Qed.

  Ltac plain := split; [|split; [apply ch_plain|left; split; [split; [reflexivity|eexists; split; [reflexivity|]]|reflexivity]]].

  Lemma group_texts : forall gs n, Forall2 (fun g a => fst a = attribute_name (fst g) /\ group_text (snd g) (snd a))
    (map (fun g => match g with (name, (lsb, msb, type)) => let x := get_int_value lsb msb n in (name, (x, named type x)) end) (map group_field gs))
    (xattrs (map (fun g => match g with
                           | (k, (lsb, msb, type)) =>
                               let x := get_int_value lsb msb n in
                               (k, match type with Some e => enum_text e x | None => fmt_d x end)
                           end) (map group_field gs))).
  Proof.
    intros gs n. induction gs as [|[name lo hi e] gs IH]; [constructor|]. unfold xattrs in *. cbn [map group_field fst snd]. constructor; [|exact IH]. split; [reflexivity|].
    destruct e as [e|]; cbn [option_map named fst snd].
    - unfold enum_text. destruct (zdict_get (enum_id e) enum_table) as [items|]; [|constructor; apply decimal_ok].
      destruct (make_enum [] items) as [st|]; [|constructor; apply decimal_ok].
      destruct (enum_name st (enum_call st (get_int_value lo hi n))); [apply gt_named|constructor; apply decimal_ok].
    - constructor. apply decimal_ok.
  Qed.
  Lemma margin_value : forall l r t b d, side_ok "left" l = true -> side_ok "right" r = true -> side_ok "top" t = true -> side_ok "bottom" b = true ->
    fit_fields version c [l; r; t; b] [] d -> exists nl nr nt nb, d = [("left", VInt nl); ("right", VInt nr); ("top", VInt nt); ("bottom", VInt nb)].
  Proof.
    assert (S : forall side f env r d, side_ok side f = true -> fit_fields version c (f :: r) env d -> exists n, fit_fields version c r (dict_set side (VInt n) env) d).
    { intros side [[[key v] t] k] env r d HS H. cbn in HS. destruct k; try discriminate. apply andb_prop in HS as [HS1 HS2]. apply String.eqb_eq in HS1. subst key.
      destruct (always_sound version c v t env HS2) as [A1 A2]. inversion H; subst.
      - congruence.
      - match goal with K : cond_is _ _ _ false |- _ => specialize (A2 _ K) end. discriminate.
      - match goal with K : fits _ _ (Signed _) _ _ |- _ => inversion K; subst end. cbn [added_to] in *. eauto. }
    intros l r t b d H1 H2 H3 H4 H. apply (S "left") in H as [nl H]; [|exact H1]. apply (S "right") in H as [nr H]; [|exact H2].
    apply (S "top") in H as [nt H]; [|exact H3]. apply (S "bottom") in H as [nb H]; [|exact H4]. inversion H; subst. cbn. eauto 10.
  Qed.
  Lemma fits_fields_any : forall fs env v, fits version c (Fields fs) env (Some v) -> exists d, v = VDict d /\ fit_fields version c fs [] d /\ fits version c (Fields fs) [] (Some (VDict d)).
  Proof. intros fs env v H. inversion H; subst. exists d. repeat split; [assumption|constructor; assumption]. Qed.
  Lemma choose_ok : forall l fl names n, choice_ok okp l fl names = true ->
    match find (fun a => fst a =? n) l with
    | Some (_, k) => exists fs cls fcs, k = Fields fs /\ okp cls fs fcs = true /\ In (n, cls) names /\
                       find_selection n (as_alts l) fl = Declared_as (TStruct node (as_members fs)) (FStruct cls fcs)
    | None => find_selection n (as_alts l) fl = Empty_struct
    end.
  Proof.
    induction l as [|[n' k] l IH]; intros fl names n H; cbn [choice_ok] in H.
    - reflexivity.
    - destruct k; try discriminate. destruct fl as [|[| | | | |cls fcs| |] fl]; try discriminate. destruct names as [|[n'' cls'] names]; try discriminate.
      apply andb_prop in H as [H H4]. apply andb_prop in H as [H H3]. apply andb_prop in H as [H1 H2]. apply Z.eqb_eq in H1. apply String.eqb_eq in H2. subst n'' cls'.
      cbn [find fst as_alts find_selection]. rewrite (Z.eqb_sym n n'). destruct (Z.eqb_spec n' n) as [->|NE].
      + exists fs, cls, fcs. rewrite as_type_fields. repeat split; [exact H3|left; reflexivity].
      + specialize (IH fl names n H4). destruct (find (fun a => fst a =? n) l) as [[? ?]|]; [|exact IH].
        destruct IH as (fs' & cls' & fcs' & I1 & I2 & I3 & I4). exists fs', cls', fcs'. repeat split; auto. right. exact I3.
  Qed.

  Definition seq (b : bool) (l : list value) : value := if b then VList l else VTuple l.
  Lemma seq_view : forall b l, view_of (seq b l) = Items (map view_of l).
  Proof. intros [|] l; reflexivity. Qed.
  Lemma array_entry : forall T all key k f a b l, item_of a = Some (as_type k, match f with FArray f' => f' | _ => FPlain end) -> is_margin a = false ->
    Forall (fun v => fits version c k [] (Some v)) l ->
    match k, f, form_of T key with
    | Fields fs, FArray (FStruct cls fcs), Children cls' => String.eqb cls cls' && okp cls fs fcs
    | Signed 4, FArray FColor, Colors => true
    | _, _, _ => false
    end = true ->
    exists kids, entry T all key (seq b l) a [] kids.
  Proof.
    intros T all key k f a b l HI HM HF H. destruct k as [w|[|[|[|[|[|]]]]]| | | | | | |fs| | | |]; try discriminate.
    - destruct f as [| | | | | |[| | | | | | |]|]; try discriminate. destruct (form_of T key) eqn:EF; try discriminate.
      destruct (color_items key 4 l HF) as (ts & E & S). exists ts. split; [rewrite EF; apply ao_child; exact I|]. rewrite seq_view. split.
      + intros r us HR. eapply ch_colors; eassumption.
      + right. unfold is_part, is_complex_type, child. cbn [fst snd]. rewrite HM, HI. destruct b; (split; [reflexivity|]); (split; [reflexivity|]); exact E.
    - destruct f as [| | | | | |[| | | | |cls fcs| |]|]; try discriminate. destruct (form_of T key) as [| | | | | | | |cls'| |] eqn:EF; try discriminate.
      apply andb_prop in H as [E1 E2]. apply String.eqb_eq in E1. subst cls'. destruct (struct_items cls fs fcs l E2 HF) as (ts & E & S).
      exists [Elem (zs "Array") [(zs "name", zs key)] [] ts]. split; [rewrite EF; apply ao_child; exact I|]. rewrite seq_view. split.
      + intros r us HR. cbn [app]. eapply ch_array; eassumption.
      + right. rewrite as_type_fields in HI. unfold is_part, is_complex_type, child. cbn [fst snd]. rewrite HM, HI.
        destruct b; (split; [reflexivity|]); (split; [reflexivity|]); unfold seq; cbv beta iota zeta delta [model_name]; match type of E with ?lhs = _ => match goal with |- context [gmap ?f l] => change (gmap f l) with lhs end end; rewrite E; cbn [gthen gapp fst snd flat_map events_of app]; rewrite app_nil_r; reflexivity.
  Qed.

  Lemma entry_of : forall T all key v t k f env values x y a,
    form_ok okp T key k f (form_of T key) = true -> special_ok T key v t k = true -> key <> "<text>" ->
    fits version c k env (Some x) -> later T key x y -> resolve (as_type k) f values = Ok a ->
    (forall m g l, k = Choice m g l -> forall n, ref_member_flag m g c (VDict env) = Ok n ->
       ref_member_flag m g no_parent (VDict values) = Ok n /\ look_group m g all = Some n) ->
    exists attrs kids, entry T all key y a attrs kids /\ (attrs = [] \/ map fst attrs = attribute_names key (form_of T key) k).
  Proof.
    intros T all key v t k f env values x y a HO HS HK HF HL HR HC.
    assert (same : match k with Choice _ _ _ => True | _ => y = x end).
    { destruct HL as [HL|(E1 & E2 & _)]; [destruct k; auto|]. subst T key. unfold special_ok in HS. cbn in HS. apply andb_prop in HS as [_ HS].
      destruct k; try discriminate. exact I. }
    unfold entry. set (fm := form_of T key) in *. destruct k as [w|w| | | |sz| |w gs|fs|n k|w k|n k|m g l];
      match type of HR with
      | resolve (as_type (Fields _)) _ _ = _ => idtac
      | resolve (as_type (Choice _ _ _)) _ _ = _ => idtac
      | _ => cbn [as_type resolve] in HR
      end.
    - (* unsigned *) subst y. inversion HF; subst. clear HF HL HC. match goal with K : 0 <= n < _ |- _ => rename K into RG end. injection HR as <-. destruct f; try (destruct w as [|[|[|]]]; discriminate).
      + destruct fm eqn:EF; try (destruct w as [|[|[|]]]; discriminate). exists [(attribute_name key, fmt_d n)], []. split; [|right; reflexivity]. plain.
        * constructor; [exact HK|]. constructor. apply decimal_ok.
        * unfold fm in EF. rewrite EF. exact I.
        * reflexivity.
      + destruct w as [|[|[|]]]; try discriminate. destruct fm eqn:EF; try discriminate. change (256 ^ Z.of_nat 2) with 65536 in RG.
        exists [(attribute_name key, char_text n)], []. split; [|right; reflexivity]. split; [constructor|split; [apply ch_plain; unfold fm in EF; rewrite EF; exact I|left; split; [|reflexivity]]].
        split; [reflexivity|]. cbn [expanded_xmlattribute to_int bind]. unfold char_text.
        change (find (fun s => fst s =? n) symbols) with (find (fun s => fst s =? n) PUA_SYMBOLS).
        assert (Z : forall l, match find (fun s => fst s =? n) l with Some (_, c0) => [c0] | None => [n] end = match zdict_get n l with Some c0 => [c0] | None => [n] end).
        { induction l as [|[k0 c0] l IHl]; [reflexivity|]. cbn [find fst zdict_get]. rewrite (Z.eqb_sym k0 n). destruct (n =? k0); [reflexivity|exact IHl]. }
        destruct (n =? 0); [eexists; split; reflexivity|]. rewrite Z. destruct (zdict_get n PUA_SYMBOLS); [eexists; split; reflexivity|].
        destruct ((0 <=? n) && (n <? 1114112)) eqn:E; [eexists; split; reflexivity|]. exfalso. apply andb_false_iff in E as [E|E]; [apply Z.leb_gt in E|apply Z.ltb_ge in E]; lia.
      + destruct w as [|[|[|]]]; try discriminate. destruct fm eqn:EF; try discriminate. change (256 ^ Z.of_nat 2) with 65536 in RG.
        exists [(attribute_name key, zs "BIN" ++ hexadecimals true 4 n)], []. split; [|right; reflexivity]. plain.
        * constructor.
        * unfold fm in EF. rewrite EF. exact I.
        * cbn [xattrs map fst snd]. change 4 with (Z.of_nat 4). rewrite (fmt_X_is 4 n) by (cbn; lia). reflexivity.
    - (* signed *) subst y. inversion HF; subst. injection HR as <-. destruct f; try (destruct w as [|[|[|[|[|]]]]]; discriminate).
      + destruct fm eqn:EF; try (destruct w as [|[|[|[|[|]]]]]; discriminate). exists [(attribute_name key, fmt_d n)], []. split; [|right; reflexivity]. plain.
        * constructor; [exact HK|]. constructor. apply decimal_ok.
        * unfold fm in EF. rewrite EF. exact I.
        * reflexivity.
      + destruct w as [|[|[|[|[|]]]]]; try discriminate. destruct fm eqn:EF; try discriminate.
        exists [(attribute_name key, color_text n)], []. split; [|right; reflexivity]. plain.
        * constructor.
        * unfold fm in EF. rewrite EF. exact I.
        * cbn [xattrs map fst snd]. rewrite color_str_is. reflexivity.
    - (* real *) subst y. inversion HF; subst. injection HR as <-. destruct f; try discriminate. destruct fm eqn:EF; try discriminate.
      exists [(attribute_name key, repr (Double n))], []. split; [|right; reflexivity]. plain.
      + constructor; [exact HK|constructor].
      + unfold fm in EF. rewrite EF. exact I.
      + reflexivity.
    - (* id *) subst y. inversion HF; subst. injection HR as <-. destruct f; try discriminate. destruct fm eqn:EF; try discriminate.
      exists [(attribute_name key, t0)], []. split; [|right; reflexivity]. plain.
      + constructor; [exact HK|constructor].
      + unfold fm in EF. rewrite EF. exact I.
      + reflexivity.
    - (* text *) subst y. inversion HF; subst. injection HR as <-. destruct f; try discriminate. destruct fm eqn:EF; try discriminate.
      exists [(attribute_name key, t0)], []. split; [|right; reflexivity]. plain.
      + constructor; [exact HK|constructor].
      + unfold fm in EF. rewrite EF. exact I.
      + reflexivity.
    - (* hexadecimal *) subst y. inversion HF; subst. injection HR as <-. destruct f; try discriminate. destruct fm eqn:EF; try discriminate.
      exists [(attribute_name key, zs "b'" ++ b ++ zs "'")], []. split; [|right; reflexivity]. plain.
      + constructor; [exact HK|constructor].
      + unfold fm in EF. rewrite EF. exact I.
      + reflexivity.
    - discriminate.
    - (* bits *) subst y. inversion HF; subst. injection HR as <-. destruct f; try discriminate. destruct fm as [|d| | | | | | | | |] eqn:EF; try discriminate.
      cbn [form_ok] in HO. apply andb_prop in HO as [HO1 HO2]. apply Nat.eqb_eq in HO1. apply Nat.ltb_lt in HO2. subst d.
      pose proof (group_texts gs n) as G. set (rest := xattrs _) in G.
      exists ((attribute_name key, hexadecimals true (2 * w) n) :: rest), []. split; [|right].
      + plain.
        * cbn [view_of]. apply ao_bits. exact G.
        * unfold fm in EF. rewrite EF. exact I.
        * cbn [xattrs map fst snd flags_attributes]. f_equal. f_equal. unfold flags_size. cbn [calcsize].
          replace (Z.of_nat w * 2) with (Z.of_nat (2 * w)) by lia. apply fmt_X_is; [lia|].
          replace (16 ^ Z.of_nat (2 * w)) with (256 ^ Z.of_nat w); [assumption|]. change 256 with (16 ^ 2). rewrite <- Z.pow_mul_r by lia. f_equal. lia.
      + cbn [map fst attribute_names]. f_equal. subst rest. unfold xattrs. clear. induction gs as [|[nm lo hi e] gs IH]; [reflexivity|]. cbn. f_equal. exact IH.
    - (* fields *) subst y. rewrite as_type_fields in HR. cbn [resolve] in HR. injection HR as <-. apply fits_fields_any in HF as (d & -> & HF & HF').
      destruct f; try (destruct fs as [|? [|? [|? [|? [|]]]]]; discriminate).
      + (* margin *) destruct fs as [|l [|r [|u [|b [|]]]]]; try discriminate. destruct fm eqn:EF; try discriminate. cbn [form_ok] in HO.
        apply andb_prop in HO as [HO H4]. apply andb_prop in HO as [HO H3]. apply andb_prop in HO as [H1 H2].
        destruct (margin_value _ _ _ _ _ H1 H2 H3 H4 HF) as (nl & nr & nt & nb & ->).
        exists [(attribute_name (key ++ "-left"), fmt_d nl); (attribute_name (key ++ "-right"), fmt_d nr);
                (attribute_name (key ++ "-top"), fmt_d nt); (attribute_name (key ++ "-bottom"), fmt_d nb)], []. split; [|right; reflexivity].
        split; [|split; [apply ch_plain; unfold fm in EF; rewrite EF; exact I|left; split; [|reflexivity]]].
        * cbn [view_of map fst snd]. apply ao_box; apply decimal_ok.
        * split; [reflexivity|]. eexists. split; [reflexivity|]. reflexivity.
      + (* struct *) assert (HO' : exists cls', fm = Child cls' /\ String.eqb name cls' && okp name fs members = true).
        { destruct fm; try (destruct fs as [|? [|? [|? [|? [|]]]]]; discriminate). eexists. split; [reflexivity|]. destruct fs as [|? [|? [|? [|? [|]]]]]; exact HO. }
        destruct HO' as (cls' & EF & HO'). apply andb_prop in HO' as [E1 E2]. apply String.eqb_eq in E1. subst cls'.
        destruct (struct_child name fs members key d [] E2 HF' ltac:(split; constructor)) as (tr & E & S). rewrite app_nil_r in E, S.
        exists [], [tr]. split; [|left; reflexivity]. rewrite EF. split; [apply ao_child; exact I|]. split.
        * intros r ts HR. cbn [app]. eapply ch_child; eassumption.
        * right. split; [reflexivity|]. split; [reflexivity|]. cbn [flat_map]. rewrite app_nil_r. exact E.
    - (* repeat *) subst y. injection HR as <-. inversion HF; subst. clear HF.
      assert (HO' : (exists w, k = Unsigned w /\ fm = Tuple /\ negb (Nat.eqb (List.length l) 1) = true /\ (f = FPlain \/ f = FArray FPlain)) \/
        match k, f, fm with
        | Fields fs, FArray (FStruct cls fcs), Children cls' => String.eqb cls cls' && okp cls fs fcs
        | Signed 4, FArray FColor, Colors => true
        | _, _, _ => false
        end = true).
      { destruct k as [w|[|[|[|[|[|]]]]]| | | | | | |fs| | | |]; try discriminate; try (right; exact HO); destruct f as [| | | | | |[]|]; destruct fm; try discriminate; try (right; exact HO); left; eauto 10. }
      destruct HO' as [(w & -> & EF & N & HFc)|HO'].
      + apply negb_true_iff, Nat.eqb_neq in N. destruct (plain_list l (or_introl (ints_of w l H4))) as (ts & J & F2).
        exists [(attribute_name key, zs "(" ++ comma_separated ts ++ zs ")")], []. rewrite EF. split; [|right; reflexivity].
        split; [|split; [apply ch_plain; unfold fm in EF; rewrite EF; exact I|left; split; [|reflexivity]]].
        * cbn [view_of]. apply ao_tuple; [rewrite map_length; exact N|exact F2].
        * split; [destruct HFc as [->| ->]; reflexivity|]. exists [(key, xmlattrval py_repr (VTuple l))]. split; [destruct HFc as [->| ->]; reflexivity|].
          cbn [xattrs map fst snd]. rewrite (list_text false l (or_introl N)), J. reflexivity.
      + destruct (array_entry T all key k f (Declared_as (TFixed node (as_type k) (Z.of_nat (List.length l))) f) false l eq_refl) as (kids & E); auto.
        { destruct f; try reflexivity. destruct k; discriminate || (destruct width as [|[|[|[|[|]]]]]; discriminate). }
        exists [], kids. split; [exact E|left; reflexivity].
    - (* counted *) subst y. injection HR as <-. inversion HF; subst. clear HF.
      assert (HO' : ((exists w, k = Unsigned w) \/ k = Id4) /\ fm = Plain /\ (f = FPlain \/ f = FArray FPlain) \/
        match k, f, fm with
        | Fields fs, FArray (FStruct cls fcs), Children cls' => String.eqb cls cls' && okp cls fs fcs
        | Signed 4, FArray FColor, Colors => true
        | _, _, _ => false
        end = true).
      { destruct k as [?|[|[|[|[|[|]]]]]| | | | | | |fs| | | |]; try discriminate; try (right; exact HO); destruct f as [| | | | | |[]|]; destruct fm; try discriminate; try (right; exact HO); left; eauto 10. }
      destruct HO' as [(HKd & EF & HFc)|HO'].
      + assert (P : Forall (fun v => exists n, v = VInt n) l \/ Forall (fun v => exists n, v = VText n) l).
        { destruct HKd as [(w' & ->)| ->]; [left; eapply ints_of; eassumption|right; apply ids_of; assumption]. }
        destruct (plain_list l P) as (ts & J & F2).
        exists [(attribute_name key, zs "[" ++ comma_separated ts ++ zs "]")], []. rewrite EF. split; [|right; reflexivity].
        split; [|split; [apply ch_plain; unfold fm in EF; rewrite EF; exact I|left; split; [|reflexivity]]].
        * cbn [view_of]. apply ao_plain; [exact HK|]. apply pt_list. exact F2.
        * split; [destruct HFc as [->| ->], HKd as [(w' & ->)| ->]; reflexivity|]. exists [(key, xmlattrval py_repr (VList l))].
          split; [destruct HFc as [->| ->]; reflexivity|]. cbn [xattrs map fst snd]. rewrite (list_text true l (or_intror eq_refl)), J. reflexivity.
      + destruct (array_entry T all key k f (Declared_as (TVar node (FmtUInt w) (as_type k)) f) true l eq_refl) as (kids & E); auto.
        { destruct f; try reflexivity. destruct k; discriminate || (destruct width as [|[|[|[|[|]]]]]; discriminate). }
        exists [], kids. split; [exact E|left; reflexivity].
    - (* times *) subst y. destruct (as_count n no_parent (VDict values)) as [i'|e] eqn:EC; [|discriminate]. cbn [bind] in HR. injection HR as <-.
      inversion HF; subst. clear HF.
      assert (HO' : (exists w, k = Unsigned w) /\ fm = Plain /\ (f = FPlain \/ f = FArray FPlain) \/
        match k, f, fm with
        | Fields fs, FArray (FStruct cls fcs), Children cls' => String.eqb cls cls' && okp cls fs fcs
        | Signed 4, FArray FColor, Colors => true
        | _, _, _ => false
        end = true).
      { destruct k as [?|[|[|[|[|[|]]]]]| | | | | | |fs| | | |]; try discriminate; try (right; exact HO); destruct f as [| | | | | |[]|]; destruct fm; try discriminate; try (right; exact HO); left; eauto 10. }
      destruct HO' as [((w & ->) & EF & HFc)|HO'].
      + destruct (plain_list l (or_introl (ints_of w l H4))) as (ts & J & F2).
        exists [(attribute_name key, zs "[" ++ comma_separated ts ++ zs "]")], []. rewrite EF. split; [|right; reflexivity].
        split; [|split; [apply ch_plain; unfold fm in EF; rewrite EF; exact I|left; split; [|reflexivity]]].
        * cbn [view_of]. apply ao_plain; [exact HK|]. apply pt_list. exact F2.
        * split; [destruct HFc as [->| ->]; reflexivity|]. exists [(key, xmlattrval py_repr (VList l))].
          split; [destruct HFc as [->| ->]; reflexivity|]. cbn [xattrs map fst snd]. rewrite (list_text true l (or_intror eq_refl)), J. reflexivity.
      + destruct (array_entry T all key k f (Declared_as (TFixed node (as_type k) i') f) true l eq_refl) as (kids & E); auto.
        { destruct f; try reflexivity. destruct k; discriminate || (destruct width as [|[|[|[|[|]]]]]; discriminate). }
        exists [], kids. split; [exact E|left; reflexivity].
    - (* choice *) rewrite as_type_choice in HR. cbn [resolve] in HR. destruct f; try discriminate. destruct fm as [| | | | | | | | | |m' g' names] eqn:EF; try discriminate.
      cbn [form_ok] in HO. apply andb_prop in HO as [HO HO3]. apply andb_prop in HO as [HO1 HO2]. apply String.eqb_eq in HO1, HO2. subst m' g'.
      inversion HF; subst. clear HF. destruct (HC m g l eq_refl n H2) as [HC1 HC2]. rewrite HC1 in HR. cbn [bind] in HR. injection HR as <-.
      pose proof (choose_ok l l0 names n HO3) as CH. rewrite H5 in CH. destruct CH as (fs & cls & fcs & -> & HOp & HIn & ->).
      apply fits_fields_any in H6 as (d & -> & HF1 & HF2).
      assert (Y : exists x, y = VDict (d ++ x) /\ annotations x).
      { destruct HL as [->|(_ & _ & d' & x & E & A & ->)].
        - exists []. rewrite app_nil_r. split; [reflexivity|split; constructor].
        - injection E as <-. eauto. }
      destruct Y as (x & -> & HA). destruct (struct_child cls fs fcs key d x HOp HF2 HA) as (tr & E & S).
      exists [], [tr]. split; [|left; reflexivity]. split; [apply ao_child; exact I|]. split.
      + intros r ts HR. cbn [app view_of]. eapply ch_chosen; try eassumption.
      + right. split; [reflexivity|]. split; [reflexivity|]. cbn [flat_map]. rewrite app_nil_r. exact E.
  Qed.
End Entry.
