(** One more attribute for some of the elements of a document. *)
From Coq Require Import ZArith String List Bool Lia Permutation.
From Verif Require Import Base BaseFacts Model_Text Model_Dataio Model_Record Model_Tree Model_Bintype Model_Layouts Model_Models
  Model_XmlText Model_XmlElement Model_XmlFile Spec_Tree Spec_Models Spec_XmlText Spec_Oleprops Spec_Layouts Spec_XmlElement Spec_XmlHwp
  Proof_Record Proof_Tree Proof_XmlText Proof_OleText Proof_XmlElement Proof_XmlEntry Proof_XmlRecord Proof_XmlNames Proof_XmlDocument Proof_XmlDocinfo Proof_XmlPasses Proof_XmlFile.
Import ListNotations.
Open Scope string_scope.
Open Scope list_scope.
Open Scope Z_scope.

(** ** One more attribute of an element *)
Fixpoint names_of (ms : members node) : list string :=
  match ms with MNil _ => [] | MCons _ name _ _ _ rest => name :: names_of rest end.
Definition model_names (m : emodel) : list string :=
  match m with Struct_type _ layouts => flat_map (fun l => names_of (fst l)) layouts | Other_class _ => [] end.

Lemma pop_more : forall {V} k (d x : list (string * V)), ~ In k (map fst x) ->
  dict_pop k (d ++ x) = (fst (dict_pop k d), snd (dict_pop k d) ++ x).
Proof.
  intros V k d x H. induction d as [|[k' v] d IH]; cbn [app dict_pop fst snd].
  - apply dict_pop_none. exact H.
  - destruct (String.eqb k k'); [reflexivity|]. rewrite IH. destruct (dict_pop k d) as [f r]. reflexivity.
Qed.
Lemma pop_keys : forall {V} k (d : list (string * V)) x, In x (map fst (snd (dict_pop k d))) -> In x (map fst d).
Proof.
  intros V k d x. induction d as [|[k' v] d IH]; cbn [dict_pop snd map fst]; [tauto|]. destruct (String.eqb k k'); cbn [snd map fst].
  - right. assumption.
  - destruct (dict_pop k d) as [f r]. cbn [snd map fst] in *. intros [H|H]; [left; exact H|right; auto].
Qed.
Lemma members_more : forall version fs X ms A values l others, parse_members version ms fs A values = Ok (l, others) ->
  (forall k, In k (names_of ms) -> ~ In k (map fst X)) ->
  parse_members version ms fs (A ++ X) values = Ok (l, others ++ X) /\
  (forall k, In k (map fst l) -> In k (names_of ms)) /\ (forall k, In k (map fst others) -> In k (map fst A)).
Proof.
  intros version fs X. induction ms as [|name required cond t rest IH]; intros A values l others H N; cbn [parse_members] in H |- *.
  - inversion H; subst. split; [reflexivity|]. split; [intros k []|auto].
  - assert (NR : forall k, In k (names_of rest) -> ~ In k (map fst X)) by (intros k HK; apply N; right; exact HK).
    destruct (resolve _ _ _) as [a|]; [|discriminate]. cbn [bind] in *.
    destruct (match required with None => true | Some r => negb (version_lt version r) end).
    2:{ destruct (IH _ _ _ _ H NR) as (E & K1 & K2). split; [exact E|]. split; [intros k HK; right; auto|exact K2]. }
    destruct (match cond with None => Ok true | Some f => f no_parent (VDict values) end) as [c|]; [|discriminate]. cbn [bind] in *. destruct c.
    2:{ destruct (IH _ _ _ _ H NR) as (E & K1 & K2). split; [exact E|]. split; [intros k HK; right; auto|exact K2]. }
    rewrite pop_more by (apply N; left; reflexivity). destruct (dict_pop name A) as [found A'] eqn:EP. cbn [fst snd].
    destruct (parse_members version rest fs A' _) as [[l' o']|] eqn:E; [|discriminate]. cbn [bind] in H. inversion H; subst.
    destruct (IH _ _ _ _ E NR) as (E' & K1 & K2). rewrite E'. cbn [bind]. split; [reflexivity|]. split.
    + intros k [HK|HK]; [left; exact HK|right; auto].
    + intros k HK. apply (pop_keys name). rewrite EP. cbn. auto.
Qed.
Lemma all_members_more : forall version X layouts A l others, parse_all_members version layouts A = Ok (l, others) ->
  (forall k, In k (flat_map (fun l => names_of (fst l)) layouts) -> ~ In k (map fst X)) ->
  parse_all_members version layouts (A ++ X) = Ok (l, others ++ X) /\
  (forall k, In k (map fst l) -> In k (flat_map (fun l => names_of (fst l)) layouts)) /\ (forall k, In k (map fst others) -> In k (map fst A)).
Proof.
  intros version X. induction layouts as [|[ms fs] layouts IH]; intros A l others H N; cbn [parse_all_members] in H |- *.
  - inversion H; subst. split; [reflexivity|]. split; [intros k []|auto].
  - destruct (parse_members version ms fs A []) as [[l1 o1]|] eqn:E1; [|discriminate]. cbn [bind] in H. destruct (parse_all_members version layouts o1) as [[l2 o2]|] eqn:E2; [|discriminate]. cbn [bind] in H. inversion H; subst.
    destruct (members_more version fs X ms A [] l1 o1 E1) as (F1 & K1 & K2); [intros k HK; apply N; cbn; apply in_or_app; left; exact HK|].
    destruct (IH o1 l2 others E2) as (F2 & K3 & K4); [intros k HK; apply N; cbn; apply in_or_app; right; exact HK|].
    rewrite F1. cbn [bind]. rewrite F2. cbn [bind]. split; [reflexivity|]. split.
    + intros k HK. rewrite map_app in HK. cbn. apply in_or_app. apply in_app_or in HK as [HK|HK]; [left; auto|right; auto].
    + auto.
Qed.
Lemma separate_keys : forall l d p k, In k (map fst (snd (separate_plainvalues l d p))) -> In k (map fst l) \/ In k (map fst p).
Proof.
  induction l as [|[name [a v]] l IH]; intros d p k H; cbn [separate_plainvalues map fst] in *; [right; exact H|].
  assert (S : forall q, In k (map fst (dict_set name (a, v) q)) -> name = k \/ In k (map fst q)).
  { clear. induction q as [|[k' v'] q IH]; cbn [dict_set map fst]; intros H.
    - destruct H as [H|[]]. left. exact H.
    - destruct (String.eqb name k'); cbn [map fst] in H; [right; exact H|]. destruct H as [H|H]; [right; left; exact H|]. destruct (IH H); [left; assumption|right; right; assumption]. }
  destruct (is_margin a); [|destruct (is_complex_type a v)].
  - destruct (IH _ _ _ H) as [HK|HK]; [left; right; exact HK|]. destruct (S _ HK); [left; left; assumption|right; assumption].
  - destruct (IH _ _ _ H) as [HK|HK]; [left; right; exact HK|right; exact HK].
  - destruct (IH _ _ _ H) as [HK|HK]; [left; right; exact HK|]. destruct (S _ HK); [left; left; assumption|right; assumption].
Qed.
Lemma separate_app : forall l m d p, separate_plainvalues (l ++ m) d p =
  separate_plainvalues m (fst (separate_plainvalues l d p)) (snd (separate_plainvalues l d p)).
Proof.
  induction l as [|[name [a v]] l IH]; intros m d p; cbn [app separate_plainvalues]; [reflexivity|]. destruct (is_margin a); [apply IH|]. destruct (is_complex_type a v); apply IH.
Qed.
Lemma set_fresh : forall {V} k (v : V) d, ~ In k (map fst d) -> dict_set k v d = d ++ [(k, v)].
Proof.
  intros V k v d. induction d as [|[k' v'] d IH]; cbn [dict_set map fst]; intros H; [reflexivity|].
  destruct (String.eqb k k') eqn:E; [exfalso; apply H; left; symmetry; apply String.eqb_eq; exact E|]. cbn [app]. rewrite IH; [reflexivity|intros HI; apply H; right; exact HI].
Qed.
Lemma expanded_app : forall py_repr object a b, expanded_all py_repr object (a ++ b) =
  let? x := expanded_all py_repr object a in let? y := expanded_all py_repr object b in Ok (x ++ y).
Proof.
  intros py_repr object. induction a as [|x a IH]; intros b; cbn [app expanded_all].
  - cbn [bind]. destruct (expanded_all py_repr object b); reflexivity.
  - destruct (expanded_xmlattribute py_repr object x) as [y|]; [|reflexivity]. cbn [bind]. rewrite IH. destruct (expanded_all py_repr object a) as [z|]; [|reflexivity]. cbn [bind].
    destruct (expanded_all py_repr object b) as [w|]; [|reflexivity]. cbn [bind]. rewrite app_assoc. reflexivity.
Qed.

Definition with_attribute (t : xtree) (a : list Z * list Z) : xtree :=
  match t with Elem n attrs text kids => Elem n (attrs ++ [a]) text kids end.

Theorem one_more : forall py_repr object k version m A key n t out,
  startelement py_repr object k version m A = (opening t, Finished) ->
  startelement py_repr object k version m (A ++ [(key, VInt n)]) = (out, Finished) ->
  ~ In key (model_names m) -> ~ In key (map fst A) -> key <> "<text>" -> model_name m <> "Text" ->
  out = opening (with_attribute t (attribute_name key, fmt_d n)).
Proof.
  intros py_repr object [|k] version m A key n t out H H' NM NA NT NN; cbn [startelement] in H, H'; [discriminate|].
  assert (TA : forall l, (match m with Struct_type _ layouts => typed_struct_attributes version layouts A | Other_class _ => Ok (remnants A) end) = Ok l ->
    (match m with Struct_type _ layouts => typed_struct_attributes version layouts (A ++ [(key, VInt n)]) | Other_class _ => Ok (remnants (A ++ [(key, VInt n)])) end) =
      Ok (l ++ [(key, (Type_of_value, Held (VInt n)))]) /\ ~ In key (map fst l)).
  { intros l E. destruct m as [nm layouts|nm].
    - unfold typed_struct_attributes in *. destruct (parse_all_members version layouts A) as [[l1 o1]|] eqn:E1; [|discriminate]. cbn [bind] in E. inversion E; subst.
      destruct (all_members_more version [(key, VInt n)] layouts A l1 o1 E1) as (F & K1 & K2); [intros k' HK [HE|[]]; cbn in HE; subst; exact (NM HK)|].
      rewrite F. cbn [bind]. split; [unfold remnants; rewrite map_app, app_assoc; reflexivity|]. rewrite map_app. intros HI. apply in_app_or in HI as [HI|HI].
      + exact (NM (K1 _ HI)).
      + unfold remnants in HI. rewrite map_map in HI. cbn [fst] in HI. exact (NA (K2 _ HI)).
    - inversion E; subst. unfold remnants. rewrite map_app. split; [reflexivity|]. rewrite map_map. exact NA. }
  match type of H with match ?x with _ => _ end = _ => destruct x as [l|] eqn:EL; [|discriminate] end.
  destruct (TA l eq_refl) as [TA' NL]. rewrite TA' in H'. clear TA TA' EL. rewrite separate_app in H'.
  pose proof (separate_keys l [] [] key) as SK. destruct (separate_plainvalues l [] []) as [complex plain]. cbn [fst snd separate_plainvalues is_margin is_complex_type item_of] in H', SK.
  assert (NP : ~ In key (map fst plain)) by (intros HI; destruct (SK HI) as [G|[]]; exact (NL G)).
  rewrite (set_fresh key _ plain NP) in H'. rewrite (proj2 (String.eqb_neq _ _) NN) in H, H'.
  rewrite (pop_more "<text>") in H' by (intros [HE|[]]; cbn in HE; congruence).
  destruct (dict_pop "<text>" plain) as [popped plain']. cbn [fst snd] in H'.
  assert (PA : forall plain attrs, xmlattributes_for_plainvalues py_repr object plain = Ok attrs -> forall attrs',
    xmlattributes_for_plainvalues py_repr object (plain ++ [(key, (Type_of_value, Held (VInt n)))]) = Ok attrs' -> attrs' = attrs ++ [(attribute_name key, fmt_d n)]).
  { intros p attrs E attrs' E'. unfold xmlattributes_for_plainvalues in *. rewrite expanded_app in E'. destruct (expanded_all py_repr object p) as [xs|]; [|discriminate]. cbn in E, E'.
    apply uniq_nodup in E as (-> & _). apply uniq_nodup in E' as (-> & _). rewrite map_app. reflexivity. }
  destruct popped as [[pa pv]|]; cbn [bind] in H, H';
    (match type of H with context [xmlattributes_for_plainvalues py_repr object ?p] => pose proof (PA p) as PA'; destruct (xmlattributes_for_plainvalues py_repr object p) as [attrs|]; [|discriminate] end);
    (match type of H' with context [xmlattributes_for_plainvalues py_repr object ?p] => destruct (xmlattributes_for_plainvalues py_repr object p) as [attrs'|] eqn:E2; [|discriminate] end);
    cbn [bind] in H, H'; rewrite (PA' _ eq_refl _ E2) in H';
    apply gapp_fst in H as (b & HB & HO); apply gapp_fst in H' as (b' & HB' & HO'); rewrite HB in HB'; inversion HB'; subst b';
    destruct t as [tn ta tx tk]; cbn [opening with_attribute] in *; cbn [app] in HO, HO'; injection HO as -> -> HR; rewrite HR; exact HO'.
Qed.

(** ** Numbers of elements *)
Lemma zs_same : forall a b, same (zs a) (zs b) = String.eqb a b.
Proof.
  intros a b. unfold same. destruct (list_eq_dec Z.eq_dec (zs a) (zs b)) as [E|E].
  - apply zs_inj in E. subst. symmetry. apply String.eqb_refl.
  - symmetry. apply String.eqb_neq. congruence.
Qed.
Lemma id_names : forall n, id_attribute (zs n) = match id_key n with Some key => Some (attribute_name key) | None => None end.
Proof.
  intros n. unfold id_attribute, numbered_names, id_key. cbn [find fst]. rewrite !zs_same. rewrite !(String.eqb_sym _ n).
  repeat (destruct (String.eqb n _); [reflexivity|]). reflexivity.
Qed.
Lemma id_cases : forall n key, id_key n = Some key -> In (n, key)
  [("Paragraph", "paragraph_id"); ("TableControl", "table_id"); ("GShapeObjectControl", "gshape_id"); ("ShapeComponent", "shape_id")].
Proof.
  intros n key. unfold id_key. repeat (destruct (String.eqb n _) eqn:?E; [apply String.eqb_eq in E; intros H; inversion H; subst; cbn; tauto|clear E]). discriminate.
Qed.

(** The counters after the elements of these names. *)
Definition counters (before : list (list Z)) : Z * Z * Z * Z :=
  (count (zs "Paragraph") before, count (zs "TableControl") before, count (zs "GShapeObjectControl") before, count (zs "ShapeComponent") before).
Lemma count_app : forall n a b, count n (a ++ b) = count n a + count n b.
Proof. intros n a b. unfold count. rewrite filter_app. unfold zlen. rewrite app_length. lia. Qed.
Lemma count_one : forall n m, count (zs n) [zs m] = if String.eqb n m then 1 else 0.
Proof. intros n m. unfold count. cbn [filter]. rewrite zs_same. destruct (String.eqb n m); reflexivity. Qed.
Lemma count_other : forall n m, id_attribute m = None -> id_attribute n <> None -> count n [m] = 0.
Proof. intros n m H N. unfold count. cbn [filter]. unfold same. destruct (list_eq_dec Z.eq_dec n m); [congruence|reflexivity]. Qed.
Lemma counters_other : forall before m, id_attribute m = None -> counters (before ++ [m]) = counters before.
Proof.
  intros before m H. unfold counters. rewrite !count_app. rewrite !(count_other _ m H) by (cbn; discriminate). rewrite !Z.add_0_r. reflexivity.
Qed.
Lemma counters_next : forall before n key, id_key n = Some key ->
  next_number n (counters before) = (count (zs n) before, counters (before ++ [zs n])).
Proof.
  intros before n key H. apply id_cases in H. unfold next_number, counters. rewrite !count_app, !count_one.
  destruct H as [H|[H|[H|[H|[]]]]]; inversion H; subst; cbn [String.eqb Ascii.eqb Bool.eqb]; rewrite ?Z.add_0_r; reflexivity.
Qed.

(** Elements that have no number, nor those in them. *)
Inductive unnumbered : xtree -> Prop :=
| un : forall n attrs text kids, id_attribute n = None -> Forall unnumbered kids -> unnumbered (Elem n attrs text kids).
Fixpoint unnumbered_same (t : xtree) : unnumbered t -> forall before, exists after, numbered before t t after /\ counters after = counters before.
Proof.
  destruct t as [n attrs text kids]. intros H before. inversion H as [? ? ? ? HN HK E1]; subst. clear H.
  assert (A : forall before, exists after, all_numbered before kids kids after /\ counters after = counters before).
  { clear before. induction kids as [|t kids IH]; intros before; [exists before; split; [constructor|reflexivity]|].
    destruct (unnumbered_same t) with (before := before) as (m & N1 & C1); [inversion HK; assumption|].
    destruct IH with (before := m) as (a & N2 & C2); [inversion HK; assumption|]. exists a. split; [econstructor; eassumption|congruence]. }
  destruct (A (before ++ [n])) as (after & N & C). exists after. split.
  - apply nd with (number := []); [constructor; exact HN|rewrite app_nil_r; apply Permutation_refl|exact N].
  - rewrite C. apply counters_other. exact HN.
Qed.
Lemma all_unnumbered_same : forall ts, Forall unnumbered ts -> forall before, exists after, all_numbered before ts ts after /\ counters after = counters before.
Proof.
  intros ts H. induction H as [|t ts HT H IH]; intros before; [exists before; split; [constructor|reflexivity]|].
  destruct (unnumbered_same t HT before) as (m & N1 & C1). destruct (IH m) as (a & N2 & C2). exists a. split; [econstructor; eassumption|congruence].
Qed.
Lemma all_numbered_app : forall a ts ts' b us us' c, all_numbered a ts ts' b -> all_numbered b us us' c -> all_numbered a (ts ++ us) (ts' ++ us') c.
Proof.
  intros a ts. revert a. induction ts as [|t ts IH]; intros a ts' b us us' c H H'; inversion H; subst; [exact H'|]. cbn [app]. econstructor; [eassumption|]. eapply IH; eassumption.
Qed.

(** ** A whole document *)
Definition kids_of (t : xtree) : list xtree := match t with Elem _ _ _ kids => kids end.
Section Ids.
  Variable py_repr : value -> list Z.
  Variable object : list Z.
  Variable fuel : nat.

  (** An item that becomes [t], and gets a number if it has one of these names. *)
  Definition idable (it : mitem) : Prop := forall key, id_key (model_name (mi_model it)) = Some key ->
    ~ In key (model_names (mi_model it)) /\ ~ In key (map fst (mi_attributes it)) /\
    forall n, exists out, startelement py_repr object fuel (mi_version it) (mi_model it) (mi_attributes it ++ [(key, VInt n)]) = (out, Finished).
  Definition writes (it : mitem) (t : xtree) : Prop :=
    starts_as py_repr object fuel it t /\ well_named t /\ Forall unnumbered (kids_of t) /\ idable it.

  Definition to_xml_of (g : gen (event mitem)) : gen xevent := modelevents_to_xmlevents py_repr object fuel (fst g) (snd g).
  Lemma to_xml_of_end : forall it g, to_xml_of (gcons (EEnd it) g) = gcons (XEnd (zs (model_name (mi_model it)))) (to_xml_of g).
  Proof. intros it [evs o]. reflexivity. Qed.
  Lemma to_xml_of_start : forall it g, to_xml_of (gcons (EStart it) g) =
    gthen (startelement py_repr object fuel (mi_version it) (mi_model it) (mi_attributes it)) (to_xml_of g).
  Proof. intros it [evs o]. reflexivity. Qed.

  Lemma number_given : forall it t before, writes it t -> exists t' n attrs text number attrs',
    t = Elem n attrs text (kids_of t) /\ t' = Elem n attrs' text (kids_of t) /\ number_attribute before n number /\ Permutation attrs' (attrs ++ number) /\
    root_name t = n /\ root_name t' = n /\ well_named t' /\
    forall evs o, to_xml_of (give_ids (counters before) (EStart it :: evs) o) = gapp (opening t') (to_xml_of (give_ids (counters (before ++ [n])) evs o)).
  Proof.
    intros it t before ([S R] & W & U & D). destruct t as [n attrs text kids]. cbn [root_name kids_of] in *. destruct (id_key (model_name (mi_model it))) as [key|] eqn:EK.
    - destruct (D key EK) as (D1 & D2 & D3). destruct (D3 (count n before)) as (out & EO). pose proof (id_cases _ _ EK) as EC.
      assert (E : out = opening (with_attribute (Elem n attrs text kids) (attribute_name key, fmt_d (count n before)))).
      { apply (one_more _ _ _ _ _ _ _ _ _ _ S EO D1 D2).
        - destruct EC as [E|[E|[E|[E|[]]]]]; inversion E; discriminate.
        - intros HT. rewrite HT in EC. destruct EC as [E|[E|[E|[E|[]]]]]; discriminate E. }
      exists (Elem n (attrs ++ [(attribute_name key, fmt_d (count n before))]) text kids), n, attrs, text, [(attribute_name key, fmt_d (count n before))], (attrs ++ [(attribute_name key, fmt_d (count n before))]).
      split; [reflexivity|]. split; [reflexivity|]. split; [|split; [apply Permutation_refl|split; [reflexivity|split; [reflexivity|split]]]].
      + apply na_number; [|apply decimal_ok]. rewrite R, id_names, EK. reflexivity.
      + inversion W as [? ? ? ? W1 W2 W3 W4]; subst. constructor; [exact W1| | |exact W4].
        * destruct (starts_an_element _ _ _ _ _ _ _ EO) as (t2 & E2 & _ & DA). inversion DA; subst. cbn [opening with_attribute] in E2. inversion E2; subst. assumption.
        * apply Forall_app. split; [exact W3|]. constructor; [|constructor]. cbn [fst]. destruct EC as [E'|[E'|[E'|[E'|[]]]]]; inversion E'; apply xml_nameb_sound; reflexivity.
      + intros evs o. cbn [give_ids]. rewrite EK. rewrite (counters_next _ _ _ EK). rewrite <- R. rewrite to_xml_of_start. cbn [mi_version mi_model mi_attributes].
        rewrite (set_fresh key _ _ D2), EO, gthen_fin, E. reflexivity.
    - exists (Elem n attrs text kids), n, attrs, text, [], attrs. split; [reflexivity|]. split; [reflexivity|].
      assert (EI : id_attribute n = None) by (rewrite R, id_names, EK; reflexivity).
      split; [constructor; exact EI|]. split; [rewrite app_nil_r; apply Permutation_refl|]. split; [reflexivity|]. split; [reflexivity|]. split; [exact W|].
      intros evs o. cbn [give_ids]. rewrite EK. rewrite to_xml_of_start, S, gthen_fin. rewrite counters_other by exact EI. reflexivity.
  Qed.

  Theorem ids_written : forall f ts, written writes f ts -> forall before, exists ts' after,
    all_numbered before ts ts' after /\ Forall well_named ts' /\
    forall rest o, to_xml_of (give_ids (counters before) (walk f ++ rest) o) = gapp (flat_map events_of ts') (to_xml_of (give_ids (counters after) rest o)).
  Proof.
    intros f ts H. induction H as [|x kids next t ks ts HX HK IHK HN IHN]; intros before.
    - exists [], before. split; [constructor|]. split; [constructor|]. intros rest o. cbn [walk app flat_map]. destruct (to_xml_of _); reflexivity.
    - destruct (number_given x t before HX) as (t' & n & attrs & text & number & attrs' & ET & ET' & NA & PA & RT & RT' & WT & EX).
      destruct HX as ([S R] & W & U & D). destruct (all_unnumbered_same _ U (before ++ [n])) as (b1 & N1 & C1).
      destruct (IHK b1) as (ks' & b2 & N2 & W2 & E2). destruct (IHN b2) as (ts' & after & N3 & W3 & E3).
      exists (with_children t' ks' :: ts'), after. split; [|split].
      + econstructor; [|exact N3]. rewrite ET, ET'. cbn [with_children]. apply nd with (number := number); [exact NA|exact PA|]. eapply all_numbered_app; eassumption.
      + constructor; [apply with_named; assumption|exact W3].
      + intros rest o. cbn [walk app]. rewrite EX. rewrite <- C1. rewrite <- app_assoc. cbn [app]. rewrite E2. cbn [give_ids]. rewrite to_xml_of_end, E3. cbn [flat_map]. rewrite more_children.
        rewrite <- R, RT, <- RT'. unfold gapp, gcons. cbn [fst snd]. rewrite <- !app_assoc. reflexivity.
  Qed.

  (** Of the items at ends only the names matter. *)
  Definition plain_end (e : event mitem) : event mitem :=
    match e with EStart it => EStart it | EEnd it => EEnd (mkMitem [] (Other_class (model_name (mi_model it))) []) end.
  Lemma ends_irrelevant : forall a b o, map plain_end a = map plain_end b -> forall c, to_xml_of (give_ids c a o) = to_xml_of (give_ids c b o).
  Proof.
    induction a as [|e a IH]; intros [|e' b] o H c; try discriminate; [reflexivity|]. cbn [map] in H. inversion H as [[E F]].
    destruct e as [it|it], e' as [it'|it']; cbn [plain_end] in E; try discriminate; inversion E as [E']; subst; cbn [give_ids].
    - destruct (id_key (model_name (mi_model it'))) as [key|].
      + destruct (next_number _ c) as [n c']. rewrite !to_xml_of_start, (IH _ _ F). reflexivity.
      + rewrite !to_xml_of_start, (IH _ _ F). reflexivity.
    - rewrite !to_xml_of_end, (IH _ _ F), E'. reflexivity.
  Qed.

  (** Where no element has a number, the items need none. *)
  Lemma unnumbered_kids : forall t ks, unnumbered (with_children t ks) -> id_attribute (root_name t) = None /\ Forall unnumbered (kids_of t) /\ Forall unnumbered ks.
  Proof. intros [n a x kids] ks H. inversion H as [? ? ? ? HN HK]; subst. apply Forall_app in HK as [H1 H2]. auto. Qed.
  Lemma named_kids : forall t ks, well_named (with_children t ks) -> well_named t /\ Forall well_named ks.
  Proof. intros [n a x kids] ks H. inversion H as [? ? ? ? W1 W2 W3 W4]; subst. apply Forall_app in W4 as [W4 W5]. split; [constructor; assumption|exact W5]. Qed.
  Theorem without_numbers : forall f ts, written (starts_as py_repr object fuel) f ts -> Forall well_named ts -> Forall unnumbered ts -> written writes f ts.
  Proof.
    intros f ts H. induction H as [|x kids next t ks ts HX HK IHK HN IHN]; intros W U; [constructor|].
    inversion W as [|? ? W1 W2]; subst. inversion U as [|? ? U1 U2]; subst. apply named_kids in W1 as [W1 W1']. apply unnumbered_kids in U1 as (UN & U1 & U1').
    constructor; auto. split; [exact HX|]. split; [exact W1|]. split; [exact U1|]. intros key EK. exfalso. destruct HX as [_ R]. rewrite R, id_names, EK in UN. discriminate.
  Qed.
End Ids.

(** ** Children that belong to the records themselves *)
Definition no_number (n : list Z) : bool := match id_attribute n with None => true | Some _ => false end.
Definition form_ok (key : string) (f : form) : bool :=
  match f with
  | Child c | Children c => no_number (zs c)
  | Colors => no_number (zs key)
  | Chosen _ _ names => forallb (fun nc => no_number (zs (snd nc))) names
  | _ => true
  end.
Lemma forms_ok : forallb (fun e => forallb (fun kf => form_ok (fst kf) (snd kf)) (snd e)) forms = true.
Proof. vm_compute. reflexivity. Qed.
Lemma look_in : forall V k (l : list (string * V)) v, look k l = Some v -> In (k, v) l.
Proof.
  intros V k l v. unfold look. destruct (find _ l) as [[k' v']|] eqn:E; cbn; [|discriminate]. intros H. inversion H; subst.
  apply find_some in E as [E1 E2]. apply String.eqb_eq in E2. cbn in E2. subst. exact E1.
Qed.
Lemma form_is_ok : forall name key, form_ok key (form_of name key) = true.
Proof.
  intros name key. unfold form_of. destruct (look name forms) as [l|] eqn:E1; [|reflexivity]. destruct (look key l) as [f|] eqn:E2; [|reflexivity].
  apply look_in in E1, E2. pose proof forms_ok as H. rewrite forallb_forall in H. specialize (H _ E1). cbn [snd] in H. rewrite forallb_forall in H. exact (H _ E2).
Qed.
Lemma no_number_ok : forall n, no_number n = true -> id_attribute n = None.
Proof. intros n. unfold no_number. destruct (id_attribute n); [discriminate|reflexivity]. Qed.
Lemma colors_unnumbered : forall key l ts, id_attribute (zs key) = None -> colors_of key l ts -> Forall unnumbered ts.
Proof. intros key l ts H C. induction C; constructor; [|assumption]. constructor; [exact H|constructor]. Qed.

Section Own.
  Variable repr : view -> list Z.
  Variable object : list Z.
  Scheme element_ind2 := Minimality for Spec_XmlElement.element Sort Prop
    with children_ind2 := Minimality for Spec_XmlElement.children Sort Prop
    with elements_ind2 := Minimality for Spec_XmlElement.elements Sort Prop.
  Combined Scheme own_ind from element_ind2, children_ind2, elements_ind2.
  Lemma own_all :
    (forall name d t, Spec_XmlElement.element repr object name d t -> Forall unnumbered (kids_of t) /\ root_name t = zs name) /\
    (forall name d r ts, Spec_XmlElement.children repr object name d r ts -> Forall unnumbered ts) /\
    (forall c l ts, Spec_XmlElement.elements repr object c l ts -> id_attribute (zs c) = None -> Forall unnumbered ts).
  Proof.
    assert (B : forall t c, Forall unnumbered (kids_of t) /\ root_name t = zs c -> id_attribute (zs c) = None -> unnumbered t).
    { intros [n a x k] c [H1 H2] H3. cbn in *. constructor; [congruence|exact H1]. }
    apply own_ind.
    - intros name d listed attrs kids _ _ _ _ IH. split; [exact IH|reflexivity].
    - constructor.
    - intros name d key x r ts _ _ IH. exact IH.
    - intros name d key c m r t ts F _ IH _ IH'. constructor; [|exact IH']. apply (B _ _ IH). pose proof (form_is_ok name key) as O. rewrite F in O. apply no_number_ok. exact O.
    - intros name d key member group names n c m r t ts F _ HI _ IH _ IH'. constructor; [|exact IH']. apply (B _ _ IH). pose proof (form_is_ok name key) as O. rewrite F in O. cbn in O.
      rewrite forallb_forall in O. apply no_number_ok. exact (O _ HI).
    - intros name d key c l r us ts F _ IH _ IH'. constructor; [|exact IH']. constructor; [reflexivity|]. apply IH. pose proof (form_is_ok name key) as O. rewrite F in O. apply no_number_ok. exact O.
    - intros name d key l r us ts F C _ IH'. apply Forall_app. split; [|exact IH']. apply (colors_unnumbered key l); [|exact C]. pose proof (form_is_ok name key) as O. rewrite F in O. apply no_number_ok. exact O.
    - constructor.
    - intros c m l t ts _ IH _ IH' H. constructor; [exact (B _ _ IH H)|exact (IH' H)].
  Qed.
End Own.
Theorem own_unnumbered : forall repr object name d t, Spec_XmlElement.element repr object name d t -> Forall unnumbered (kids_of t).
Proof. intros repr object name d t H. exact (proj1 (proj1 (own_all repr object) name d t H)). Qed.

(** ** Records can have numbers *)
Lemma record_members : forall n key, id_key n = Some key -> ~ In key (model_names (record_model n)).
Proof.
  intros n key H. apply id_cases in H. assert (C : existsb (String.eqb key) (model_names (record_model n)) = false).
  { destruct H as [H|[H|[H|[H|[]]]]]; inversion H; subst; vm_compute; reflexivity. }
  intros HI. assert (existsb (String.eqb key) (model_names (record_model n)) = true); [|congruence]. apply existsb_exists. exists key. split; [exact HI|apply String.eqb_refl].
Qed.
Theorem record_idable : forall repr object fuel version parent r m attrs, all_bytes (r_payload r) -> reads version parent (r_tagid r) (r_payload r) (Ok m) ->
  ~ In (m_type m) unwritten -> kept (m_type m) (m_content m) attrs ->
  idable (fun v => repr (view_of v)) object (4 + fuel) (mkMitem version (record_model (m_type m)) attrs).
Proof.
  intros repr object fuel version parent r m attrs HB HR HU HK key EK. cbn [mi_model mi_attributes mi_version] in *. change (model_name (record_model (m_type m))) with (m_type m) in EK.
  split; [exact (record_members _ _ EK)|].
  assert (A : forall n, addable (m_type m) (record_parts (r_tagid r) (m_type m)) (views [(key, VInt n)])).
  { intros n. apply (ids_addable _ _ _ _ _ _ _ HR). apply id_cases in EK. unfold id_keys. destruct EK as [E|[E|[E|[E|[]]]]]; inversion E; cbn; tauto. }
  split.
  - intros HI. apply (kept_keys _ _ _ _ HK) in HI. apply (record_keys _ _ _ _ _ _ HB HR) in HI. destruct (A 0) as [_ A']. inversion A' as [|? ? (_ & A2 & _) _]. exact (A2 HI).
  - intros n. destruct (record_element repr object _ _ _ _ _ attrs [(key, VInt n)] fuel HB HR HU HK (A n)) as (t & T1 & T2). eauto.
Qed.
