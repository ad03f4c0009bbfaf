(** The XML of sections. *)
From Coq Require Import ZArith String List Bool Lia Permutation.
From Verif Require Import Base BaseFacts Model_Tree Spec_Tree Model_ParaText Model_Classes Model_XmlModel.
From Verif Require Import Model_Text Model_Dataio Model_Record Model_Bintype Model_Layouts Model_Models
  Model_XmlText Model_XmlElement Model_XmlFile Spec_XmlText Spec_Bintype Spec_Models Spec_Oleprops Spec_Layouts Spec_XmlElement Spec_XmlModel Spec_Section Spec_XmlFile
  Proof_Tree Proof_XmlText Proof_OleText Proof_Models Proof_Layouts Proof_Fits Proof_XmlElement Proof_XmlEntry Proof_XmlParts Proof_XmlRecord
  Proof_XmlNames Proof_XmlDocument Proof_XmlDocinfo Proof_Section Proof_XmlPasses.
Import ListNotations.
Open Scope string_scope.
Open Scope list_scope.
Open Scope Z_scope.

(** ** Attributes as the passes see them, and back *)
Lemma ints_back : forall l ns, Model_XmlFile.ints_of l = Some ns -> map VInt ns = l.
Proof.
  induction l as [|v l IH]; intros ns H; cbn [Model_XmlFile.ints_of] in H; [inversion H; reflexivity|]. destruct v; try discriminate.
  destruct (Model_XmlFile.ints_of l) as [ms|]; [|discriminate]. inversion H; subst. cbn. rewrite (IH ms eq_refl). reflexivity.
Qed.
Lemma pairs_back : forall l ps, pairs_of l = Some ps -> map (fun p => VTuple [VInt (fst p); VInt (snd p)]) ps = l.
Proof.
  induction l as [|v l IH]; intros ps H; cbn [pairs_of] in H; [inversion H; reflexivity|].
  destruct v; try discriminate. destruct l0 as [|[] [|[] [|]]]; try discriminate.
  destruct (pairs_of l) as [qs|]; [|discriminate]. inversion H; subst. cbn. rewrite (IH qs eq_refl). reflexivity.
Qed.
Lemma value_back : forall T k v, T <> "ParaLineSeg" -> value_of (pass_value T k v) = v.
Proof.
  intros T k v HT. destruct v; try reflexivity. unfold pass_value. cbv zeta.
  destruct (_ && _) eqn:E1; [destruct (Model_XmlFile.ints_of l) eqn:E; [cbn; rewrite (ints_back _ _ E)|]; reflexivity|].
  destruct (String.eqb T "ParaCharShape" && _) eqn:E2; [destruct (pairs_of l) eqn:E; [cbn; rewrite (pairs_back _ _ E)|]; reflexivity|].
  destruct (String.eqb T "ParaLineSeg" && _) eqn:E3; [|reflexivity]. apply andb_prop in E3 as [E3 _]. apply String.eqb_eq in E3. contradiction.
Qed.
Lemma values_back : forall ref m, m_type m <> "ParaLineSeg" -> item_values (pass_item ref m) = m_content m.
Proof.
  intros ref m HT. unfold item_values, pass_item. cbn [i_attrs]. rewrite map_map. cbn [fst snd].
  rewrite <- (map_id (m_content m)) at 2. apply map_ext. intros [k v]. cbn. rewrite value_back by exact HT. reflexivity.
Qed.
Lemma view_back : forall a, attribute_view a = view_of (value_of a).
Proof.
  destruct a; try reflexivity; cbn.
  - f_equal. rewrite map_map. reflexivity.
  - f_equal. rewrite map_map. reflexivity.
  - f_equal. rewrite map_map. apply map_ext. intros d. cbn. f_equal. rewrite map_map. reflexivity.
Qed.
Lemma views_back : forall x, attribute_views x = views (item_values x).
Proof.
  intros x. unfold attribute_views, views, item_values. rewrite map_map. apply map_ext. intros [k a]. cbn. rewrite view_back. reflexivity.
Qed.
Lemma values_del : forall key x, item_values (del_item key x) = filter (fun kv => negb (String.eqb (fst kv) key)) (item_values x).
Proof.
  intros key x. unfold item_values, del_item, attr_del. cbn [i_attrs]. induction (i_attrs x) as [|[k a] l IH]; [reflexivity|].
  cbn [filter map fst]. destruct (negb _); cbn [map fst snd]; rewrite IH; reflexivity.
Qed.
Lemma values_set : forall key a x, ~ In key (map fst (item_values x)) -> item_values (set_item key a x) = item_values x ++ [(key, value_of a)].
Proof.
  intros key a x H. unfold item_values, set_item in *. cbn [i_attrs] in *. induction (i_attrs x) as [|[k b] l IH]; [reflexivity|].
  cbn [attr_set map fst snd app] in *. destruct (String.eqb k key) eqn:E; [apply String.eqb_eq in E; subst; exfalso; apply H; left; reflexivity|].
  cbn [map fst snd]. rewrite IH; [reflexivity|]. intros HI. apply H. right. exact HI.
Qed.
Lemma kept_rows : forall T l l', kept T l l' -> T = "TableBody" -> kept T l (filter (fun kv => negb (String.eqb (fst kv) "rowcols")) l').
Proof.
  intros T l l' H HT. induction H as [|[k v] l l' H IH|v l l' E H IH|d x l l' E HA H IH]; cbn [filter fst].
  - constructor.
  - destruct (String.eqb k "rowcols") eqn:E; cbn [negb]; [apply String.eqb_eq in E; subst; apply kp_rows; auto|apply kp_same; auto].
  - apply kp_rows; auto.
  - subst. discriminate.
Qed.

(** ** Lines *)
Lemma lines_in : forall ls l d, lines_of ls = Some l -> In d l -> exists d', In (VDict d') ls /\ numbers_of d' = Some d.
Proof.
  induction ls as [|v ls IH]; intros l d H HI; cbn [lines_of] in H; [inversion H; subst; contradiction|].
  destruct v; try discriminate. destruct (numbers_of d0) as [n|] eqn:E; [|discriminate]. destruct (lines_of ls) as [ns|]; [|discriminate]. inversion H; subst.
  destruct HI as [<-|HI]; [exists d0; split; [left; reflexivity|exact E]|]. destruct (IH ns d eq_refl HI) as (d' & I1 & I2). exists d'. split; [right; exact I1|exact I2].
Qed.
Lemma pass_linesegs : forall ref m l, m_type m = "ParaLineSeg" -> attr_get "linesegs" (i_attrs (pass_item ref m)) = Some (VLineSegs l) ->
  exists ls, In ("linesegs", VList ls) (m_content m) /\ lines_of ls = Some l.
Proof.
  intros ref m l HT. unfold pass_item. cbn [i_attrs]. rewrite HT. induction (m_content m) as [|[k v] c IH]; intros H; [discriminate|].
  cbn [map attr_get fst snd] in H. destruct (String.eqb k "linesegs") eqn:E.
  - apply String.eqb_eq in E. subst k. destruct v; try discriminate. cbn in H. destruct (lines_of l0) as [x|] eqn:EL; [|discriminate]. inversion H; subst. exists l0. split; [left; reflexivity|exact EL].
  - destruct (IH H) as (ls & I1 & I2). exists ls. split; [right; exact I1|exact I2].
Qed.
Definition a_line (a b c d e f g h n : Z) : list (string * Z) :=
  [("chpos", a); ("y", b); ("height", c); ("height_text", d); ("height_baseline", e); ("space_below", f); ("x", g); ("width", h); ("lineseg_flags", n)].
Lemma fit_always : forall version parent name k r env d, fit_fields version parent (always name k :: r) env d ->
  exists x, fits version parent k env x /\ fit_fields version parent r (added_to name x env) d.
Proof.
  intros version parent name k r env d H. unfold always in H. inversion H as [|? ? ? ? ? ? ? V K|? ? ? ? ? ? ? V C K|? ? ? ? ? ? x ? V C X K]; subst.
  - discriminate V.
  - unfold cond_is in C. cbn in C. discriminate C.
  - exists x. split; assumption.
Qed.
Lemma fit_line : forall version parent d, fits version parent k_LineSeg [] (Some (VDict d)) -> forall l, numbers_of d = Some l ->
  exists a b c d' e f g h n, l = a_line a b c d' e f g h n /\ 0 <= n < 256 ^ 4.
Proof.
  intros version parent d H l HL. inversion H as [| | | | | | | |fs env d0 F| | | | |]; subst. clear H.
  repeat (apply fit_always in F; destruct F as (x & X & F); inversion X; subst; clear X; cbn [added_to dict_set] in F).
  inversion F; subst. cbn in HL. inversion HL; subst. unfold a_line. do 9 eexists; split; [reflexivity|]. lia.
Qed.
Lemma lineseg_tag : forall version parent tagid payload m, reads version parent tagid payload (Ok m) -> m_type m = "ParaLineSeg" -> type_of_tag tagid = "ParaLineSeg".
Proof.
  intros version parent tagid payload m HR HT.
  assert (P : In (type_of_tag tagid, m_type m) pairs).
  { inversion HR as [d tr s E R|d0 d tr0 tr1 s0 s t E R L| | |]; subst; cbn [m_type]; [apply tag_pair|exact (refined_pair _ _ _ _ R)]. }
  assert (C : forallb (fun p => negb (String.eqb (snd p) "ParaLineSeg") || String.eqb (fst p) "ParaLineSeg") pairs = true) by (vm_compute; reflexivity).
  rewrite forallb_forall in C. specialize (C _ P). cbn [fst snd] in C. rewrite HT, String.eqb_refl in C. cbn in C. apply String.eqb_eq. exact C.
Qed.
Lemma lineseg_values : forall version parent tagid payload m ls d, all_bytes payload -> reads version parent tagid payload (Ok m) -> m_type m = "ParaLineSeg" ->
  In ("linesegs", VList ls) (m_content m) -> In (VDict d) ls -> fits version parent k_LineSeg [] (Some (VDict d)).
Proof.
  intros version parent tagid payload m ls d HB HR HT HI HD. pose proof (lineseg_tag _ _ _ _ _ HR HT) as ET.
  destruct (record_fits _ _ _ _ _ HB HR) as (ds & EC & F). rewrite ET, HT in F. change (classes_of "ParaLineSeg" "ParaLineSeg") with ["ParaLineSeg"] in F.
  inversion F as [|? e ? ? FE FN]; subst. inversion FN; subst. cbn [concat] in EC. rewrite app_nil_r in EC. rewrite EC in HI.
  cbn in FE. apply fit_always in FE as (x & X & K). inversion X; subst. cbn [added_to dict_set] in K. inversion K; subst.
  match goal with E : _ = m_content m |- _ => rewrite <- E in HI | E : m_content m = _ |- _ => rewrite E in HI end. destruct HI as [HI|[]]. inversion HI; subst. match goal with G : Forall _ ls |- _ => rewrite Forall_forall in G; exact (G _ HD) end.
Qed.

Lemma bit_is : forall n i, 0 <= i -> get_int_value i i n = n / 2 ^ i mod 2.
Proof. intros n i H. rewrite Proof_Dataio.bitfield_value by lia. replace (i - i + 1) with 1 by lia. reflexivity. Qed.

(** ** Items without a record *)
Section Made.
  Variable repr : view -> list Z.
  Variable object : list Z.
  Variable version : list Z.
  Variable fuel : nat.
  Let py_repr : value -> list Z := fun v => repr (view_of v).
  Definition good_item (x : Model_XmlModel.item) : Prop := exists t,
    startelement py_repr object (4 + fuel) version (class_named (i_model x)) (item_values x) = (opening t, Finished) /\
    root_name t = zs (i_model x) /\ shown_node repr object x t /\ well_named t.

  Ltac named := constructor; [apply xml_nameb_sound; reflexivity| |repeat (constructor; [apply xml_nameb_sound; reflexivity|]); constructor|constructor].
  Ltac distinct := repeat (constructor; [cbn; intros H; repeat (destruct H as [H|H]; [discriminate H|]); exact H|]); constructor.
  Ltac is_decimal := split; [reflexivity|first [apply mt_number; apply decimal_ok|constructor]].

  Lemma made_as : forall x name listed text, zs (i_model x) = name -> characters x = text -> In (i_model x) made_nodes ->
    Forall2 (fun kv a => fst a = attribute_name (fst kv) /\ made_text (snd kv) (snd a)) (filter (fun kv => negb (is_characters x kv)) (i_attrs x)) listed ->
    NoDup (map fst listed) -> shown_node repr object x (Elem name listed text []).
  Proof. intros x name listed text <- <- HI HF HN. apply sn_made with (listed := listed); auto. Qed.

  Lemma good_token : forall n lang t, good_item (token_item (Model_XmlModel.VInt n) lang t).
  Proof.
    intros n lang t. exists (Elem (zs "Text") [(zs "charshape-id", fmt_d n); (zs "lang", zs lang)] t []). split; [|split; [reflexivity|split]].
    - destruct t; reflexivity.
    - apply made_as; [reflexivity|reflexivity|left; reflexivity| |distinct].
      cbn. repeat (constructor; [is_decimal|]). constructor.
    - named. distinct.
  Qed.
  Lemma good_text : forall n t, good_item (text_item t n).
  Proof.
    intros n t. exists (Elem (zs "Text") [(zs "charshape-id", fmt_d n)] t []). split; [|split; [reflexivity|split]].
    - destruct t; reflexivity.
    - apply made_as; [reflexivity|reflexivity|left; reflexivity| |distinct].
      cbn. repeat (constructor; [is_decimal|]). constructor.
    - named. distinct.
  Qed.
  Lemma good_controlchar : forall c k n, good_item (controlchar_item c k n).
  Proof.
    intros c k n. pose (l := [(zs "name", get_name_by_code c); (zs "code", fmt_d c); (zs "kind", kind_text k); (zs "charshape-id", fmt_d n)]).
    destruct ((c =? 0x9) || (c =? 0xa) || (c =? 0xd)) eqn:E.
    - exists (Elem (zs "ControlChar") (l ++ [(zs "char", [c])]) [] []). split; [|split; [reflexivity|split]].
      + unfold controlchar_item. rewrite E. reflexivity.
      + apply made_as; [reflexivity|unfold controlchar_item; rewrite E; reflexivity|right; left; reflexivity| |distinct].
        unfold controlchar_item. rewrite E. cbn. repeat (constructor; [is_decimal|]). constructor.
      + named. distinct.
    - exists (Elem (zs "ControlChar") l [] []). split; [|split; [reflexivity|split]].
      + unfold controlchar_item. rewrite E. reflexivity.
      + apply made_as; [reflexivity|unfold controlchar_item; rewrite E; reflexivity|right; left; reflexivity| |distinct].
        unfold controlchar_item. rewrite E. cbn. repeat (constructor; [is_decimal|]). constructor.
      + named. distinct.
  Qed.
  Lemma good_row : good_item row_item.
  Proof.
    exists (Elem (zs "TableRow") [] [] []). split; [reflexivity|split; [reflexivity|split]].
    - apply (sn_made repr object row_item []); [do 2 right; left; reflexivity|constructor|constructor|constructor].
    - named. distinct.
  Qed.
  Lemma good_columns : good_item columns_item.
  Proof.
    exists (Elem (zs "ColumnSet") [] [] []). split; [reflexivity|split; [reflexivity|split]].
    - apply (sn_made repr object columns_item []); [do 3 right; left; reflexivity|constructor|constructor|constructor].
    - named. distinct.
  Qed.
  Definition line_attributes (a b c d e f g h n : Z) : list (list Z * list Z) :=
    [(zs "chpos", fmt_d a); (zs "y", fmt_d b); (zs "height", fmt_d c); (zs "height-text", fmt_d d); (zs "height-baseline", fmt_d e);
     (zs "space-below", fmt_d f); (zs "x", fmt_d g); (zs "width", fmt_d h); (zs "lineseg-flags", fmt_X 8 n);
     (zs "line-head", fmt_d (get_int_value 17 17 n)); (zs "line-tail", fmt_d (get_int_value 18 18 n));
     (zs "indented", fmt_d (get_int_value 20 20 n)); (zs "bullet", fmt_d (get_int_value 21 21 n))].
  Lemma good_line : forall i a b c d e f g h n, 0 <= n < 256 ^ 4 -> good_item (lineseg_item (i, a_line a b c d e f g h n)).
  Proof.
    intros i a b c d e f g h n HN. exists (Elem (zs "LineSeg") (line_attributes a b c d e f g h n) [] []). split; [reflexivity|split; [reflexivity|split]].
    - apply sn_line; [reflexivity|]. cbn [lineseg_item i_attrs snd a_line map fst].
      match goal with |- Spec_XmlElement.element _ _ _ ?v _ =>
        apply (el repr object "LineSeg" v [[(zs "chpos", fmt_d a)]; [(zs "y", fmt_d b)]; [(zs "height", fmt_d c)]; [(zs "height-text", fmt_d d)]; [(zs "height-baseline", fmt_d e)];
          [(zs "space-below", fmt_d f)]; [(zs "x", fmt_d g)]; [(zs "width", fmt_d h)];
          [(zs "lineseg-flags", hexadecimals true 8 n); (zs "line-head", fmt_d (n / 2 ^ 17 mod 2)); (zs "line-tail", fmt_d (n / 2 ^ 18 mod 2));
           (zs "indented", fmt_d (n / 2 ^ 20 mod 2)); (zs "bullet", fmt_d (n / 2 ^ 21 mod 2))]]) end.
      + unfold line_view. cbn [fst snd String.eqb Ascii.eqb Bool.eqb].
        repeat (constructor; [apply ao_plain; [discriminate|apply pt_int; apply decimal_ok]|]).
        constructor; [|constructor]. cbn [fst snd]. apply (ao_bits repr 8 "lineseg_flags" n).
        repeat (constructor; [split; [reflexivity|apply gt_number; cbn [fst snd]; apply decimal_ok]|]). constructor.
      + cbn [concat app]. change (missing _ _ _) with (@nil (list Z * list Z)). unfold line_attributes. rewrite !bit_is by lia. rewrite (fmt_X_is 8) by (cbn; lia). apply Permutation_refl.
      + distinct.
      + repeat (apply ch_none; [exact I|]). constructor.
    - named. distinct.
  Qed.
  Lemma good_zero_line : forall i, good_item (lineseg_item (i, dummy_lineseg)).
  Proof.
    intros i. eexists (Elem (zs "LineSeg") _ [] []). split; [vm_compute; reflexivity|split; [reflexivity|split]].
    - apply sn_zero_line; [reflexivity|reflexivity|]. unfold zero_attributes. cbn [map app]. do 8 apply perm_skip.
      match goal with |- Permutation (?x :: ?l) _ => apply (Permutation_cons_append l x) end.
    - named. distinct.
  Qed.
End Made.

(** ** Items of records *)
Lemma kept_keys : forall T l l' k, kept T l l' -> In k (map fst l') -> In k (map fst l).
Proof.
  intros T l l' k H. induction H; cbn [map fst]; intros HI; auto.
  - destruct HI as [HI|HI]; [left; exact HI|right; auto].
  - right. auto.
  - destruct HI as [HI|HI]; [left; exact HI|right; auto].
Qed.
Lemma set_keys : forall (d : list (string * value)) k v x, In x (map fst (dict_set k v d)) -> x = k \/ In x (map fst d).
Proof.
  induction d as [|[k' v'] d IH]; intros k v x H; cbn [dict_set map fst] in *.
  - destruct H as [H|[]]. left. congruence.
  - destruct (String.eqb k k') eqn:E; cbn [map fst In] in *.
    + destruct H as [H|H]; [right; left; exact H|right; right; exact H].
    + destruct H as [H|H]; [right; left; exact H|]. destruct (IH _ _ _ H); [left; assumption|right; right; assumption].
Qed.
Lemma fit_keys : forall version parent fs env d x, fit_fields version parent fs env d -> In x (map fst d) -> In x (map fst env) \/ In x (map fname fs).
Proof.
  induction fs as [|[[[name v] t] k] fs IH]; intros env d x H HI; inversion H as [|? ? ? ? ? ? ? V K|? ? ? ? ? ? ? V C K|? ? ? ? ? ? y ? V C X K]; subst; [left; exact HI| | |].
  - destruct (IH _ _ _ K HI); [left; assumption|right; right; assumption].
  - destruct (IH _ _ _ K HI); [left; assumption|right; right; assumption].
  - destruct (IH _ _ _ K HI) as [G|G]; [|right; right; assumption]. destruct y as [y|]; cbn [added_to] in G; [|left; exact G].
    apply set_keys in G as [G|G]; [right; left; symmetry; exact G|left; exact G].
Qed.
Lemma record_keys : forall version parent tagid payload m k, all_bytes payload -> reads version parent tagid payload (Ok m) ->
  In k (map fst (m_content m)) -> In k (member_names (record_parts tagid (m_type m))).
Proof.
  intros version parent tagid payload m k HB HR HI. destruct (record_fits _ _ _ _ _ HB HR) as (ds & E & F). rewrite E in HI.
  change (record_parts tagid (m_type m)) with (map record_fields (classes_of (type_of_tag tagid) (m_type m))). unfold member_names. clear E HR.
  induction F as [|c e cs es FE F IH]; [contradiction|]. cbn [concat map] in HI |- *. rewrite map_app in HI |- *. apply in_or_app. apply in_app_or in HI as [HI|HI]; [|right; apply IH; exact HI].
  left. destruct (fit_keys _ _ _ _ _ _ FE HI) as [[]|G]. exact G.
Qed.
Lemma read_pair : forall version parent tagid payload m, reads version parent tagid payload (Ok m) -> In (type_of_tag tagid, m_type m) pairs.
Proof. intros version parent tagid payload m HR. inversion HR as [d tr s E R|d0 d tr0 tr1 s0 s t E R L| | |]; subst; cbn [m_type]; [apply tag_pair|exact (refined_pair _ _ _ _ R)]. Qed.
Lemma record_class : forall version parent tagid payload m, reads version parent tagid payload (Ok m) ->
  class_named (m_type m) = record_model (m_type m) /\ ~ In (m_type m) made_nodes /\ m_type m <> "LineSeg".
Proof.
  intros version parent tagid payload m HR. pose proof (read_pair _ _ _ _ _ HR) as P.
  assert (C : forallb (fun p => negb (existsb (String.eqb (snd p)) ["Text"; "ControlChar"; "TableRow"; "ColumnSet"]) && negb (String.eqb (snd p) "LineSeg")) pairs = true) by (vm_compute; reflexivity).
  rewrite forallb_forall in C. specialize (C _ P). cbn [snd] in C. apply andb_prop in C as [C1 C2]. apply negb_true_iff in C1, C2. unfold class_named. rewrite C1, C2.
  split; [reflexivity|]. split; [|apply String.eqb_neq; exact C2]. intros HI. match type of C1 with ?x = false => assert (x = true); [|congruence] end.
  apply existsb_exists. exists (m_type m). split; [exact HI|apply String.eqb_refl].
Qed.

Section Records.
  Variable repr : view -> list Z.
  Variable object : list Z.
  Variable version : list Z.
  Variable fuel : nat.
  Variable out : list (record * model).
  Hypothesis OK : forall i r m, nth_error out i = Some (r, m) -> all_bytes (r_payload r) /\ exists parent, reads version parent (r_tagid r) (r_payload r) (Ok m).

  Definition from_record (x : Model_XmlModel.item) : Prop := exists i r m, nth_error out i = Some (r, m) /\
    i_ref x = Z.of_nat i + 1 /\ i_model x = m_type m /\ ~ In (m_type m) unwritten /\ kept (m_type m) (m_content m) (item_values x).
  Definition line_of_record (d : list (string * Z)) : Prop := exists a b c e f g h k n, d = a_line a b c e f g h k n /\ 0 <= n < 256 ^ 4.
  Definition Q1 (x : Model_XmlModel.item) : Prop :=
    from_record x \/ (exists t s, x = text_item t s) \/ (exists c k s, x = controlchar_item c k s) \/ (exists i, x = lineseg_item (i, dummy_lineseg)) \/
    (exists i d, x = lineseg_item (i, d) /\ line_of_record d) \/ x = row_item.
  Definition Q2 (x : Model_XmlModel.item) : Prop :=
    from_record x \/ (exists n l t, x = token_item (Model_XmlModel.VInt n) l t) \/ (exists c k s, x = controlchar_item c k s) \/ (exists i, x = lineseg_item (i, dummy_lineseg)) \/
    (exists i d, x = lineseg_item (i, d) /\ line_of_record d) \/ x = row_item.
  Definition Q3 (x : Model_XmlModel.item) : Prop :=
    Q2 x \/ x = columns_item \/ (exists n y, from_record y /\ i_model y = "SectionDef" /\ x = set_item "section_id" (Model_XmlModel.VInt n) y).
  Definition D1 (x : Model_XmlModel.item) : Prop := exists i r m ref, nth_error out i = Some (r, m) /\ x = pass_item ref m.

  Lemma from_record_good : forall x, from_record x -> good_item repr object version fuel x.
  Proof.
    intros x (i & r & m & E & ER & EM & EU & K). destruct (OK _ _ _ E) as (HB & parent & HR). destruct (record_class _ _ _ _ _ HR) as (C1 & C2 & C3).
    destruct (record_element repr object _ _ _ _ _ (item_values x) [] fuel HB HR EU K) as (t & T1 & T2); [split; constructor|].
    rewrite app_nil_r in T1, T2. exists t. unfold good_item. rewrite EM, C1. split; [exact T1|]. split; [|split].
    - inversion T2. reflexivity.
    - apply sn_record; rewrite ?EM; [exact C2|exact C3|]. rewrite views_back. exact T2.
    - apply (record_named repr object _ _ _ _ _ (item_values x) [] t HB HR K); [reflexivity|]. rewrite app_nil_r. exact T2.
  Qed.
  Lemma section_good : forall n x, from_record x -> i_model x = "SectionDef" -> good_item repr object version fuel (set_item "section_id" (Model_XmlModel.VInt n) x).
  Proof.
    intros n x (i & r & m & E & ER & EM & EU & K) ES. destruct (OK _ _ _ E) as (HB & parent & HR). destruct (record_class _ _ _ _ _ HR) as (C1 & C2 & C3).
    assert (ET : m_type m = "SectionDef") by congruence.
    assert (A : addable (m_type m) (record_parts (r_tagid r) (m_type m)) (views [("section_id", VInt n)])) by (apply (ids_addable _ _ _ _ _ _ _ HR); rewrite ET; do 4 right; left; reflexivity).
    assert (N : ~ In "section_id" (map fst (item_values x))).
    { intros HI. apply (kept_keys _ _ _ _ K) in HI. apply (record_keys _ _ _ _ _ _ HB HR) in HI. destruct A as [_ A]. inversion A as [|? ? (_ & A' & _) _]. exact (A' HI). }
    destruct (record_element repr object _ _ _ _ _ (item_values x) [("section_id", VInt n)] fuel HB HR EU K A) as (t & T1 & T2).
    assert (EV : item_values (set_item "section_id" (Model_XmlModel.VInt n) x) = item_values x ++ [("section_id", VInt n)]) by (rewrite values_set by exact N; reflexivity).
    exists t. unfold good_item. rewrite EV. cbn [set_item i_model]. rewrite EM, C1. split; [exact T1|]. split; [|split].
    - inversion T2. reflexivity.
    - apply sn_record; cbn [set_item i_model]; rewrite ?EM; [exact C2|exact C3|]. rewrite views_back, EV. exact T2.
    - apply (record_named repr object _ _ _ _ _ (item_values x) [("section_id", VInt n)] t HB HR K); [reflexivity|]. exact T2.
  Qed.
  Lemma Q3_good : forall x, Q3 x -> good_item repr object version fuel x.
  Proof.
    intros x [[H|[(n & l & t & ->)|[(c & k & s & ->)|[(i & ->)|[(i & d & -> & a & b & c & e & f & g & h & k & n & -> & HN)| ->]]]]]|[ -> |(n & y & HY & EY & ->)]].
    - apply from_record_good; exact H.
    - apply good_token.
    - apply good_controlchar.
    - apply good_zero_line.
    - apply good_line; exact HN.
    - apply good_row.
    - apply good_columns.
    - apply section_good; assumption.
  Qed.

  Lemma made_ref : forall x, Q2 x -> from_record x \/ i_ref x = 0 /\ model_is "SectionDef" x = false.
  Proof.
    intros x [H|[(n & l & t & ->)|[(c & k & s & ->)|[(i & ->)|[(i & d & -> & _)| ->]]]]]; [left; exact H| | | | |]; right; split; reflexivity.
  Qed.
  Theorem items_from : forall sid g, all (fun x => if para_data x then D1 x else Q1 x) (fst g) -> all Q3 (fst (section_events sid g)).
  Proof.
    intros sid. apply section_events_all with (Q := Q1) (Q2 := Q2).
    - intros t s. right. left. eauto.
    - intros c k s. do 2 right. left. eauto.
    - intros i. do 3 right. left. eauto.
    - intros x l d i (j & r & m & ref & E & ->) HM HA HI. do 4 right. left. exists i, d. split; [reflexivity|].
      unfold model_is in HM. cbn [pass_item i_model] in HM. apply String.eqb_eq in HM. destruct (OK _ _ _ E) as (HB & parent & HR).
      destruct (pass_linesegs _ _ _ HM HA) as (ls & I1 & I2). destruct (lines_in _ _ _ I2 HI) as (d' & I3 & I4).
      exact (fit_line _ _ _ (lineseg_values _ _ _ _ _ _ _ HB HR HM I1 I3) _ I4).
    - do 5 right. reflexivity.
    - intros x HX HT. destruct HX as [(i & r & m & E & ER & EM & EU & K)|[(t & s & ->)|[(c & k & s & ->)|[(i & ->)|[(i & d & -> & _)| ->]]]]]; try discriminate HT.
      left. exists i, r, m. split; [exact E|]. cbn [del_item i_ref i_model]. split; [exact ER|]. split; [exact EM|]. split; [exact EU|]. rewrite values_del.
      apply kept_rows; [exact K|]. unfold model_is in HT. apply String.eqb_eq in HT. congruence.
    - intros x HX HT. destruct HX as [HX|[(t & s & ->)|[HX|[HX|[HX|HX]]]]]; [left; exact HX|discriminate HT|do 2 right; left; exact HX|do 3 right; left; exact HX|do 4 right; left; exact HX|do 5 right; exact HX].
    - intros x shape lang t HX HT HS. right. left. unfold model_is in HT. apply String.eqb_eq in HT.
      destruct HX as [(i & r & m & E & ER & EM & EU & K)|[(t' & s & ->)|[(c & k & s & ->)|[(i & ->)|[(i & d & -> & _)| ->]]]]]; try discriminate HT.
      + exfalso. destruct (OK _ _ _ E) as (HB & parent & HR). destruct (record_class _ _ _ _ _ HR) as (_ & C & _). apply C. left. congruence.
      + cbn in HS. inversion HS; subst. eauto.
    - intros x HX. left. exact HX.
    - intros s x HS ES HX ER. destruct sid as [n|]; [|left; exact HX]. cbn [section_item]. destruct (made_ref _ HS) as [FS|[_ FS]]; [|congruence].
      destruct FS as (i & r & m & E & RR & EM & EU & K). destruct (made_ref _ HX) as [FX|[FX _]]; [|lia].
      right. right. exists n, x. split; [exact FX|]. split; [|reflexivity]. destruct FX as (i' & r' & m' & E' & RR' & EM' & _). assert (i = i') by lia. subst i'.
      rewrite E in E'. inversion E'; subst. unfold model_is in ES. apply String.eqb_eq in ES. congruence.
    - right. left. reflexivity.
  Qed.
  Theorem items_good : forall sid g, all (fun x => if para_data x then D1 x else Q1 x) (fst g) ->
    all (good_item repr object version fuel) (fst (section_events sid g)).
  Proof. intros sid g H. apply (all_impl _ Q3); [exact Q3_good|]. exact (items_from sid g H). Qed.
End Records.
