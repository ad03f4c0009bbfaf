(** Documents made from files. *)
From Coq Require Import ZArith String List Bool Lia Permutation.
From Verif Require Import Base BaseFacts Model_Tree Spec_Tree Model_ParaText Spec_ParaText Model_Shape Spec_Shape Model_Lang Model_Classes Model_XmlModel.
From Verif Require Import Model_Text Model_Dataio Model_Record Model_Bintype Model_Layouts Model_Models Model_Oleprops Model_Embed Spec_Embed
  Model_XmlText Model_XmlElement Model_XmlFile Spec_XmlText Spec_Bintype Spec_Models Spec_Oleprops Spec_Layouts Spec_XmlElement Spec_XmlModel Spec_Section Spec_XmlFile Spec_XmlSummary Spec_XmlHwp
  Proof_Record Proof_Text Proof_Tree Proof_Models Proof_Layouts Proof_Fits Proof_Section Proof_XmlText Proof_OleText Proof_XmlElement Proof_XmlEntry Proof_XmlRecord Proof_XmlNames Proof_XmlDocument Proof_XmlDocinfo
  Proof_XmlPasses Proof_XmlFile Proof_XmlSection Proof_XmlSummary Proof_XmlIds Proof_XmlHwp Model_Plaintext Spec_Plaintext Proof_Plaintext Proof_PlaintextXml Spec_Filestructure Spec_Formatting Proof_Formatting Proof_Formatting2.
From Verif Require Model_Html Spec_Html Proof_Html Proof_Html3 Model_Opendoc Spec_Opendoc Proof_Opendoc6.
Import ListNotations.
Open Scope string_scope.
Open Scope list_scope.
Open Scope Z_scope.
Local Notation item := Model_XmlModel.item.

Section Docinfo.
  Variable repr : view -> list Z.
  Variable object : list Z.
  Variable version : list Z.
  Variable embedbin : option (list Z -> res (list Z)).

  Lemma record_own : forall rm u, shown_record repr object embedbin rm u -> Forall (calm own_names) (own_kids u) /\ root_name u = zs (type_of rm).
  Proof. intros rm u (attrs & _ & E). exact (element_calm repr object _ _ _ E). Qed.
  Lemma record_own_less : forall rm u, with_number (shown_record repr object embedbin) rm u -> Forall (calm shape_types) (own_kids u) /\ root_name u = zs (type_of rm).
  Proof.
    intros rm u H. destruct (with_number_own _ own_names _ type_of record_own rm u H) as [A B]. split; [|exact B]. eapply Forall_impl; [|exact A]. intros t. apply calm_less. exact shape_names_incl.
  Qed.
  Lemma name_is_eqb : forall a b, name_is a (zs b) = String.eqb b a.
  Proof.
    intros a b. unfold name_is. destruct (list_eq_dec Z.eq_dec (zs b) (zs a)) as [E|E].
    - apply zs_inj in E. subst. symmetry. apply String.eqb_refl.
    - symmetry. apply String.eqb_neq. intros ->. now apply E.
  Qed.
  Lemma calm_records : forall f ts, written (with_number (shown_record repr object embedbin)) f ts -> without_shapes (all_items f) -> Forall (calm shape_types) ts.
  Proof. intros f ts W H. apply (written_calm _ shape_types _ type_of f ts W); [exact record_own_less|]. intros x HI. unfold without_shapes in H. rewrite Forall_forall in H. now apply H. Qed.

  (** The records of the document information and their elements. *)
  Lemma docinfo_tree : forall f x kids ds, one_mappings f x kids -> written (with_number (shown_record repr object embedbin)) f ds ->
    exists before after u ks, ds = before ++ with_children u ks :: after /\ Forall (calm shape_types) before /\ Forall (calm shape_types) after /\
      with_number (shown_record repr object embedbin) x u /\ Forall (calm shape_types) (own_kids u) /\ root_name u = zs "IdMappings" /\
      Forall2 (fun rm w => exists u0 ks0, with_number (shown_record repr object embedbin) rm u0 /\ w = with_children u0 ks0) (map fst (trees kids)) ks /\
      Forall (fun t => xnamed "IdMappings" t = false /\ Forall (calm shape_types) (own_kids t)) ks.
  Proof.
    intros f x kids ds [before x' kids' after TX HB HA HK] W. destruct (written_app _ _ _ _ _ W) as (a & c & -> & WA & WC). inversion WC as [|? ? ? u ks ts HS HKS HN]; subst.
    destruct (record_own_less _ _ HS) as [O1 O2]. exists a, ts, u, ks. split; [reflexivity|]. split; [exact (calm_records _ _ WA HB)|]. split; [exact (calm_records _ _ HN HA)|].
    split; [exact HS|]. split; [exact O1|]. rewrite TX in O2. split; [exact O2|]. pose proof (written_trees _ _ _ _ HKS) as FT. split.
    - clear - FT. induction FT as [|t w l ws (u0 & ks0 & A & _ & E) FT IH]; [constructor|]. cbn [map]. constructor; [|exact IH]. exists u0, ks0. auto.
    - clear - FT HK. revert HK. induction FT as [|t w l ws (u0 & ks0 & A & WK & E) FT IH]; intros HK; [constructor|]. inversion HK as [|? ? [K1 K2] K3]; subst. constructor; [|now apply IH].
      destruct (record_own_less _ _ A) as [P1 P2]. split.
      + unfold xnamed. rewrite with_root, P2, name_is_eqb. now apply String.eqb_neq.
      + rewrite with_own. apply Forall_app. split; [exact P1|exact (calm_records _ _ WK K2)].
  Qed.

  Variable records : list record.
  Variable out : list (record * model).
  Hypothesis HM : models_of version Finished [] records out Finished.
  Lemma record_made : forall rm u0 ks0, In rm out -> with_number (shown_record repr object embedbin) rm u0 -> m_type (snd rm) <> "TableBody" -> well_named (with_children u0 ks0) ->
    made_for (snd rm) (node_of (with_children u0 ks0)).
  Proof.
    intros [r m] u0 ks0 HI (u & b & a & (attrs & SM & E) & N) HT W. cbn [snd] in *. destruct (each_record _ _ _ _ _ _ HM) as (_ & E2 & _). destruct (In_nth_error _ _ HI) as (i & Hi). destruct (E2 i r m Hi) as (parent & _ & R).
    apply (made_of repr object m attrs u); [exact (shown_kept _ _ _ _ _ _ _ R SM)|exact HT|exact E|]. exists u0, b, a, ks0. auto.
  Qed.
  Lemma shapes_made : forall l ks n, (forall rm, In rm l -> In rm out) -> n <> "TableBody" -> Forall well_named ks ->
    Forall2 (fun rm w => exists u0 ks0, with_number (shown_record repr object embedbin) rm u0 /\ w = with_children u0 ks0) l ks ->
    Forall2 (fun rm y => made_for (snd rm) y) (of_type n l) (map node_of (filter (xnamed n) ks)).
  Proof.
    intros l ks n HO HN HW F. induction F as [|rm w l ks (u0 & ks0 & A & E) F IH]; [constructor|]. inversion HW as [|? ? W1 W2]; subst.
    assert (EN : xnamed n (with_children u0 ks0) = String.eqb (type_of rm) n).
    { unfold xnamed. rewrite with_root. destruct (record_own_less _ _ A) as [_ ->]. apply name_is_eqb. }
    unfold of_type. cbn [filter]. rewrite EN. destruct (String.eqb_spec (type_of rm) n) as [T|T].
    - cbn [map]. constructor; [|apply IH; [intros x HX; apply HO; now right|exact W2]]. apply record_made; [apply HO; now left|exact A| |exact W1]. unfold type_of in T. congruence.
    - apply IH; [intros x HX; apply HO; now right|exact W2].
  Qed.
End Docinfo.

(** ** Roots *)
Lemma roots_app : forall A (f g : forest A), roots (fapp f g) = roots f ++ roots g.
Proof. intros A f g. induction f as [|x k _ n IH]; [reflexivity|]. cbn [fapp roots app]. now rewrite IH. Qed.
Definition paras (f : forest item) : Prop := forallb is_para (roots f) = true.
Lemma paras_cons : forall x k n, paras (FCons x k n) -> i_model x = "Paragraph" /\ paras n.
Proof. intros x k n H. unfold paras in H. cbn [roots forallb] in H. apply andb_true_iff in H as [H1 H2]. split; [now apply String.eqb_eq in H1|exact H2]. Qed.
Lemma para_not : forall x p, i_model x = "Paragraph" -> In p [is_text; is_tablebody; is_listheader; is_sectiondef; is_para_data] -> p x = false.
Proof. intros x p E H. repeat (destruct H as [<-|H]; [unfold is_text, is_tablebody, is_listheader, is_sectiondef, is_para_data, model_is, model_sub; rewrite E; reflexivity|]). contradiction. Qed.
Lemma is_para_of : forall x, i_model x = "Paragraph" -> is_para x = true.
Proof. intros x E. unfold is_para, model_is. now rewrite E. Qed.
Lemma lines_roots : forall f g, with_lines f g -> paras f -> roots g = roots f.
Proof.
  intros f. induction f as [|x k _ n IH]; intros g H P; cbn [with_lines] in H; [now subst|]. destruct (paras_cons _ _ _ P) as [E P']. destruct H as (k' & n' & _ & HN & H). rewrite (is_para_of _ E) in H. destruct H as (lf & _ & ->).
  cbn [roots]. f_equal. exact (IH _ HN P').
Qed.
Lemma collect_roots : forall l f, collect l = Some f -> roots f = map fst l.
Proof.
  intros l. induction l as [|[x [k|]] l IH]; intros f H; cbn [collect] in H; [now injection H as <-| |discriminate]. destruct (collect l) as [n|]; [|discriminate]. injection H as <-. cbn [roots map fst]. f_equal. now apply IH.
Qed.
Lemma converted_roots : forall f, map fst (converted f) = roots f.
Proof. intros f. induction f as [|x k _ n IH]; [reflexivity|]. cbn [converted map fst roots]. now rewrite IH. Qed.
Lemma inlined_roots : forall f g, inlined f = Some g -> roots g = roots f.
Proof. intros f g H. rewrite (collect_roots _ _ H). apply converted_roots. Qed.
Lemma regroup_roots : forall f st, roots (fst (regroup st None f)) = roots f.
Proof. intros f. induction f as [|x k _ n IH]; intros st; [reflexivity|]. cbn [regroup fst roots]. now rewrite IH. Qed.
Lemma adopt_roots : forall p q f, (forall x, i_model x = "Paragraph" -> p x = false) -> paras f -> roots (adopt p q f) = roots f.
Proof. intros p q f HP. induction f as [|x k _ n IH]; intros P; [reflexivity|]. destruct (paras_cons _ _ _ P) as [E P']. cbn [adopt]. rewrite (HP _ E). cbn [roots]. now rewrite IH. Qed.
Lemma rows_roots : forall f, paras f -> roots (with_rows f) = roots f.
Proof. intros f. induction f as [|x k _ n IH]; intros P; [reflexivity|]. destruct (paras_cons _ _ _ P) as [E P']. cbn [with_rows]. rewrite (para_not x is_tablebody E) by (cbn; tauto). cbn [roots]. now rewrite IH. Qed.
Lemma tokenized_roots : forall f, paras f -> roots (tokenized f) = roots f.
Proof. intros f. induction f as [|x k _ n IH]; intros P; [reflexivity|]. destruct (paras_cons _ _ _ P) as [E P']. cbn [tokenized]. rewrite (para_not x is_text E) by (cbn; tauto). cbn [roots]. now rewrite IH. Qed.
Lemma extract_roots : forall f s sk rest, extract_section f = Some (s, sk, rest) -> paras f -> roots rest = roots f.
Proof.
  intros f. induction f as [|x k _ n IH]; intros s sk rest H P; [discriminate|]. destruct (paras_cons _ _ _ P) as [E P']. cbn [extract_section] in H. rewrite (para_not x is_sectiondef E) in H by (cbn; tauto).
  destruct (extract_section k) as [[[s0 sk0] k0]|]; [injection H as <- <- <-; reflexivity|]. destruct (extract_section n) as [[[s0 sk0] n0]|] eqn:EN; [|discriminate]. injection H as <- <- <-. cbn [roots]. f_equal. exact (IH _ _ _ eq_refl P').
Qed.
Lemma extract_is : forall f s sk rest, extract_section f = Some (s, sk, rest) -> is_sectiondef s = true.
Proof.
  intros f. induction f as [|x k IHk n IHn]; intros s sk rest H; [discriminate|]. cbn [extract_section] in H. destruct (is_sectiondef x) eqn:E; [now injection H as <- _ _|].
  destruct (extract_section k) as [[[s0 sk0] k0]|]; [injection H as <- <- <-; exact (IHk _ _ _ eq_refl)|]. destruct (extract_section n) as [[[s0 sk0] n0]|]; [|discriminate]. injection H as <- <- <-. exact (IHn _ _ _ eq_refl).
Qed.

(** Paragraphs in columns or not. *)
Definition flowing (f : forest item) : list item :=
  flat_map (fun t => if is_para (fst t) then [fst t] else if model_is "ColumnSet" (fst t) then filter is_para (roots (snd t)) else []) (trees f).
Lemma flowing_cut : forall f, flowing f = filter is_para (roots (frun not_columns f)) ++ flowing (frest not_columns f).
Proof.
  intros f. induction f as [|x k _ n IH]; [reflexivity|]. cbn [frun frest]. destruct (not_columns x) eqn:C; [|reflexivity]. unfold flowing. cbn [trees flat_map fst snd roots filter]. fold (flowing n). rewrite IH.
  unfold not_columns in C. apply negb_true_iff in C. rewrite C. destruct (is_para x); reflexivity.
Qed.
Lemma flowing_columns : forall sk rest, paras rest -> exists front, flowing (in_columns (fapp sk rest)) = front ++ roots rest.
Proof.
  assert (NC : forall x k n, newcol x = true -> flowing (in_columns (FCons x k n)) = x :: flowing (in_columns n)).
  { intros x k n H. cbn [in_columns]. rewrite H. unfold flowing at 1. cbn [trees flat_map fst snd]. fold (flowing (frest not_columns (in_columns n))). change (is_para a_columnset) with false. change (model_is "ColumnSet" a_columnset) with true. cbn iota. cbn [roots filter].
    unfold newcol in H. apply andb_true_iff in H as [H _]. rewrite H. cbn [app]. now rewrite (flowing_cut (in_columns n)). }
  assert (NN : forall x k n, newcol x = false -> is_para x = true -> flowing (in_columns (FCons x k n)) = x :: flowing (in_columns n)).
  { intros x k n H HP. cbn [in_columns]. rewrite H. unfold flowing at 1. cbn [trees flat_map fst snd]. rewrite HP. reflexivity. }
  intros sk rest P. induction sk as [|x k _ n IH].
  - exists []. cbn [fapp app]. induction rest as [|x k _ n IH]; [reflexivity|]. destruct (paras_cons _ _ _ P) as [E P']. cbn [roots]. rewrite <- (IH P'). destruct (newcol x) eqn:C; [now apply NC|]. apply NN; [exact C|now apply is_para_of].
  - destruct IH as (front & IH). cbn [fapp]. destruct (newcol x) eqn:C.
    + exists (x :: front). rewrite (NC _ _ _ C), IH. reflexivity.
    + cbn [in_columns]. rewrite C. unfold flowing. cbn [trees flat_map fst snd]. fold (flowing (in_columns (fapp n rest))). rewrite IH. rewrite app_assoc. eexists. reflexivity.
Qed.

(** The records at the top of a section. *)
Lemma preorder_top : forall A (f : forest A) d d', (d < d')%Z -> filter (fun lx => fst lx =? d) (preorder d' f) = [].
Proof.
  intros A f. induction f as [|x k IHk n IHn]; intros d d' H; [reflexivity|]. cbn [preorder]. cbn [filter fst]. destruct (Z.eqb_spec d' d); [lia|]. rewrite filter_app, IHk, IHn by lia. reflexivity.
Qed.
Lemma preorder_roots : forall A (f : forest A) d, filter (fun lx => fst lx =? d) (preorder d f) = map (fun x => (d, x)) (roots f).
Proof.
  intros A f. induction f as [|x k _ n IHn]; intros d; [reflexivity|]. cbn [preorder]. cbn [filter fst]. rewrite Z.eqb_refl, filter_app, preorder_top, IHn by lia. reflexivity.
Qed.
Lemma pass_top : forall out ref, Forall2 (fun rm lx => exists i, lx = (0, pass_item i (snd rm)) /\ In rm out) (top_records out) (filter (fun lx : Z * item => fst lx =? 0) (pass_items ref out)).
Proof.
  assert (G : forall out all ref, incl out all -> Forall2 (fun rm lx => exists i, lx = (0, pass_item i (snd rm)) /\ In rm all) (top_records out) (filter (fun lx : Z * item => fst lx =? 0) (pass_items ref out))).
  { intros out all. induction out as [|[r m] out IH]; intros ref HI; [constructor|]. cbn [pass_items]. unfold top_records. cbn [filter fst]. destruct (Z.eqb_spec (r_level r) 0) as [E|E].
    - constructor; [|apply IH; intros y HY; apply HI; now right]. exists ref. rewrite E. split; [reflexivity|]. apply HI. now left.
    - apply IH. intros y HY. apply HI. now right. }
  intros out ref. apply G. apply incl_refl.
Qed.
Lemma tops_are : forall out f, preorder 0 f = pass_items 1 out -> Forall2 (fun rm x => exists i, x = pass_item i (snd rm) /\ In rm out) (top_records out) (roots f).
Proof.
  intros out f E. pose proof (pass_top out 1) as F. rewrite <- E, preorder_roots in F. remember (roots f) as l eqn:EL. clear EL E. revert l F. generalize (top_records out) as tops. intros tops.
  induction tops as [|rm tops IH]; intros [|x l] F; inversion F as [|? ? ? ? (i & E & HI) F']; subst; constructor; [|now apply IH]. injection E as ->. exists i. auto.
Qed.

(** ** Sections *)
Section Sections.
  Variable repr : view -> list Z.
  Variable object : list Z.
  Variable version : list Z.

  Lemma node_own : forall x u, shown_node repr object x u -> Forall (calm own_names) (own_kids u) /\ root_name u = zs (i_model x).
  Proof.
    intros x u H. inversion H as [t _ _ E|t EM E|attrs EM _ _|listed attrs _ _ _ _]; subst.
    - exact (element_calm repr object _ _ _ E).
    - rewrite EM. exact (element_calm repr object _ _ _ E).
    - rewrite EM. split; [constructor|reflexivity].
    - split; [constructor|reflexivity].
  Qed.
  Lemma node_own_n : forall x u, with_number (shown_node repr object) x u -> Forall (calm own_names) (own_kids u) /\ root_name u = zs (i_model x).
  Proof. exact (with_number_own _ own_names _ i_model node_own). Qed.
  Definition picked (u : xtree) : list xtree := if xnamed "Paragraph" u then [u] else if xnamed "ColumnSet" u then filter (xnamed "Paragraph") (own_kids u) else [].
  Definition shown_as (x : item) (w : xtree) : Prop := exists u ks, with_number (shown_node repr object) x u /\ w = with_children u ks.
  Lemma shown_named : forall s x w, shown_as x w -> xnamed s w = model_is s x.
  Proof. intros s x w (u & ks & A & ->). unfold xnamed. rewrite with_root. destruct (node_own_n _ _ A) as [_ ->]. apply name_is_eqb. Qed.
  Lemma shown_roots : forall f ts, written (with_number (shown_node repr object)) f ts -> Forall2 shown_as (roots f) ts.
  Proof. intros f ts W. induction W as [|x k n t ks ts HS _ _ HN IH]; [constructor|]. cbn [roots]. constructor; [|exact IH]. exists t, ks. auto. Qed.
  Lemma shown_filter : forall s l ts, Forall2 shown_as l ts -> Forall2 shown_as (filter (model_is s) l) (filter (xnamed s) ts).
  Proof. intros s l ts F. induction F as [|x w l ts H F IH]; [constructor|]. cbn [filter]. rewrite (shown_named s _ _ H). destruct (model_is s x); [constructor; assumption|exact IH]. Qed.
  Lemma written_flowing : forall f ts, written (with_number (shown_node repr object)) f ts -> Forall2 shown_as (flowing f) (flat_map picked ts).
  Proof.
    intros f ts W. induction W as [|x k n t ks ts HS HK _ HN IH]; [constructor|]. unfold flowing. cbn [trees flat_map fst snd]. apply Forall2_app; [|exact IH].
    assert (SA : shown_as x (with_children t ks)) by (exists t, ks; auto). unfold picked. rewrite !(shown_named _ _ _ SA). unfold is_para. destruct (model_is "Paragraph" x); [constructor; [exact SA|constructor]|].
    destruct (model_is "ColumnSet" x); [|constructor]. rewrite with_own, filter_app, (filter_calms own_names "Paragraph" (own_kids t)); [|cbn; tauto|exact (proj1 (node_own_n _ _ HS))]. cbn [app].
    exact (shown_filter "Paragraph" _ _ (shown_roots _ _ HK)).
  Qed.
  Lemma flow_nodes : forall t, flow (node_of t) = map node_of (flat_map picked (own_kids t)).
  Proof.
    intros [n a x k]. unfold flow. cbn [node_of kids_of_node own_kids]. rewrite flat_map_app.
    match goal with |- flat_map ?F ?l ++ _ = _ => assert (E : flat_map F l = []) by (destruct (without_nul x); reflexivity); rewrite E end. cbn [app]. rewrite flat_map_map, map_flat. apply flat_map_same. intros u _.
    rewrite !node_name. unfold picked. destruct (xnamed "Paragraph" u); [reflexivity|]. destruct (xnamed "ColumnSet" u); [|reflexivity]. apply node_children.
  Qed.
  Lemma picked_well : forall ts, Forall well_named ts -> Forall well_named (flat_map picked ts).
  Proof.
    intros ts H. apply Forall_forall. intros u HI. apply in_flat_map in HI as (w & HW & HU). rewrite Forall_forall in H. specialize (H w HW). unfold picked in HU. destruct (xnamed "Paragraph" w); [destruct HU as [<-|[]]; exact H|].
    destruct (xnamed "ColumnSet" w); [|contradiction]. apply filter_In in HU as [HU _]. apply well_kids in H. rewrite Forall_forall in H. now apply H.
  Qed.
  Lemma picked_calm : forall ts, Forall (calm own_names) ts -> flat_map picked ts = [].
  Proof.
    intros ts H. apply Proof_Html3.flat_map_none. intros u HI. rewrite Forall_forall in H. specialize (H u HI). destruct u as [n a x k]. apply calm_elem in H as [H _].
    unfold picked, xnamed at 1 2. cbn [root_name]. rewrite !H by (cbn; tauto). reflexivity.
  Qed.

  Variable s : Z * list record.
  Hypothesis HB : Forall (fun r => all_bytes (r_payload r)) (snd s).
  Hypothesis H0 : forall r rest, snd s = r :: rest -> r_level r = 0.

  Lemma section_calm : forall out g t, models_of version Finished [] (snd s) out Finished ->
    section_events (Some (fst s)) (section_modelevents (out, Finished)) = (walk g, Finished) -> without_shapes out ->
    written (with_number (shown_node repr object)) g [t] -> calm shape_types t.
  Proof.
    intros out g t HM EG HS W. assert (OK : forall i r m, nth_error out i = Some (r, m) -> all_bytes (r_payload r) /\ exists parent, reads version parent (r_tagid r) (r_payload r) (Ok m)) by exact (out_ok version (snd s) out Finished Finished HB HM).
    pose proof (items_from version out OK (Some (fst s)) _ (events_given version (snd s) out Finished Finished HB H0 HM)) as G. rewrite EG in G. cbn [fst] in G. apply walk_all in G.
    assert (FC : Forall (calm shape_types) [t]); [|now inversion FC].
    apply (written_calm _ shape_types _ i_model g [t] W).
    - intros x u H. destruct (node_own_n _ _ H) as [A B]. split; [|exact B]. eapply Forall_impl; [|exact A]. intros v. apply calm_less. exact shape_names_incl.
    - intros x HI. assert (Q : Q3 out x).
      { clear - G HI. induction g as [|y k IHk n IHn]; [contradiction|]. destruct G as (G1 & G2 & G3). cbn [all_items] in HI. destruct HI as [<-|HI]; [exact G1|]. apply in_app_or in HI as [HI|HI]; auto. }
      assert (FR : forall y, from_record out y -> ~ In (i_model y) shape_types).
      { intros y (i & r & m & E & _ & -> & _). unfold without_shapes in HS. rewrite Forall_forall in HS. exact (HS _ (nth_error_In _ _ E)). }
      assert (MK : forall c, In c ["Text"; "ControlChar"; "LineSeg"; "TableRow"; "ColumnSet"] -> ~ In c shape_types).
      { intros c HC. repeat (destruct HC as [<-|HC]; [intros K; repeat (destruct K as [K|K]; [discriminate|]); contradiction|]). contradiction. }
      destruct Q as [[H|[(n & l & u & ->)|[(c & k & sh & ->)|[(i & ->)|[(i & d & -> & _)| ->]]]]]|[ -> |(n & y & HY & EY & ->)]]; try (apply MK; cbn; tauto).
      + exact (FR x H).
      + cbn [set_item i_model]. exact (FR y HY).
  Qed.

  Lemma set_in : forall key v attrs, In (key, v) (attr_set key v attrs).
  Proof. intros key v attrs. induction attrs as [|[k w] r IH]; [now left|]. cbn [attr_set]. destruct (String.eqb_spec k key) as [->|_]; [now left|now right]. Qed.
  Lemma section_flow : forall t t' b a, section_made repr object version s t -> numbered b t t' a -> well_named t' ->
    (forall out, models_of version Finished [] (snd s) out Finished -> without_shapes out) ->
    calm shape_types t' /\ named_node "SectionDef" (node_of t') = true /\ (forall u, decimal u (fst s) -> xattr (zs "section-id") (node_of t') = Some u) /\
    exists out front back, models_of version Finished [] (snd s) out Finished /\ flow (node_of t') = front ++ back /\ Forall2 (fun rm p => made_for (snd rm) p) (top_records out) back.
  Proof.
    intros t t' b a (out & f & g & HM & EF & SO & ST & EM & EG & W) N WN HS.
    assert (W' : written (with_number (shown_node repr object)) g [t']) by (apply (written_numbered _ _ _ _ W b [t'] a); econstructor; [exact N|constructor]).
    split; [apply (section_calm out g); [exact HM|rewrite EM; exact EG|exact (HS out HM)|exact W']|].
    destruct ST as (lined & controlled & sd & sk & rest & L1 & L2 & L3 & ->). pose proof (so_paragraphs f SO) as P.
    assert (PL : forall h, roots h = roots f -> paras h) by (intros h E; unfold paras; now rewrite E).
    assert (R1 : roots lined = roots f) by exact (lines_roots _ _ L1 P). assert (R2 : roots controlled = roots f) by (rewrite (inlined_roots _ _ L2); exact R1).
    set (h0 := fst (regroup [] None controlled)) in *. assert (R3 : roots h0 = roots f) by (unfold h0; rewrite regroup_roots; exact R2).
    set (h1 := adopt is_listheader is_para h0) in *. assert (R4 : roots h1 = roots f) by (unfold h1; rewrite adopt_roots; [exact R3|intros x E; apply (para_not x is_listheader E); cbn; tauto|now apply PL]).
    set (h2 := adopt is_tablebody is_tablecell h1) in *. assert (R5 : roots h2 = roots f) by (unfold h2; rewrite adopt_roots; [exact R4|intros x E; apply (para_not x is_tablebody E); cbn; tauto|now apply PL]).
    set (h3 := with_rows h2) in *. assert (R6 : roots h3 = roots f) by (unfold h3; rewrite rows_roots; [exact R5|now apply PL]).
    set (h4 := tokenized h3) in *. assert (R7 : roots h4 = roots f) by (unfold h4; rewrite tokenized_roots; [exact R6|now apply PL]).
    assert (R8 : roots rest = roots f) by (rewrite (extract_roots _ _ _ _ L3); [exact R7|now apply PL]).
    pose proof (extract_is _ _ _ _ L3) as SD. unfold is_sectiondef, model_is in SD. apply String.eqb_eq in SD.
    assert (EI : in_columns (FCons (with_section_id (Some (fst s)) sd) (fapp sk rest) FNil) = FCons (set_item "section_id" (Model_XmlModel.VInt (fst s)) sd) (in_columns (fapp sk rest)) FNil).
    { cbn [in_columns with_section_id]. unfold newcol, is_para, model_is. cbn [set_item i_model]. rewrite SD. reflexivity. }
    rewrite EI in W'. inversion W' as [|? ? ? u ks ts HSU HK HN]; subst. inversion HN; subst. destruct (node_own_n _ _ HSU) as [O1 O2]. cbn [set_item i_model] in O2. rewrite SD in O2.
    split; [rewrite node_name; unfold xnamed; rewrite with_root, O2; reflexivity|]. split.
    - intros tx D. destruct HSU as (u0 & b0 & a0 & SN & NU). inversion SN as [t0 _ _ E|t0 EL _|attrs EL _ _|listed attrs IM _ _ _]; subst; cbn [set_item i_model] in *; [|congruence|congruence|].
      + rewrite SD in E. apply (plain_number repr object "SectionDef" _ u0 (with_children u ks) "section_id" (fst s) tx E); [exists u, b0, a0, ks; auto| |discriminate|reflexivity|exact D].
        unfold attribute_views. cbn [set_item i_attrs]. apply in_map_iff. exists ("section_id", Model_XmlModel.VInt (fst s)). split; [reflexivity|apply set_in].
      + exfalso. rewrite SD in IM. repeat (destruct IM as [IM|IM]; [discriminate|]). contradiction.
    - destruct (flowing_columns sk rest (PL _ R8)) as (front & FL). rewrite R8 in FL. pose proof (written_flowing _ _ HK) as WF. rewrite FL in WF. apply Forall2_app_inv_l in WF as (fr & bk & _ & WB & EW).
      exists out, (map node_of fr), (map node_of bk). split; [exact HM|]. split.
      + rewrite flow_nodes, with_own, flat_map_app, (picked_calm _ O1). cbn [app]. now rewrite EW, map_app.
      + apply well_kids in WN. rewrite with_own in WN. apply Forall_app in WN as [_ WN]. apply picked_well in WN. rewrite EW in WN. apply Forall_app in WN as [_ WN].
        pose proof (tops_are out f EF) as TO. clear - TO WB WN P HM HB. unfold paras in *. revert TO WB WN P. generalize (roots f) as l. intros l. generalize (top_records out) as tops. intros tops. revert l bk.
        induction tops as [|rm tops IH]; intros [|x l] bk TO WB WN P; inversion TO as [|? ? ? ? (i & EX & HI) TO']; subst; inversion WB as [|? w ? bk' SA WB']; subst; [constructor|]. inversion WN; subst.
        cbn [forallb] in P. apply andb_true_iff in P as [P1 P2]. cbn [map]. constructor; [|now apply (IH l)].
        destruct SA as (u & ks & (u0 & b0 & a0 & SN & NU) & EW). destruct rm as [r m]. cbn [snd] in *. assert (TM : m_type m = "Paragraph") by now apply String.eqb_eq in P1.
        inversion SN as [t0 _ _ E|t0 EL _|attrs EL _ _|listed attrs IM _ _ _]; subst; cbn [pass_item i_model] in *.
        * destruct (In_nth_error _ _ HI) as (j & Hj). destruct (out_ok version (snd s) out Finished Finished HB HM j r m Hj) as (HP & parent & HR).
          rewrite (sa_members _ _ (item_seen _ _ _ _ _ i HP HR)) in E by congruence.
          apply (made_of repr object m (m_content m) u0); [clear; induction (m_content m); constructor; assumption|congruence|exact E|]. exists u, b0, a0, ks. auto.
        * congruence.
        * congruence.
        * exfalso. rewrite TM in IM. repeat (destruct IM as [IM|IM]; [discriminate|]). contradiction.
  Qed.
End Sections.
