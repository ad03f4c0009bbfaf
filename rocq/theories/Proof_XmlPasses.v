(** What the passes of a section emit: the items they get, and those they make. *)
From Coq Require Import ZArith String List Bool Lia.
From Verif Require Import Base Model_Tree Spec_Tree Model_ParaText Model_Shape Model_Lang Model_Classes Model_XmlModel.
Import ListNotations.
Open Scope string_scope.
Open Scope list_scope.
Open Scope Z_scope.

Definition ev_item {A} (e : event A) : A := match e with EStart x | EEnd x => x end.
Definition all {A} (Q : A -> Prop) (evs : list (event A)) : Prop := Forall (fun e => Q (ev_item e)) evs.

Lemma all_app : forall A (Q : A -> Prop) a b, all Q a -> all Q b -> all Q (a ++ b).
Proof. intros. apply Forall_app. auto. Qed.
Lemma all_cons : forall A (Q : A -> Prop) e b, Q (ev_item e) -> all Q b -> all Q (e :: b).
Proof. intros. constructor; auto. Qed.
Lemma all_impl : forall A (Q R : A -> Prop) evs, (forall x, Q x -> R x) -> all Q evs -> all R evs.
Proof. intros A Q R evs H. apply Forall_impl. auto. Qed.
Lemma all_gthen : forall A (Q : A -> Prop) (g k : gen (event A)), all Q (fst g) -> all Q (fst k) -> all Q (fst (gthen g k)).
Proof. intros A Q [a o] k H K. unfold gthen. cbn [fst snd] in *. destruct o; cbn; auto. apply all_app; auto. Qed.
Fixpoint all_forest {A} (Q : A -> Prop) (f : forest A) : Prop :=
  match f with FNil => True | FCons x k n => Q x /\ all_forest Q k /\ all_forest Q n end.
Lemma all_tree_events : forall A (Q : A -> Prop) f, all_forest Q f -> all Q (tree_events_multi f).
Proof.
  intros A Q. induction f as [|x k IHk n IHn]; intros H; [constructor|]. destruct H as (H & HK & HN). cbn [tree_events_multi].
  repeat apply all_app; auto; constructor; auto; constructor.
Qed.
Lemma all_walk : forall A (Q : A -> Prop) f, all_forest Q f -> all Q (walk f).
Proof.
  intros A Q. induction f as [|x k IHk n IHn]; intros H; [constructor|]. destruct H as (H & HK & HN). cbn [walk].
  apply all_cons; [exact H|]. apply all_app; auto. apply all_cons; auto.
Qed.
Lemma walk_all : forall A (Q : A -> Prop) f, all Q (walk f) -> all_forest Q f.
Proof.
  intros A Q. induction f as [|x k IHk n IHn]; intros H; [exact I|]. cbn [walk] in H. inversion H as [|? ? H1 H2]; subst.
  apply Forall_app in H2 as [H2 H3]. inversion H3; subst. cbn. auto.
Qed.
Lemma all_append : forall A (Q : A -> Prop) f x k, all_forest Q f -> Q x -> all_forest Q k -> all_forest Q (append_tree f x k).
Proof. intros A Q. induction f as [|y k IHk n IHn]; intros x k' H HX HK; cbn in *; intuition. Qed.
Lemma all_build : forall A (Q : A -> Prop) k childs evs r, all_forest Q childs -> all Q evs -> build_subtree_loop k childs evs = Some r ->
  all Q (snd r) /\ match fst r with Some (x, kids) => Q x /\ all_forest Q kids | None => True end.
Proof.
  intros A Q. induction k as [|k IH]; intros childs evs r HC HE H; cbn [build_subtree_loop] in H; [discriminate|].
  destruct evs as [|[x|x] evs].
  - inversion H; subst. cbn. auto.
  - inversion HE as [|? ? H1 H2]; subst. destruct (build_subtree_loop k FNil evs) as [[[[y kids]|] rest]|] eqn:E; [| |discriminate].
    + destruct (IH FNil evs _ I H2 E) as (HR & HY & HK). cbn [fst snd] in *. apply (IH _ _ _ (all_append _ _ _ _ _ HC HY HK) HR H).
    + destruct (IH FNil evs _ I H2 E) as (HR & _). apply (IH _ _ _ HC HR H).
  - inversion HE; subst. inversion H; subst. cbn. auto.
Qed.

(** ** Lines and texts *)
Lemma ranged_in : forall S (l : list (Z * S)) last p, In p (ranged_from last l) -> snd p = snd last \/ In (snd p) (map snd l).
Proof.
  intros S. induction l as [|x l IH]; intros last p H; cbn [ranged_from] in H.
  - destruct H as [<-|[]]. auto.
  - destruct H as [<-|H]; [auto|]. apply IH in H as [->|H]; cbn; auto.
Qed.
Lemma removelast_in : forall A (l : list A) x, In x (removelast l) -> In x l.
Proof. intros A. induction l as [|y l IH]; intros x H; [contradiction|]. cbn [removelast] in H. destruct l; [contradiction|]. destruct H as [<-|H]; [left; reflexivity|right; auto]. Qed.
Lemma ranged_gen_in : forall S (g : gen (Z * S)) p, In p (fst (make_ranged_shapes_gen g)) -> In (snd p) (map snd (fst g)).
Proof.
  intros S [l o] p H. unfold make_ranged_shapes_gen in H. cbn [fst snd] in *.
  assert (K : forall x r, l = x :: r -> In p (ranged_from x r) -> In (snd p) (map snd l)).
  { intros x r -> HI. apply ranged_in in HI as [->|HI]; cbn; auto. }
  destruct o; cbn [fst] in H.
  - unfold make_ranged_shapes in H. destruct l; [contradiction|]. eapply K; [reflexivity|exact H].
  - destruct l; [contradiction|]. apply removelast_in in H. eapply K; [reflexivity|exact H].
  - destruct l; [contradiction|]. apply removelast_in in H. eapply K; [reflexivity|exact H].
Qed.
Lemma split_in : forall S A k cs ce (attr : A) c chunks co (shapes : list ((Z * Z) * S)) so p,
  In p (fst (split_loop k cs ce attr c chunks co shapes so)) -> In (fst (snd (fst p))) (map snd shapes).
Proof.
  intros S A. induction k as [|k IH]; intros cs ce attr c chunks co shapes so p H; cbn [split_loop] in H; [contradiction|].
  destruct shapes as [|[[ss se] shape] shapes]; [contradiction|].
  destruct (cs <? ss); [contradiction|]. destruct (se <=? cs); [apply IH in H; cbn; auto|].
  destruct (se <? ce).
  - destruct (chunk_cut _ c) as [[prev next]|]; [|contradiction]. destruct H as [<-|H]; [cbn; auto|]. apply IH in H. exact H.
  - destruct H as [<-|H]; [cbn; auto|]. destruct chunks as [|[[[cs' ce'] attr'] c'] chunks]; [contradiction|]. apply IH in H. exact H.
Qed.
Lemma line_loop_in : forall S A (same : S -> S -> bool) pieces prev o l, In l (fst (line_loop (S := S) (A := A) same prev pieces o)) ->
  (exists p, prev = Some p /\ fst l = fst p) \/ In (fst l) (map (fun p : piece S A => fst (snd (fst p))) pieces).
Proof.
  intros S A same. induction pieces as [|[[r [ls attr]] c] pieces IH]; intros prev o l H; cbn [line_loop] in H.
  - destruct o; try contradiction. destruct prev as [[ls line]|]; [|contradiction]. destruct H as [<-|[]]. left. eexists. split; reflexivity.
  - cbn [map fst snd]. destruct prev as [[pls line]|].
    + destruct (same ls pls).
      * apply IH in H as [(p & E & ->)|H]; [inversion E; subst; right; left; reflexivity|right; right; exact H].
      * destruct H as [<-|H]; [left; eexists; split; reflexivity|]. apply IH in H as [(p & E & ->)|H]; [inversion E; subst; right; left; reflexivity|right; right; exact H].
    + apply IH in H as [(p & E & ->)|H]; [inversion E; subst; right; left; reflexivity|right; right; exact H].
Qed.
Lemma segmented_in : forall S A (same : S -> S -> bool) (chunks : gen ((Z * Z) * A * chunk)) (linesegs : gen ((Z * Z) * S)) l,
  In l (fst (line_segmented same chunks linesegs)) -> In (fst l) (map snd (fst linesegs)).
Proof.
  intros S A same [chunks co] [ls lo] l H. unfold line_segmented in H. apply line_loop_in in H as [(p & E & _)|H]; [discriminate|].
  unfold split_and_shape in H. cbn [fst snd] in *. destruct chunks as [|[[[cs ce] attr] c] rest]; [contradiction|].
  apply in_map_iff in H as (p & <- & H). apply split_in in H. exact H.
Qed.
Lemma chpos_in : forall l i p, In p (fst (chpos_linesegs i l)) -> In (snd (snd p)) l.
Proof.
  induction l as [|d l IH]; intros i p H; cbn [chpos_linesegs] in H; [contradiction|].
  destruct (zattr "chpos" d); [|contradiction]. destruct H as [<-|H]; [left; reflexivity|right]. apply IH in H. exact H.
Qed.

Section MakeTexts.
  (** [D]: the records of the texts; [Q]: all others *)
  Variables D Q : item -> Prop.
  Hypothesis QT : forall t s, Q (text_item t s).
  Hypothesis QC : forall c k s, Q (controlchar_item c k s).
  Hypothesis QZ : forall i, Q (lineseg_item (i, dummy_lineseg)).
  Hypothesis QL : forall x l d i, D x -> model_is "ParaLineSeg" x = true -> attr_get "linesegs" (i_attrs x) = Some (VLineSegs l) -> In d l -> Q (lineseg_item (i, d)).

  Lemma textchunks_all : forall chunks, all Q (fst (textchunk_events chunks)).
  Proof.
    induction chunks as [|[[r [s u]] [t|c]] chunks IH]; cbn [textchunk_events]; [constructor| |].
    - cbn [gapp fst]. repeat (apply all_cons; [apply QT|]). exact IH.
    - destruct (control_kind _) as [k|]; [|constructor]. cbn [gapp fst]. repeat (apply all_cons; [apply QC|]). exact IH.
  Qed.
  Lemma lines_all : forall lines o, Forall (fun l => Q (lineseg_item (fst l))) lines -> all Q (fst (line_events lines o)).
  Proof.
    intros lines o H. induction H as [|[ls chunks] lines HL _ IH]; cbn [line_events]; [constructor|].
    cbn [gcons fst]. apply all_cons; [exact HL|]. apply all_gthen; [apply textchunks_all|]. cbn [gcons fst]. apply all_cons; [exact HL|exact IH].
  Qed.
  Lemma merge_all : forall pt pcs pls, match pls with Some x => D x /\ model_is "ParaLineSeg" x = true | None => True end -> all Q (fst (merge_paragraph pt pcs pls)).
  Proof.
    intros pt pcs pls H. unfold merge_paragraph. destruct (attr_get "chunks" _) as [[]|]; try constructor.
    destruct pcs as [cs|]; [|constructor]. destruct (attr_get "charshapes" _) as [[]|]; try constructor.
    assert (G : forall ls, (forall i d, In d ls -> Q (lineseg_item (i, d))) ->
      all Q (fst (let g := line_segmented same_lineseg (split_and_shape (map (fun c => (fst c, tt, snd c)) l, Finished) (make_ranged_shapes l0)) (make_ranged_shapes_gen (chpos_linesegs 0 ls)) in line_events (fst g) (snd g)))).
    { intros ls HG. apply lines_all. apply Forall_forall. intros p HP. apply segmented_in in HP.
      apply in_map_iff in HP as (q & E & HP). apply ranged_gen_in in HP. apply in_map_iff in HP as (z & E2 & HP). apply chpos_in in HP.
      rewrite <- E, <- E2. destruct (snd z) as [i d]. apply HG. exact HP. }
    destruct pls as [pl|].
    - destruct H as [HD HM]. destruct (attr_get "linesegs" _) as [[]|] eqn:E; try constructor. apply G. intros i d HI. exact (QL pl _ d i HD HM E HI).
    - apply G. intros i d [<-|[]]. apply QZ.
  Qed.
  Lemma dict_item_in : forall c d x, dict_item c d = Some x -> In x d /\ model_is c x = true.
  Proof.
    induction d as [|y d IH]; intros x H; cbn [dict_item] in H; [discriminate|]. destruct (model_is c y) eqn:E.
    - inversion H; subst. split; [left; reflexivity|exact E].
    - apply IH in H as [H1 H2]. split; [right; exact H1|exact H2].
  Qed.
  Lemma make_texts_all : forall evs stack o, Forall (Forall D) stack ->
    all (fun x => if para_data x then D x else Q x) evs -> all Q (fst (make_texts stack evs o)).
  Proof.
    induction evs as [|e evs IH]; intros stack o HS H; [constructor|]. inversion H as [|? ? HX HE]; subst. destruct e as [x|x]; cbn [ev_item] in HX; cbn [make_texts].
    - destruct (model_is "Paragraph" x) eqn:EP.
      + cbn [gcons fst]. apply all_cons; [|apply IH; [constructor; [constructor|exact HS]|exact HE]]. cbn [ev_item].
        assert (PD : para_data x = false). { unfold model_is in EP. apply String.eqb_eq in EP. unfold para_data, model_is. rewrite EP. reflexivity. }
        rewrite PD in HX. exact HX.
      + destruct (para_data x) eqn:PD.
        * destruct stack as [|d st]; [constructor|]. inversion HS; subst. apply IH; [|exact HE]. constructor; [constructor; assumption|assumption].
        * cbn [gcons fst]. apply all_cons; [exact HX|]. apply IH; assumption.
    - destruct (model_is "Paragraph" x) eqn:EP.
      + assert (PD : para_data x = false). { unfold model_is in EP. apply String.eqb_eq in EP. unfold para_data, model_is. rewrite EP. reflexivity. }
        rewrite PD in HX. destruct stack as [|d st]; [constructor|]. inversion HS as [|? ? HD HS']; subst. apply all_gthen.
        * apply merge_all. destruct (dict_item "ParaLineSeg" d) as [pl|] eqn:E; [|exact I]. apply dict_item_in in E as [E1 E2]. rewrite Forall_forall in HD. auto.
        * cbn [gcons fst]. apply all_cons; [exact HX|]. apply IH; assumption.
      + destruct (para_data x) eqn:PD; [apply IH; assumption|]. cbn [gcons fst]. apply all_cons; [exact HX|]. apply IH; assumption.
  Qed.
End MakeTexts.

(** ** The other passes *)
Section Passes.
  Variable Q : item -> Prop.

  Definition trees_all (c : controls) : Prop := match c with None => True | Some l => Forall (fun t => Q (fst t) /\ all_forest Q (snd t)) l end.
  Lemma inline_all : forall k stack evs o, Forall trees_all stack -> all Q evs ->
    all Q (fst (fst (inline_loop k stack evs o))) /\ Forall trees_all (snd (inline_loop k stack evs o)).
  Proof.
    induction k as [|k IH]; intros stack evs o HS HE; cbn [inline_loop]; [split; [constructor|exact HS]|].
    assert (YIELD : forall out r, all Q out -> all Q (fst (fst r)) /\ Forall trees_all (snd r) ->
      all Q (fst (fst (let '(out', o', st') := r in (out ++ out', o', st') : list (event item) * outcome * list controls))) /\ Forall trees_all (snd (let '(out', o', st') := r in (out ++ out', o', st') : list (event item) * outcome * list controls))).
    { intros out [[out' o'] st'] HO [H1 H2]. cbn in *. split; [apply all_app; assumption|assumption]. }
    assert (ONE : forall x, Q x -> forall e, ev_item e = x -> all Q [e]) by (intros x HX e <-; apply all_cons; [exact HX|constructor]).
    destruct evs as [|[x|x] rest]; [split; [constructor|exact HS]| |].
    - inversion HE as [|? ? HX HR]; subst. cbn [ev_item] in HX. destruct (model_is "Paragraph" x).
      + apply YIELD; [apply (ONE x HX); reflexivity|]. apply IH; [constructor; [exact I|exact HS]|exact HR].
      + destruct (model_is "ControlChar" x).
        * assert (T : all Q [EStart x; EEnd x]) by (repeat (apply all_cons; [exact HX|]); constructor).
          destruct (attr_get "kind" (i_attrs x)) as [a|]; [|split; [constructor|exact HS]].
          destruct a; try (apply YIELD; [exact T|apply IH; assumption]).
          destruct k0; try (apply YIELD; [exact T|apply IH; assumption]).
          destruct stack as [|[[|[y kids] cs]|] st]; try (split; [constructor|exact HS]).
          inversion HS as [|? ? HC HS']; subst. inversion HC as [|? ? [HY HK] HC']; subst. cbn [fst snd] in HY, HK.
          assert (NEXT : all Q (fst (fst (inline_loop k (Some cs :: st) (tree_events_multi kids ++ [EEnd y]) Finished))) /\ Forall trees_all (snd (inline_loop k (Some cs :: st) (tree_events_multi kids ++ [EEnd y]) Finished))).
          { apply IH; [constructor; assumption|]. apply all_app; [apply all_tree_events; exact HK|]. apply (ONE y HY). reflexivity. }
          destruct (inline_loop k (Some cs :: st) _ Finished) as [[out oc] st']. cbn [fst snd] in NEXT. destruct NEXT as [N1 N2].
          destruct oc; try (cbn [fst snd]; split; [apply all_cons; assumption|assumption]).
          apply YIELD; [apply all_cons; assumption|]. apply IH; assumption.
        * destruct (model_sub "Control" x).
          -- destruct (build_subtree rest) as [[sub rest']|] eqn:E; [|split; [constructor|exact HS]].
             apply (all_build _ Q) in E as [E1 E2]; [|exact I|exact HR]. cbn [fst snd] in *.
             destruct stack as [|cs st]; [split; [constructor|exact HS]|]. inversion HS; subst. destruct sub as [[y kids]|]; [|apply IH; assumption].
             apply IH; [|exact E1]. constructor; [|assumption]. cbn. apply Forall_app. split; [destruct cs; [assumption|constructor]|]. constructor; [exact E2|constructor].
          -- apply YIELD; [apply (ONE x HX); reflexivity|apply IH; assumption].
    - inversion HE as [|? ? HX HR]; subst. cbn [ev_item] in HX. destruct (model_is "Paragraph" x).
      + destruct stack as [|c st]; [split; [apply (ONE x HX); reflexivity|exact HS]|]. inversion HS; subst. apply YIELD; [apply (ONE x HX); reflexivity|]. apply IH; assumption.
      + destruct (model_is "ControlChar" x); [apply IH; assumption|]. apply YIELD; [apply (ONE x HX); reflexivity|apply IH; assumption].
  Qed.
  Lemma controls_inline_all : forall g, all Q (fst g) -> all Q (fst (make_extended_controls_inline g)).
  Proof.
    intros g H. unfold make_extended_controls_inline.
    match goal with |- context [inline_loop ?k ?s ?e ?o] => pose proof (inline_all k s e o) as I; destruct (inline_loop k s e o) as [[out oc] st] end.
    cbn [fst snd] in *. apply I; [constructor|exact H].
  Qed.

  Lemma listheader_all : forall isparent ischild evs stack level o, Forall (fun s => Q (snd s)) stack -> all Q evs ->
    all Q (fst (listheader_loop isparent ischild stack level evs o)).
  Proof.
    intros isparent ischild. induction evs as [|[x|x] evs IH]; intros stack level o HS HE; cbn [listheader_loop]; [constructor| |]; inversion HE as [|? ? HX HR]; subst; cbn [ev_item] in HX.
    - assert (G : forall closed stack', all Q closed -> Forall (fun s => Q (snd s)) stack' ->
        all Q (fst (gapp closed (gcons (EStart x) (listheader_loop isparent ischild (if isparent x then (level + 1, x) :: stack' else stack') (level + 1) evs o))))).
      { intros closed stack' HC HS'. cbn [gapp gcons fst]. apply all_app; [exact HC|]. apply all_cons; [exact HX|]. apply IH; [|exact HR]. destruct (isparent x); [constructor; [exact HX|exact HS']|exact HS']. }
      destruct stack as [|[l lh] st]; [apply G; [constructor|constructor]|]. inversion HS; subst. destruct (_ && _); apply G; try assumption; [apply all_cons; [assumption|constructor]|constructor].
    - assert (G : forall closed stack', all Q closed -> Forall (fun s => Q (snd s)) stack' ->
        all Q (fst (gapp closed (if isparent x then listheader_loop isparent ischild stack' (level - 1) evs o else gcons (EEnd x) (listheader_loop isparent ischild stack' (level - 1) evs o))))).
      { intros closed stack' HC HS'. cbn [gapp fst]. apply all_app; [exact HC|]. destruct (isparent x); [apply IH; assumption|]. cbn [gcons fst]. apply all_cons; [exact HX|apply IH; assumption]. }
      destruct stack as [|[l lh] st]; [apply G; [constructor|constructor]|]. inversion HS; subst. destruct (_ =? _); apply G; try assumption; [apply all_cons; [assumption|constructor]|constructor].
  Qed.

  Lemma field_all : forall evs stack o, Forall Q stack -> all Q evs -> all Q (fst (field_loop stack evs o)).
  Proof.
    assert (MAP : forall (f : item -> event item) l, (forall x, ev_item (f x) = x) -> Forall Q l -> all Q (map f l)).
    { intros f l E H. apply Forall_map. revert H. apply Forall_impl. intros x HX. rewrite E. exact HX. }
    induction evs as [|[x|x] evs IH]; intros stack o HS HE; cbn [field_loop]; [constructor| |]; inversion HE as [|? ? HX HR]; subst; cbn [ev_item] in HX.
    - assert (G : all Q (fst (gcons (EStart x) (field_loop stack evs o)))) by (cbn [gcons fst]; apply all_cons; [exact HX|apply IH; assumption]).
      destruct (model_sub "Field" x); [cbn [gcons fst]; apply all_cons; [exact HX|apply IH; [constructor; assumption|assumption]]|].
      destruct (model_is "LineSeg" x).
      + cbn [gapp fst]. apply all_app; [|apply IH; assumption]. apply all_cons; [exact HX|]. apply MAP; [reflexivity|]. apply Forall_rev. exact HS.
      + destruct (model_is "ControlChar" x); [|exact G]. destruct (is_field_end x) as [[|]|]; [apply IH; assumption|exact G|constructor].
    - assert (G : all Q (fst (gcons (EEnd x) (field_loop stack evs o)))) by (cbn [gcons fst]; apply all_cons; [exact HX|apply IH; assumption]).
      destruct (model_sub "Field" x); [apply IH; assumption|].
      destruct (model_is "LineSeg" x).
      + cbn [gapp fst]. apply all_app; [|apply IH; assumption]. apply all_app; [apply MAP; [reflexivity|exact HS]|]. apply all_cons; [exact HX|constructor].
      + destruct (model_is "ControlChar" x); [|exact G]. destruct (is_field_end x) as [[|]|]; [|exact G|constructor].
        destruct stack as [|f st]; [apply IH; assumption|]. inversion HS; subst. cbn [gcons fst]. apply all_cons; [assumption|apply IH; assumption].
  Qed.

  Section Rows.
    Hypothesis QR : Q row_item.
    Hypothesis QD : forall x, Q x -> model_is "TableBody" x = true -> Q (del_item "rowcols" x).
    Lemma tablebody_all : forall evs stack o, all Q evs -> all Q (fst (tablebody_loop stack evs o)).
    Proof.
      induction evs as [|[x|x] evs IH]; intros stack o HE; cbn [tablebody_loop]; [constructor| |]; inversion HE as [|? ? HX HR]; subst; cbn [ev_item] in HX.
      - destruct (model_is "TableBody" x) eqn:ET.
        + destruct (attr_get "rowcols" _) as [[]|]; try constructor; [apply QD; assumption|apply IH; exact HR].
        + destruct (model_is "TableCell" x).
          * destruct stack as [|[|how marks] st]; try constructor. cbn [gapp gcons fst]. apply all_app; [destruct (negb _); [apply all_cons; [exact QR|constructor]|constructor]|]. apply all_cons; [exact HX|apply IH; exact HR].
          * cbn [gcons fst]. apply all_cons; [exact HX|apply IH; exact HR].
      - destruct (model_is "TableBody" x) eqn:ET.
        + cbn [gcons fst]. apply all_cons; [apply QD; assumption|]. destruct stack; [constructor|apply IH; exact HR].
        + destruct (model_is "TableCell" x).
          * destruct stack as [|[|how marks] st]; [constructor|apply all_cons; [exact HX|constructor]|]. cbn [gcons gapp fst]. apply all_cons; [exact HX|].
            apply all_app; [destruct (negb _); [apply all_cons; [exact QR|constructor]|constructor]|]. apply IH; exact HR.
          * cbn [gcons fst]. apply all_cons; [exact HX|apply IH; exact HR].
    Qed.
  End Rows.

  Section Tokens.
    Variable Q' : item -> Prop.
    Hypothesis QO : forall x, Q x -> model_is "Text" x = false -> Q' x.
    Hypothesis QK : forall x shape lang t, Q x -> model_is "Text" x = true -> attr_get "charshape_id" (i_attrs x) = Some shape -> Q' (token_item shape lang t).
    Lemma tokens_all : forall evs o, all Q evs -> all Q' (fst (tokenize_loop_events evs o)).
    Proof.
      induction evs as [|[x|x] evs IH]; intros o HE; cbn [tokenize_loop_events]; [constructor| |]; inversion HE as [|? ? HX HR]; subst; cbn [ev_item] in HX.
      - destruct (model_is "Text" x) eqn:ET.
        + destruct (attr_get "charshape_id" _) as [shape|] eqn:ES; [|constructor]. destruct (attr_get "text" _) as [[]|]; try constructor.
          cbn [gapp fst]. apply all_app; [|apply IH; exact HR]. induction (tokenize_unicode_by_lang t) as [|[lang s] l IHl]; [constructor|].
          cbn [flat_map app]. repeat (apply all_cons; [exact (QK x shape lang s HX ET ES)|]). exact IHl.
        + cbn [gcons fst]. apply all_cons; [apply QO; assumption|apply IH; exact HR].
      - destruct (model_is "Text" x) eqn:ET; [apply IH; exact HR|]. cbn [gcons fst]. apply all_cons; [apply QO; assumption|apply IH; exact HR].
    Qed.
  End Tokens.

  Section Wrap.
    Variable sid : option Z.
    Variable Q' : item -> Prop.
    Hypothesis QO : forall x, Q x -> Q' x.
    Hypothesis QS : forall s x, Q s -> model_is "SectionDef" s = true -> Q x -> i_ref s = i_ref x -> Q' (section_item sid x).
    Definition some_all (x : option item) : Prop := match x with Some x => Q' x | None => True end.
    Lemma some_all_map : forall evs, all Q evs -> all some_all (map (fun e : event item => match e with EStart x => EStart (Some x) | EEnd x => EEnd (Some x) end) evs).
    Proof. intros evs H. apply Forall_map. revert H. apply Forall_impl. intros [x|x] HX; cbn in *; apply QO; exact HX. Qed.
    Lemma section_all : forall evs buffer o, all Q buffer -> all Q evs -> all some_all (fst (section_loop sid buffer evs o)).
    Proof.
      induction evs as [|e evs IH]; intros buffer o HB HE; cbn [section_loop].
      - destruct o; cbn [fst]; try constructor; [exact I|constructor].
      - inversion HE as [|? ? HX HR]; subst. destruct e as [x|x]; cbn [ev_item] in HX; [|apply IH; [apply all_cons; [exact HX|exact HB]|exact HR]].
        destruct (model_is "SectionDef" x) eqn:ES; [|apply IH; [apply all_cons; [exact HX|exact HB]|exact HR]].
        destruct (build_subtree evs) as [[[[s kids]|] rest]|] eqn:E; [| |constructor].
        + apply (all_build _ Q) in E as (E1 & E2 & E3); [|exact I|exact HR]. cbn [fst snd] in *.
          assert (S : Q' (if i_ref x =? i_ref s then section_item sid s else s)).
          { destruct (i_ref x =? i_ref s) eqn:ER; [|apply QO; exact E2]. apply Z.eqb_eq in ER. exact (QS x s HX ES E2 ER). }
          apply all_app.
          * apply all_cons; [exact S|]. apply some_all_map. apply all_app; [apply all_tree_events; exact E3|]. apply all_app; [apply Forall_rev; exact HB|exact E1].
          * destruct o; cbn [fst]; try constructor; [exact S|constructor].
        + destruct o; constructor.
    Qed.
    Hypothesis QU : Q' columns_item.
    Lemma columns_all : forall evs stack o, Forall Q' stack -> all some_all evs -> all Q' (fst (columns_loop stack evs o)).
    Proof.
      induction evs as [|e evs IH]; intros stack o HS HE; cbn [columns_loop]; [constructor|]. inversion HE as [|? ? HX HR]; subst.
      destruct e as [[x|]|[x|]]; cbn [ev_item some_all] in HX; try constructor.
      - destruct (model_is "Paragraph" x).
        + destruct (new_columnsdef x) as [[|]|]; [| |constructor].
          * destruct stack as [|top st]; [constructor|]. inversion HS; subst.
            destruct (model_is "ColumnSet" top); cbn [gapp fst app]; repeat (apply all_cons; [cbn [ev_item]; assumption|]); apply IH; try assumption; constructor; assumption.
          * cbn [gcons fst]. apply all_cons; [exact HX|apply IH; assumption].
        + cbn [gcons fst]. apply all_cons; [exact HX|apply IH; [constructor; assumption|assumption]].
      - destruct (model_is "Paragraph" x); [cbn [gcons fst]; apply all_cons; [exact HX|apply IH; assumption]|].
        destruct stack as [|top st]; [constructor|]. inversion HS; subst. destruct (String.eqb _ _); [cbn [gcons fst]; apply all_cons; [exact HX|apply IH; assumption]|].
        destruct (model_is "ColumnSet" top); [|constructor]. destruct st as [|z st']; [apply all_cons; [assumption|constructor]|].
        match goal with F : Forall Q' (_ :: _) |- _ => inversion F; subst end. cbn [gapp fst app]. apply all_cons; [assumption|]. apply all_cons; [exact HX|apply IH; assumption].
    Qed.
  End Wrap.
End Passes.

(** All of them. *)
Section All.
  Variables D Q Q2 Q3 : item -> Prop.
  Variable sid : option Z.
  Hypothesis QT : forall t s, Q (text_item t s).
  Hypothesis QC : forall c k s, Q (controlchar_item c k s).
  Hypothesis QZ : forall i, Q (lineseg_item (i, dummy_lineseg)).
  Hypothesis QL : forall x l d i, D x -> model_is "ParaLineSeg" x = true -> attr_get "linesegs" (i_attrs x) = Some (VLineSegs l) -> In d l -> Q (lineseg_item (i, d)).
  Hypothesis QR : Q row_item.
  Hypothesis QD : forall x, Q x -> model_is "TableBody" x = true -> Q (del_item "rowcols" x).
  Hypothesis QO : forall x, Q x -> model_is "Text" x = false -> Q2 x.
  Hypothesis QK : forall x shape lang t, Q x -> model_is "Text" x = true -> attr_get "charshape_id" (i_attrs x) = Some shape -> Q2 (token_item shape lang t).
  Hypothesis QO3 : forall x, Q2 x -> Q3 x.
  Hypothesis QS : forall s x, Q2 s -> model_is "SectionDef" s = true -> Q2 x -> i_ref s = i_ref x -> Q3 (section_item sid x).
  Hypothesis QU : Q3 columns_item.
  Theorem section_events_all : forall g, all (fun x => if para_data x then D x else Q x) (fst g) -> all Q3 (fst (section_events sid g)).
  Proof.
    intros g H. unfold section_events, wrap_columns, wrap_section. apply (columns_all Q3 QU); [constructor|]. apply (section_all Q2 sid Q3 QO3 QS); [constructor|].
    unfold tokenize_text_by_lang. apply (tokens_all Q Q2 QO QK). unfold restructure_tablebody. apply (tablebody_all Q QR QD).
    unfold make_cells_children_of_tablebody, make_paragraphs_children_of_listheader. apply listheader_all; [constructor|]. apply listheader_all; [constructor|].
    unfold match_field_start_end. apply field_all; [constructor|]. apply controls_inline_all. unfold make_texts_linesegmented_and_charshaped.
    apply (make_texts_all D Q QT QC QZ QL); [constructor|exact H].
  Qed.
End All.
