(** Proofs about the record models. *)
From Coq Require Import ZArith String List Bool Lia.
From Verif Require Import Base BaseFacts Model_Text Model_Dataio Model_Record Model_Tree Model_ParaText Model_Bintype Model_Classes
  Model_Layouts Model_Models Spec_Tree Spec_Bintype Spec_Models Proof_Tree Proof_Bintype Proof_Bintype2.
From Verif Require Spec_Record Proof_Record.
Import ListNotations.
Open Scope string_scope.
Open Scope list_scope.
Open Scope Z_scope.

(** ** Every declared layout is well formed *)
Definition fine (l : list field) : Prop := wf node (struct_type l) /\ sane node (struct_type l).

Lemma own_fine : Forall (fun cl => fine (snd cl)) own_members.
Proof.
  unfold own_members.
  repeat (apply Forall_cons; [cbv -[Z.lt Z.le]; repeat split; try discriminate; try lia; try (intuition discriminate)|]). apply Forall_nil.
Qed.

Lemma dict_get_in : forall V k (d : list (string * V)) v, dict_get k d = Some v -> In (k, v) d.
Proof.
  induction d as [|[k' v'] t IH]; cbn; [discriminate|]. intros v H.
  destruct (String.eqb k k') eqn:E; [apply String.eqb_eq in E; injection H as <-; subst; left; reflexivity|right; auto].
Qed.

Lemma class_fine : forall c, wf node (class_type c) /\ sane node (class_type c).
Proof.
  intros c. unfold class_type, class_fields. destruct (dict_get c own_members) as [l|] eqn:E; [|split; exact I].
  apply dict_get_in in E. exact (proj1 (Forall_forall _ _) own_fine _ E).
Qed.

(** ** The registries *)
Lemma model_type_is : forall tagid, model_type tagid = type_of_tag tagid.
Proof.
  intros t. unfold model_type.
  destruct (Z.leb 16 t && Z.leb t 115) eqn:B.
  - apply andb_prop in B as [B1 B2]. apply Z.leb_le in B1, B2.
    assert (H : forall n, (n < 100)%nat -> model_type (16 + Z.of_nat n) = type_of_tag (16 + Z.of_nat n)).
    { intros n. do 100 (destruct n as [|n]; [intros _; vm_compute; reflexivity|]). lia. }
    specialize (H (Z.to_nat (t - 16)) ltac:(lia)). rewrite Z2Nat.id in H by lia.
    replace (16 + (t - 16)) with t in H by lia. exact H.
  - assert (F : forall l, Forall (fun kv : Z * string => 16 <= fst kv <= 115) l -> zdict_get t l = None).
    { induction 1 as [|[k v] l K _ IH]; [reflexivity|]. cbn in *. destruct (Z.eqb_spec t k) as [->|N]; [|exact IH].
      apply andb_false_iff in B. rewrite !Z.leb_gt in B. lia. }
    rewrite F by (repeat constructor; cbn; lia).
    assert (N : ~ (16 <= t <= 115)).
    { intros [X Y]. apply Z.leb_le in X, Y. rewrite X, Y in B. discriminate. }
    unfold type_of_tag. destruct t as [|p|p]; try reflexivity.
    do 7 (destruct p as [p|p|]; try reflexivity; try (exfalso; apply N; clear; lia)).
Qed.

(** ** Reading the declaration of a class *)
Lemma struct_result : forall c ver ms s tr s' v, rd node c ver None None None (TStruct node ms) s = (tr, s', Some (Ok v)) ->
  exists tr0 d, v = Some (VDict d) /\ tr = tr0 ++ [OEnd node None (TStruct node ms) (VDict d)] /\
    rd_members node c ver ms [] s = (tl tr0, s', Some (Ok d)) /\ tr0 = OStart node None (TStruct node ms) :: tl tr0.
Proof.
  intros c ver ms s tr s' v H. rewrite rd_struct in H. cbn [guarded andthen say] in H.
  destruct (rd_members node c ver ms [] s) as [[tr1 s1] [[d|e]|]] eqn:E; cbn [andthen] in H; try discriminate.
  cbn [ret] in H. injection H as <- <- <-. exists (OStart node None (TStruct node ms) :: tr1), d.
  split; [reflexivity|]. split; [cbn [app]; rewrite ?app_nil_r; reflexivity|]. split; reflexivity.
Qed.

Lemma andthen_pure : forall {X Y} (r : sres node X) (f : X -> Y),
  andthen node r (fun x s => ret node (f x) s) =
  match r with (tr, s, Some (Ok x)) => (tr, s, Some (Ok (f x))) | (tr, s, Some (Raise e)) => (tr, s, Some (Raise e)) | (tr, s, None) => (tr, s, None) end.
Proof. intros X Y [[tr s] [[x|e]|]] f; cbn; try reflexivity. rewrite app_nil_r. reflexivity. Qed.

(** The result of [layout], read off the result of [rd]. *)
Lemma layout_cases : forall ver parent c s, all_bytes (s_rest s) ->
  (exists tr s' d, rd node parent (Some ver) None None None (class_type c) s = (tr, s', Some (Ok (Some (VDict d)))) /\
     layout ver parent c s = (tr, s', Some (Ok d)) /\ covers node tr s s') \/
  (exists tr s' e, rd node parent (Some ver) None None None (class_type c) s = (tr, s', Some (Raise e)) /\
     layout ver parent c s = (tr, s', Some (Raise e)) /\
     fails_because node (fun e => e = IndexError \/ ref_raises node parent e (class_type c)) tr s e).
Proof.
  intros ver parent c s HB. destruct (class_fine c) as [HW HS].
  pose proof (proj1 (rd_traced node parent (Some ver)) (class_type c) None None None s HS HB) as HT.
  unfold layout. destruct (rd node parent (Some ver) None None None (class_type c) s) as [[tr s'] [[v|e]|]] eqn:E; cbn [Tr] in HT.
  - left. destruct (struct_result _ _ _ _ _ _ _ E) as (tr0 & d & -> & -> & _ & _). exists (tr0 ++ [OEnd node None (class_type c) (VDict d)]), s', d.
    split; [reflexivity|]. split; [cbn; rewrite app_nil_r; reflexivity|exact HT].
  - right. exists tr, s', e. split; [reflexivity|]. split; [reflexivity|].
    assert (X : forall R R' : exn -> Prop, (forall e, R e -> R' e) -> fails_because node R tr s e -> fails_because node R' tr s e).
    { intros R R' I [H|[H|(s1 & H1 & H2)]]; [left; exact H|right; left; exact H|right; right; eauto]. }
    refine (X _ _ _ HT). clear. intros e. unfold why. cbn [cond_raises]. tauto.
  - destruct HT.
Qed.

Lemma read_class_is : forall ver parent c s, all_bytes (s_rest s) -> exists n, forall k,
  read_class (n + k) c parent ver s = layout ver parent c s.
Proof.
  intros ver parent c s HB. destruct (class_fine c) as [HW HS].
  destruct (read_type_is node parent (Some ver) (class_type c) s HW HB HS) as [n Hn]. exists n. intros k. specialize (Hn k).
  destruct (layout_cases ver parent c s HB) as [(tr & s' & d & E & -> & _)|(tr & s' & e & E & -> & _)]; rewrite E in Hn; destruct Hn as [Hn _];
    unfold read_class; rewrite Hn; [|reflexivity].
  destruct (struct_result _ _ _ _ _ _ _ E) as (tr0 & d' & V & -> & _ & _). injection V as <-.
  rewrite rev_app_distr. reflexivity.
Qed.

Lemma layouts_cases : forall ver parent cs d s, all_bytes (s_rest s) ->
  (exists tr s' d', layouts ver parent cs d s = (tr, s', Some (Ok d')) /\ covers node tr s s') \/
  (exists tr s' e, layouts ver parent cs d s = (tr, s', Some (Raise e)) /\
     fails_because node (fun e => e = IndexError \/ exists c, In c cs /\ ref_raises node parent e (class_type c)) tr s e).
Proof.
  intros ver parent cs. induction cs as [|c r IH]; intros d s HB; cbn [layouts].
  - left. exists [], s, d. split; [reflexivity|constructor].
  - destruct (layout_cases ver parent c s HB) as [(tr & s' & e & _ & -> & C)|(tr & s' & e & _ & -> & F)]; cbn [andthen].
    + destruct (IH (overwritten d e) s') as [(tr' & s2 & d' & -> & C')|(tr' & s2 & e' & -> & F')].
      * exact (all_bytes_consumes _ _ (covers_consumes _ _ _ _ C) HB).
      * left. do 3 eexists. split; [reflexivity|eapply covers_app; eauto].
      * right. do 3 eexists. split; [reflexivity|]. eapply fails_prefix; [exact C|].
        destruct F' as [H|[H|(s1 & H1 & H2)]]; [left; exact H|right; left; exact H|right; right]. exists s1. split; [exact H1|].
        destruct H2 as [H2|(c' & H2 & H3)]; [left; exact H2|right]. exists c'. split; [right; exact H2|exact H3].
    + right. do 3 eexists. split; [reflexivity|].
      destruct F as [H|[H|(s1 & H1 & H2)]]; [left; exact H|right; left; exact H|right; right]. exists s1. split; [exact H1|].
      destruct H2 as [H2|H2]; [left; exact H2|right]. exists c. split; [left; reflexivity|exact H2].
Qed.

Lemma read_extension_is : forall ver parent cs d evs s, all_bytes (s_rest s) -> exists n, forall k,
  read_extension (n + k) cs parent ver d evs s =
  (let '(tr, s', r) := layouts ver parent cs d s in (evs ++ tr, s', r)).
Proof.
  intros ver parent cs. induction cs as [|c r IH]; intros d evs s HB; cbn [layouts].
  - exists 0%nat. intros k. cbn. rewrite app_nil_r. reflexivity.
  - destruct (read_class_is ver parent c s HB) as [n Hn].
    destruct (layout_cases ver parent c s HB) as [(tr & s' & e & _ & E & C)|(tr & s' & e & _ & E & F)]; rewrite E in *; cbn [andthen].
    + destruct (IH (overwritten d e) (evs ++ tr) s' (all_bytes_consumes _ _ (covers_consumes _ _ _ _ C) HB)) as [n2 H2].
      exists (n + n2)%nat. intros k. cbn [read_extension]. rewrite <- Nat.add_assoc, Hn.
      replace (n + (n2 + k))%nat with (n2 + (n + k))%nat by lia. change (dict_update d e) with (overwritten d e). rewrite H2.
      destruct (layouts ver parent r (overwritten d e) s') as [[tr' s2] x]. rewrite app_assoc. reflexivity.
    + exists n. intros k. cbn [read_extension]. rewrite Hn. reflexivity.
Qed.

(** ** Refined types *)
Fixpoint nodupb (l : list (list Z)) : bool :=
  match l with [] => true | x :: r => negb (existsb (fun y => if list_eq_dec Z.eq_dec x y then true else false) r) && nodupb r end.
Lemma nodupb_sound : forall l, nodupb l = true -> NoDup l.
Proof.
  induction l as [|x r IH]; cbn; [constructor|]. intros H. apply andb_prop in H as [H1 H2]. constructor; [|auto].
  intros I. apply negb_true_iff in H1. assert (X : existsb (fun y => if list_eq_dec Z.eq_dec x y then true else false) r = true).
  { apply existsb_exists. exists x. split; [exact I|]. destruct (list_eq_dec Z.eq_dec x x); congruence. }
  congruence.
Qed.

Lemma find_control_in : forall l chid t, NoDup (map (fun kv => zs (fst kv)) l) ->
  (find_control chid l = Some t <-> exists s, In (s, t) l /\ zs s = chid).
Proof.
  induction l as [|[k c] r IH]; intros chid t ND; cbn [find_control map] in *.
  - split; [discriminate|]. intros (s & [] & _).
  - inversion ND as [|? ? N1 N2]; subst. destruct (list_eq_dec Z.eq_dec (zs k) chid) as [E|E].
    + split.
      * intros H. injection H as <-. exists k. split; [left; reflexivity|exact E].
      * intros (s & [H|H] & Z); [injection H as -> ->; reflexivity|]. exfalso. apply N1. cbn [fst]. rewrite E, <- Z.
        exact (in_map (fun kv => zs (fst kv)) _ _ H).
    + rewrite (IH chid t N2). split.
      * intros (s & H & Z). exists s. split; [right; exact H|exact Z].
      * intros (s & [H|H] & Z); [injection H as -> ->; contradiction|]. eauto.
Qed.

Lemma control_ids_same : forall s t, In (s, t) control_models <-> In (t, s) control_ids.
Proof.
  assert (P : forall (A : Type) (eqb : A -> A -> bool) (EQ : forall a b, eqb a b = true -> a = b) l l',
    forallb (fun x => existsb (eqb x) l') l = true -> forall x, In x l -> In x l').
  { intros A eqb EQ l l' H x I. rewrite forallb_forall in H. specialize (H x I). apply existsb_exists in H as (y & Y1 & Y2).
    apply EQ in Y2. subst. exact Y1. }
  set (eqp := fun a b : string * string => String.eqb (fst a) (fst b) && String.eqb (snd a) (snd b)).
  assert (EQ : forall a b, eqp a b = true -> a = b).
  { intros [a1 a2] [b1 b2] H. apply andb_prop in H as [H1 H2]. apply String.eqb_eq in H1, H2. cbn in *. subst. reflexivity. }
  intros s t. split; intros H.
  - apply (P _ eqp EQ (map (fun kv => (snd kv, fst kv)) control_models) control_ids); [vm_compute; reflexivity|].
    exact (in_map (fun kv => (snd kv, fst kv)) _ _ H).
  - apply (P _ eqp EQ (map (fun kv => (snd kv, fst kv)) control_ids) control_models); [vm_compute; reflexivity|].
    exact (in_map (fun kv => (snd kv, fst kv)) _ _ H).
Qed.

Lemma find_control_is : forall chid t, find_control chid control_models = Some t <-> is_control_type t chid.
Proof.
  intros chid t. rewrite find_control_in by (apply nodupb_sound; vm_compute; reflexivity). unfold is_control_type.
  split; intros (s & H & Z); exists s; split; auto; apply control_ids_same; exact H.
Qed.

Lemma refined_ext : forall base parent d, (base = "Control" -> exists chid, dict_get "chid" d = Some (VText chid)) ->
  refined parent base d (extension_of base parent d).
Proof.
  intros base parent d HC. unfold extension_of.
  destruct (String.eqb_spec base "Control") as [->|N1].
  { destruct (HC eq_refl) as [chid E]. rewrite E. destruct (find_control chid control_models) as [t|] eqn:F.
    - apply rf_control with chid; [exact E|]. apply find_control_is. exact F.
    - apply rf_control_unknown with chid; [exact E|]. intros t H. apply find_control_is in H. congruence. }
  destruct (String.eqb_spec base "ListHeader") as [->|N2].
  { destruct (n_type parent) as [t|] eqn:T; [|exact (rf_list_top parent d T)].
    unfold list_header_models. cbn [find_list_header fst snd].
    destruct (String.eqb_spec "TableControl" t) as [<-|A]; [destruct (n_seen parent) eqn:S; cbn [andb Bool.eqb]; constructor; assumption|].
    cbn [andb].
    destruct (n_seen parent) eqn:S; cbn [Bool.eqb]; rewrite ?andb_false_r, ?andb_true_r.
    { apply rf_list_plain with t; [exact T|congruence|rewrite S; discriminate]. }
    destruct (String.eqb_spec "GShapeObjectControl" t) as [<-|A2]; [constructor; assumption|].
    destruct (String.eqb_spec "ShapeComponent" t) as [<-|A3]; [constructor; assumption|].
    destruct (String.eqb_spec "Header" t) as [<-|A4]; [constructor; assumption|].
    destruct (String.eqb_spec "Footer" t) as [<-|A5]; [constructor; assumption|].
    apply rf_list_plain with t; [exact T|congruence|]. intros _ [H|[H|[H|[H|[]]]]]; contradiction. }
  destruct (String.eqb_spec base "ControlData") as [->|N3].
  { destruct (n_type parent) as [t|] eqn:T; [|exact (rf_data_top parent d T)].
    unfold control_data_models. cbn [dict_get].
    destruct (String.eqb_spec t "BookmarkControl") as [->|A2]; [constructor; assumption|].
    destruct (String.eqb_spec t "FieldClickHere") as [->|A3]; [constructor; assumption|].
    destruct (String.eqb_spec t "SectionDef") as [->|A4]; [constructor; assumption|].
    apply rf_data_plain with t; [exact T|]. intros [H|[H|[H|[]]]]; congruence. }
  apply rf_other. intros [H|[H|[H|[]]]]; congruence.
Qed.

Lemma refined_fun : forall base parent d r, refined parent base d r -> r = extension_of base parent d.
Proof.
  intros base parent d r H. inversion H; subst; unfold extension_of; cbn [String.eqb Ascii.eqb Bool.eqb];
    repeat match goal with E : n_type parent = _ |- _ => rewrite E; clear E end;
    repeat match goal with E : n_seen parent = _ |- _ => rewrite E; clear E end; try reflexivity.
  - rewrite H0. apply find_control_is in H1. rewrite H1. reflexivity.
  - rewrite H0. destruct (find_control chid control_models) as [t|] eqn:F; [|reflexivity]. apply find_control_is in F. destruct (H1 t F).
  - unfold list_header_models. cbn [find_list_header fst snd].
    destruct (String.eqb_spec "TableControl" t) as [A|_]; [congruence|]. cbn [andb].
    destruct (n_seen parent); cbn [Bool.eqb]; rewrite ?andb_false_r, ?andb_true_r; [reflexivity|].
    specialize (H2 eq_refl). cbn [In] in H2.
    repeat (match goal with |- context [String.eqb ?a t] => destruct (String.eqb_spec a t) as [?|?]; [exfalso; tauto|] end). reflexivity.
  - unfold control_data_models. cbn [dict_get]. cbn [In] in H1.
    repeat (match goal with |- context [String.eqb t ?a] => destruct (String.eqb_spec t a) as [?|?]; [exfalso; intuition congruence|] end). reflexivity.
  - cbn [In] in H0. repeat (match goal with |- context [String.eqb base ?a] => destruct (String.eqb_spec base a) as [?|?]; [exfalso; intuition congruence|] end). reflexivity.
Qed.

Lemma extension_layouts : forall base parent d t, refined parent base d (Ok (Some t)) -> get_extension_mro t base = refinement_layouts t.
Proof.
  intros base parent d t H. inversion H; subst; try (vm_compute; reflexivity).
  destruct H4 as (s & I & _). clear H. unfold control_ids in I.
  repeat (destruct I as [I|I]; [injection I as <- <-; vm_compute; reflexivity|]). destruct I.
Qed.

(** ** One record *)
Lemma control_has_chid : forall ver parent s tr s' d, layout ver parent "Control" s = (tr, s', Some (Ok d)) ->
  exists chid, dict_get "chid" d = Some (VText chid).
Proof.
  intros ver parent s tr s' d H. unfold layout in H.
  destruct (rd node parent (Some ver) None None None (class_type "Control") s) as [[tr1 s1] [[v|e]|]] eqn:E; try discriminate.
  destruct (struct_result _ _ _ _ _ _ _ E) as (tr0 & d1 & -> & -> & M & _). cbn in H. injection H as _ _ <-.
  change (members_of _) with (members_of M_Control) in M. cbn [members_of M_Control fld] in M.
  rewrite rdm_cons in M. cbn [visible] in M. unfold CHID_t in M. rewrite rd_prim in M. cbn [guarded] in M. unfold rd_leaf, read_leaf in M.
  destruct (prim_value PChid s) as [[[v|e]|] s2] eqn:P; cbn in M; try discriminate. injection M as _ _ <-. cbn.
  cbn in P. repeat match type of P with context [match ?x with _ => _ end] => destruct x; try discriminate end.
  injection P as P _. match type of P with context [chid_decode ?a] => destruct (chid_decode a) end; [|discriminate].
  injection P as <-. eexists. reflexivity.
Qed.

Theorem parse_model_is : forall ver parent tagid payload, all_bytes payload ->
  exists n r, reads ver parent tagid payload r /\ forall k, parse_model (n + k) ver parent tagid payload = Some r.
Proof.
  intros ver parent tagid payload HB.
  destruct (read_class_is ver parent (type_of_tag tagid) (open_bytes payload) HB) as [n Hn].
  destruct (layout_cases ver parent (type_of_tag tagid) (open_bytes payload) HB) as [(tr & s' & d & _ & E & C)|(tr & s' & e & _ & E & F)].
  2: { exists n, (Raise e). split; [exact (rs_fails _ _ _ _ _ _ _ E)|]. intros k. unfold parse_model. cbv zeta.
       rewrite model_type_is, Hn, E. reflexivity. }
  assert (R : refined parent (type_of_tag tagid) d (extension_of (type_of_tag tagid) parent d)).
  { apply refined_ext. intros T. rewrite T in E. exact (control_has_chid _ _ _ _ _ _ E). }
  destruct (extension_of (type_of_tag tagid) parent d) as [[t|]|e] eqn:X.
  - pose proof (extension_layouts _ _ _ _ R) as ML.
    destruct (read_extension_is ver parent (refinement_layouts t) d tr s' (all_bytes_consumes _ _ (covers_consumes _ _ _ _ C) HB)) as [n2 H2].
    destruct (layouts_cases ver parent (refinement_layouts t) d s' (all_bytes_consumes _ _ (covers_consumes _ _ _ _ C) HB))
      as [(tr2 & s2 & d2 & E2 & _)|(tr2 & s2 & e2 & E2 & _)].
    + exists (n + n2)%nat, (Ok (mkModel t d2 (tr ++ tr2) (s_rest s2))). split; [exact (rs_refined _ _ _ _ _ _ _ _ _ _ _ E R E2)|].
      intros k. unfold parse_model. cbv zeta. rewrite model_type_is, <- Nat.add_assoc, Hn, E, X, ML.
      replace (n + (n2 + k))%nat with (n2 + (n + k))%nat by lia. rewrite H2, E2. reflexivity.
    + exists (n + n2)%nat, (Raise e2). split; [exact (rs_refined_fails _ _ _ _ _ _ _ _ _ _ _ E R E2)|].
      intros k. unfold parse_model. cbv zeta. rewrite model_type_is, <- Nat.add_assoc, Hn, E, X, ML.
      replace (n + (n2 + k))%nat with (n2 + (n + k))%nat by lia. rewrite H2, E2. reflexivity.
  - exists n, (Ok (mkModel (type_of_tag tagid) d tr (s_rest s'))). split; [exact (rs_plain _ _ _ _ _ _ _ E R)|].
    intros k. unfold parse_model. cbv zeta. rewrite model_type_is, Hn, E, X. reflexivity.
  - exists n, (Raise e). split; [exact (rs_no_parent _ _ _ _ _ _ _ _ E R)|].
    intros k. unfold parse_model. cbv zeta. rewrite model_type_is, Hn, E, X. reflexivity.
Qed.

Lemma reads_fun : forall ver parent tagid payload r r', reads ver parent tagid payload r -> reads ver parent tagid payload r' -> r = r'.
Proof.
  intros ver parent tagid payload r r' H H'.
  destruct H as [d tr s E R|d0 d tr0 tr1 s0 s t E R L|tr s e E|d tr s e E R|d0 tr0 tr1 s0 s e t E R L];
  destruct H' as [d' tr' s' E' R'|d0' d' tr0' tr1' s0' s' t' E' R' L'|tr' s' e' E'|d' tr' s' e' E' R'|d0' tr0' tr1' s0' s' e' t' E' R' L'];
    rewrite E in E'; inversion E'; subst; try reflexivity;
    try (apply refined_fun in R); try (apply refined_fun in R'); try congruence;
    try (rewrite <- R in R'; injection R' as ->; rewrite L in L'; inversion L'; subst; reflexivity).
Qed.

(** What is left unparsed is the end of the payload, and the reported leaves
    tile what precedes it. *)
Theorem reads_tiles : forall ver parent tagid payload m, all_bytes payload -> reads ver parent tagid payload (Ok m) ->
  exists s', covers node (m_binevents m) (open_bytes payload) s' /\ s_rest s' = m_unparsed m /\
    exists b, payload = b ++ m_unparsed m /\ s_pos s' = zlen b.
Proof.
  intros ver parent tagid payload m HB H.
  assert (G : exists s', covers node (m_binevents m) (open_bytes payload) s' /\ s_rest s' = m_unparsed m).
  { inversion H as [d tr s E R EM|d0 d tr0 tr1 s0 s t E R L EM| | |]; subst; cbn [m_binevents m_unparsed].
    - destruct (layout_cases ver parent (type_of_tag tagid) (open_bytes payload) HB) as [(tr' & s' & d' & _ & E' & C)|(tr' & s' & e & _ & E' & F)];
        rewrite E in E'; inversion E'; subst. eauto.
    - destruct (layout_cases ver parent (type_of_tag tagid) (open_bytes payload) HB) as [(tr' & s' & d' & _ & E' & C)|(tr' & s' & e & _ & E' & F)];
        rewrite E in E'; inversion E'; subst.
      destruct (layouts_cases ver parent (refinement_layouts t) d' s' (all_bytes_consumes _ _ (covers_consumes _ _ _ _ C) HB))
        as [(tr2 & s2 & d2 & E2 & C2)|(tr2 & s2 & e2 & E2 & _)]; rewrite L in E2; inversion E2; subst.
      exists s2. split; [eapply covers_app; eauto|reflexivity]. }
  destruct G as (s' & C & U). exists s'. split; [exact C|]. split; [exact U|].
  destruct (covers_consumes _ _ _ _ C) as (b & B1 & B2). exists b. cbn in B1, B2. rewrite U in B1. split; [exact B1|lia].
Qed.

(** ** The parent *)
Fixpoint split_last (k : Z) (done : list (record * model)) : option ((record * model) * list (record * model)) :=
  match done with
  | [] => None
  | x :: rest => match split_last k rest with
                 | Some y => Some y
                 | None => if r_level (fst x) =? k then Some (x, rest) else None
                 end
  end.
Definition body_below (k : Z) (rm : record * model) : bool := (r_level (fst rm) =? k) && String.eqb (m_type (snd rm)) "TableBody".
Definition node_at (k : Z) (done : list (record * model)) : node :=
  match split_last (k - 1) done with
  | Some ((_, m), after) => mkNode (Some (m_type m)) (Some (VDict (m_content m)))
                              (String.eqb (m_type m) "TableControl" && existsb (body_below k) after)
  | None => root_node
  end.

Lemma split_last_some : forall k done x after, split_last k done = Some (x, after) ->
  exists before, last_such (fun rm => r_level (fst rm) = k) done before x after.
Proof.
  assert (NN : forall k done, split_last k done = None -> Forall (fun rm => r_level (fst rm) <> k) done).
  { intros k. induction done as [|y r IH]; [constructor|]. cbn. destruct (split_last k r); [discriminate|].
    destruct (Z.eqb_spec (r_level (fst y)) k); [discriminate|]. auto. }
  intros k. induction done as [|y r IH]; intros x after; [discriminate|]. cbn.
  destruct (split_last k r) as [p|] eqn:E.
  - intros H. injection H as ->. destruct (IH x after eq_refl) as [before L]. destruct L as [before x after EL P F]. subst r.
    exists (y :: before). econstructor; [reflexivity|exact P|exact F].
  - destruct (Z.eqb_spec (r_level (fst y)) k) as [K|K]; [|discriminate]. intros H. injection H as -> ->.
    exists []. econstructor; [reflexivity|exact K|]. apply NN. exact E.
Qed.
Lemma split_last_none : forall k done, split_last k done = None -> Forall (fun rm => r_level (fst rm) <> k) done.
Proof.
  intros k. induction done as [|y r IH]; [constructor|]. cbn. destruct (split_last k r); [discriminate|].
  destruct (Z.eqb_spec (r_level (fst y)) k); [discriminate|]. auto.
Qed.
Lemma split_last_absent : forall k done, Forall (fun rm => r_level (fst rm) <> k) done -> split_last k done = None.
Proof. induction 1 as [|y r N _ IH]; [reflexivity|]. cbn. rewrite IH. destruct (Z.eqb_spec (r_level (fst y)) k); [contradiction|reflexivity]. Qed.
Lemma split_last_such : forall k done before x after, last_such (fun rm => r_level (fst rm) = k) done before x after ->
  split_last k done = Some (x, after).
Proof.
  intros k done before x after [b y a -> P F]. induction b as [|z b IH]; cbn [app split_last].
  - rewrite (split_last_absent k a F). destruct (Z.eqb_spec (r_level (fst y)) k); [reflexivity|contradiction].
  - rewrite IH. reflexivity.
Qed.
Lemma split_last_snoc : forall k done x, split_last k (done ++ [x]) =
  if r_level (fst x) =? k then Some (x, [])
  else match split_last k done with Some (y, a) => Some (y, a ++ [x]) | None => None end.
Proof.
  intros k done x. induction done as [|y r IH]; cbn [app split_last].
  - destruct (_ =? _); reflexivity.
  - rewrite IH. destruct (r_level (fst x) =? k); [reflexivity|]. destruct (split_last k r) as [[z a]|]; [reflexivity|].
    destruct (_ =? _); reflexivity.
Qed.

Lemma body_below_exists : forall k m after,
  (String.eqb (m_type m) "TableControl" && existsb (body_below k) after = true <->
   m_type m = "TableControl" /\ exists r' m', In (r', m') after /\ r_level r' = k /\ m_type m' = "TableBody").
Proof.
  intros k m after. rewrite andb_true_iff, String.eqb_eq, existsb_exists. unfold body_below.
  split; intros [H H0]; (split; [exact H|]).
  - destruct H0 as ([r' m'] & I & B). apply andb_prop in B as [B1 B2]. apply Z.eqb_eq in B1. apply String.eqb_eq in B2. eauto.
  - destruct H0 as (r' & m' & I & B1 & B2). exists (r', m'). split; [exact I|]. cbn [fst snd]. rewrite B1, B2, Z.eqb_refl, String.eqb_refl. reflexivity.
Qed.

Lemma node_at_parent : forall k done, parent_of k done (node_at k done).
Proof.
  intros k done. unfold node_at. destruct (split_last (k - 1) done) as [[[r m] after]|] eqn:E.
  - destruct (split_last_some _ _ _ _ E) as [before L]. eapply po_record; [exact L|]. apply body_below_exists.
  - apply po_root. apply split_last_none. exact E.
Qed.

Lemma parent_of_fun : forall k done p, parent_of k done p -> p = node_at k done.
Proof.
  intros k done p [before r m after seen L S|F]; unfold node_at.
  - rewrite (split_last_such _ _ _ _ _ L). f_equal. apply Bool.eq_true_iff_eq. rewrite S. symmetry. apply body_below_exists.
  - rewrite split_last_absent by exact F. reflexivity.
Qed.

Lemma sub_table : forall t, issubclass t "TableControl" = String.eqb t "TableControl".
Proof.
  intros t. destruct (String.eqb_spec t "TableControl") as [->|N]; [vm_compute; reflexivity|].
  unfold issubclass, class_mro_fuel.
  destruct (class_base t) as [b|] eqn:B.
  - unfold class_base in B. destruct (find (fun d => String.eqb (cd_name d) t) class_table) as [d|] eqn:F; [|discriminate].
    apply find_some in F as [I E]. apply String.eqb_eq in E. subst t.
    unfold class_table in I. repeat (destruct I as [<-|I]; [first [vm_compute; reflexivity|exfalso; apply N; reflexivity]|]). destruct I.
  - cbn [mro]. rewrite B. cbn [existsb]. rewrite orb_false_r. destruct (String.eqb_spec "TableControl" t); congruence.
Qed.

Lemma node_at_snoc : forall k done r m, node_at k (done ++ [(r, m)]) =
  if r_level r =? k - 1 then model_node m
  else if r_level r =? k then on_child (node_at k done) m else node_at k done.
Proof.
  intros k done r m. unfold node_at. rewrite split_last_snoc. cbn [fst].
  destruct (Z.eqb_spec (r_level r) (k - 1)) as [E|E].
  - cbn [existsb]. rewrite andb_false_r. reflexivity.
  - destruct (split_last (k - 1) done) as [[[r1 m1] a]|].
    + rewrite existsb_app. cbn [existsb]. unfold body_below at 2. cbn [fst snd]. rewrite orb_false_r.
      destruct (Z.eqb_spec (r_level r) k) as [K|K].
      * unfold on_child. cbn [n_type n_content]. rewrite sub_table. destruct (String.eqb (m_type m1) "TableControl"); cbn [andb]; [|reflexivity].
        destruct (String.eqb (m_type m) "TableBody"); cbn [andb]; [rewrite orb_true_r; reflexivity|rewrite orb_false_r; reflexivity].
      * cbn [andb]. rewrite orb_false_r. reflexivity.
    + destruct (_ =? _); reflexivity.
Qed.

(** ** The loop *)
Fixpoint stk (done : list (record * model)) (b : Z) (n : nat) : list node :=
  node_at (b + Z.of_nat n) done :: match n with O => [] | S n' => stk done b n' end.
Lemma zlen_stk : forall done b n, zlen (stk done b n) = Z.of_nat n + 1.
Proof. intros done b. induction n as [|n IH]; [reflexivity|]. cbn [stk]. rewrite zlen_cons, IH. lia. Qed.
Lemma stk_suffix : forall done b n j, (j <= n)%nat -> exists pre, stk done b n = pre ++ stk done b j.
Proof.
  intros done b. induction n as [|n IH]; intros j H.
  - replace j with O by lia. exists []. reflexivity.
  - destruct (Nat.eq_dec j (S n)) as [->|N]; [exists []; reflexivity|]. destruct (IH j ltac:(lia)) as [pre E].
    exists (node_at (b + Z.of_nat (S n)) done :: pre). cbn [stk app]. rewrite E. reflexivity.
Qed.
Lemma node_at_below : forall k done r m, k < r_level r -> node_at k (done ++ [(r, m)]) = node_at k done.
Proof.
  intros k done r m H. rewrite node_at_snoc. destruct (Z.eqb_spec (r_level r) (k - 1)); [lia|]. destruct (Z.eqb_spec (r_level r) k); [lia|reflexivity].
Qed.
Lemma stk_below : forall done b r m n, b + Z.of_nat n < r_level r -> stk (done ++ [(r, m)]) b n = stk done b n.
Proof.
  intros done b r m. induction n as [|n IH]; intros H; cbn [stk]; rewrite node_at_below by lia; [reflexivity|]. rewrite IH by lia. reflexivity.
Qed.
Lemma stk_push : forall done b r m n, r_level r = b + Z.of_nat n ->
  stk (done ++ [(r, m)]) b (S n) =
  model_node m :: on_child (node_at (b + Z.of_nat n) done) m :: match n with O => [] | S n' => stk done b n' end.
Proof.
  intros done b r m n H. cbn [stk]. rewrite node_at_snoc.
  destruct (Z.eqb_spec (r_level r) (b + Z.of_nat (S n) - 1)); [|lia]. f_equal.
  assert (N : node_at (b + Z.of_nat n) (done ++ [(r, m)]) = on_child (node_at (b + Z.of_nat n) done) m).
  { rewrite node_at_snoc. destruct (Z.eqb_spec (r_level r) (b + Z.of_nat n - 1)); [lia|]. destruct (Z.eqb_spec (r_level r) (b + Z.of_nat n)); [reflexivity|lia]. }
  destruct n as [|n']; cbn [stk]; rewrite N; [reflexivity|]. rewrite stk_below by lia. reflexivity.
Qed.

Lemma snoc_inj : forall A (l l' : list A) x x', l ++ [x] = l' ++ [x'] -> l = l' /\ x = x'.
Proof. intros. apply app_inj_tail. assumption. Qed.

Definition after_some (done : list (record * model)) (b : Z) (n : nat) : Prop :=
  (exists r m after, done = (r, m) :: after /\ r_level r = b) /\
  (exists before r m, done = before ++ [(r, m)] /\ r_level r + 1 = b + Z.of_nat n) /\ (0 < n)%nat.

(** One record when the level fits: the stack is cut to its parent. *)
Lemma loop_step : forall fuel ver o base done b n r rest j,
  (j <= n)%nat -> r_level r = b + Z.of_nat j ->
  match base with None => r_level r = b /\ n = O | Some b' => b' = b end ->
  parse_models_loop fuel ver base (stk done b n) (r :: rest) o =
  match parse_model fuel ver (node_at (r_level r) done) (r_tagid r) (r_payload r) with
  | None => ([], OutOfFuel)
  | Some (Raise e) => ([], Failed e)
  | Some (Ok m) => gcons (r, m) (parse_models_loop fuel ver (Some b) (stk (done ++ [(r, m)]) b (S j)) rest o)
  end.
Proof.
  intros fuel ver o base done b n r rest j HJ HL HBASE. cbn [parse_models_loop].
  assert (LV : match base with None => 0 | Some b => r_level r - b end = Z.of_nat j).
  { destruct base as [b'|]; [subst; lia|destruct HBASE; lia]. }
  assert (BB : match base with None => r_level r | Some b => b end = b).
  { destruct base as [b'|]; [exact HBASE|destruct HBASE; lia]. }
  rewrite LV, BB. destruct (stk_suffix done b n j HJ) as [pre E]. rewrite E.
  rewrite pop_to_split by (rewrite zlen_stk; lia).
  rewrite check_level_ok by (rewrite zlen_stk; lia).
  assert (S1 : stk done b j = node_at (r_level r) done :: match j with O => [] | S n' => stk done b n' end)
    by (rewrite HL; destruct j; reflexivity).
  rewrite S1. destruct (parse_model fuel ver (node_at (r_level r) done) (r_tagid r) (r_payload r)) as [[m|e]|]; [|reflexivity|reflexivity].
  rewrite (stk_push done b r m j HL), <- HL. reflexivity.
Qed.

Lemma last_level : forall done b n k, after_some done b n -> (too_deep done k <-> b + Z.of_nat n < k).
Proof.
  intros done b n k (_ & (before & r & m & E & L) & _). split.
  - intros (before' & r' & m' & E' & H). rewrite E in E'. apply snoc_inj in E' as [_ X]. injection X as <- <-. lia.
  - intros H. exists before, r, m. split; [exact E|lia].
Qed.
Lemma first_level : forall done b n k, after_some done b n -> (above_first done k <-> k < b).
Proof.
  intros done b n k ((r & m & after & E & L) & _). split.
  - intros (r' & m' & after' & E' & H). rewrite E in E'. injection E' as <- <- <-. lia.
  - intros H. exists r, m, after. split; [exact E|lia].
Qed.

Lemma gcons_pair : forall A (x : A) out o, gcons x (out, o) = (x :: out, o).
Proof. reflexivity. Qed.

Theorem loop_is : forall ver o records done b n, Forall (fun r => all_bytes (r_payload r)) records -> after_some done b n ->
  exists f out o', models_of ver o done records out o' /\
    forall k, parse_models_loop (f + k) ver (Some b) (stk done b n) records o = (out, o').
Proof.
  intros ver o. induction records as [|r rest IH]; intros done b n HB HA.
  - exists O, [], o. split; [constructor|reflexivity].
  - inversion HB as [|? ? B1 B2]; subst.
    destruct (Z_lt_dec (r_level r) b) as [LO|LO].
    { exists O, [], (Failed IndexError). split; [apply mo_above_first; apply (first_level _ _ _ _ HA); exact LO|]. intros k.
      cbn [parse_models_loop]. destruct (Z_lt_dec (r_level r - b + 1) 0) as [X|X].
      - rewrite pop_to_empty by exact X. reflexivity.
      - assert (E : r_level r - b = -1) by lia. rewrite E.
        pose proof (pop_to_split _ (-1) (stk done b n) [] eq_refl) as P. rewrite app_nil_r in P. rewrite P. reflexivity. }
    destruct (Z_lt_dec (b + Z.of_nat n) (r_level r)) as [HI|HI].
    { exists O, [], (Failed InvalidLevel). split; [apply mo_too_deep; apply (last_level _ _ _ _ HA); exact HI|]. intros k.
      cbn [parse_models_loop]. rewrite pop_to_none by (rewrite zlen_stk; lia). unfold check_level. rewrite zlen_stk.
      destruct (Z.ltb_spec (Z.of_nat n + 1) (r_level r - b + 1)); [reflexivity|lia]. }
    assert (FIT : level_fits done (r_level r)).
    { split; intros H; [apply (last_level _ _ _ _ HA) in H|apply (first_level _ _ _ _ HA) in H]; lia. }
    set (j := Z.to_nat (r_level r - b)). assert (J : r_level r = b + Z.of_nat j) by (unfold j; lia).
    assert (JN : (j <= n)%nat) by lia.
    destruct (parse_model_is ver (node_at (r_level r) done) (r_tagid r) (r_payload r) B1) as (f & [m|e] & RD & PM).
    + assert (HA' : after_some (done ++ [(r, m)]) b (S j)).
      { destruct HA as ((r0 & m0 & after & E & L) & _). split; [|split; [|lia]].
        - exists r0, m0, (after ++ [(r, m)]). rewrite E. split; [reflexivity|exact L].
        - exists done, r, m. split; [reflexivity|lia]. }
      destruct (IH (done ++ [(r, m)]) b (S j) B2 HA') as (f2 & out & o' & MO & PL).
      exists (f + f2)%nat, ((r, m) :: out), o'. split; [eapply mo_next; eauto using node_at_parent|]. intros k.
      rewrite (loop_step (f + f2 + k) ver o (Some b) done b n r rest j JN J eq_refl).
      rewrite <- Nat.add_assoc, PM. replace (f + (f2 + k))%nat with (f2 + (f + k))%nat by lia. rewrite PL. reflexivity.
    + exists f, [], (Failed e). split; [eapply mo_fails; eauto using node_at_parent|]. intros k.
      rewrite (loop_step (f + k) ver o (Some b) done b n r rest j JN J eq_refl), PM. reflexivity.
Qed.

Theorem parse_models_is : forall ver records o, Forall (fun r => all_bytes (r_payload r)) records ->
  exists f out o', models_of ver o [] records out o' /\ forall k, parse_models (f + k) ver (records, o) = (out, o').
Proof.
  intros ver records o HB. unfold parse_models. cbn [fst snd]. destruct records as [|r rest].
  - exists O, [], o. split; [constructor|reflexivity].
  - inversion HB as [|? ? B1 B2]; subst.
    assert (FIT : level_fits [] (r_level r)).
    { split; [intros (before & r' & m' & E & _)|intros (r' & m' & after & E & _)]; [destruct before; discriminate|discriminate]. }
    assert (S0 : [root_node] = stk [] (r_level r) 0) by (cbn; unfold node_at; cbn; reflexivity). rewrite S0.
    destruct (parse_model_is ver (node_at (r_level r) []) (r_tagid r) (r_payload r) B1) as (f & [m|e] & RD & PM).
    + destruct (loop_is ver o rest ([] ++ [(r, m)]) (r_level r) 1 B2) as (f2 & out & o' & MO & PL).
      { split; [|split; [|lia]]; [exists r, m, []; split; reflexivity|exists [], r, m; split; [reflexivity|lia]]. }
      exists (f + f2)%nat, ((r, m) :: out), o'. split; [eapply mo_next; eauto using node_at_parent|]. intros k.
      rewrite (loop_step (f + f2 + k) ver o None [] (r_level r) 0 r rest 0 ltac:(lia) ltac:(lia) (conj eq_refl eq_refl)).
      rewrite <- Nat.add_assoc, PM. replace (f + (f2 + k))%nat with (f2 + (f + k))%nat by lia. rewrite PL. reflexivity.
    + exists f, [], (Failed e). split; [eapply mo_fails; eauto using node_at_parent|]. intros k.
      rewrite (loop_step (f + k) ver o None [] (r_level r) 0 r rest 0 ltac:(lia) ltac:(lia) (conj eq_refl eq_refl)), PM. reflexivity.
Qed.

(** The specification leaves no choice. *)
Lemma models_of_fun : forall ver o records done, (forall k, too_deep done k -> above_first done k -> False) ->
  forall out o1 out2 o2, models_of ver o done records out o1 -> models_of ver o done records out2 o2 -> out = out2 /\ o1 = o2.
Proof.
  intros ver o. induction records as [|r rest IH]; intros done NB out o1 out2 o2 H1 H2.
  - inversion H1; inversion H2; subst. split; reflexivity.
  - inversion H1 as [|? ? ? p m u ? F P R M|? ? ? p e F P R|? ? ? D|? ? ? A]; subst;
    inversion H2 as [|? ? ? p2 m2 u2 ? F2 P2 R2 M2|? ? ? p2 e2 F2 P2 R2|? ? ? D2|? ? ? A2]; subst;
      try (exfalso; unfold level_fits in *; tauto); try (exfalso; eapply NB; eassumption); try (split; reflexivity);
      rewrite (parent_of_fun _ _ _ P), (parent_of_fun _ _ _ P2) in *; pose proof (reads_fun _ _ _ _ _ _ R R2) as X; try discriminate.
    + injection X as <-. destruct (IH (done ++ [(r, m)])) with (out := u) (o1 := o1) (out2 := u2) (o2 := o2) as [-> ->]; auto.
      intros k (before & r' & m' & E & D) (r1 & m1 & after & E1 & A). apply snoc_inj in E as [-> E]. injection E as <- <-.
      destruct before as [|[r0 m0] done']; cbn in E1; injection E1 as <- <- _; [lia|].
      apply (proj2 F). exists r0, m0, done'. split; [reflexivity|lia].
    + injection X as <-. split; reflexivity.
Qed.

Lemma nothing_done : forall k, too_deep [] k -> above_first [] k -> False.
Proof. intros k (before & r & m & E & _). destruct before; discriminate. Qed.

(** ** Reading the outcome by position *)
Theorem each_record : forall ver o records done out o', models_of ver o done records out o' ->
  map fst out = firstn (List.length out) records /\
  (forall i r m, nth_error out i = Some (r, m) -> exists parent,
     parent_of (r_level r) (done ++ firstn i out) parent /\ reads ver parent (r_tagid r) (r_payload r) (Ok m)) /\
  (List.length out = List.length records /\ o' = o \/
   exists r e, nth_error records (List.length out) = Some r /\ o' = Failed e /\
     (too_deep (done ++ out) (r_level r) /\ e = InvalidLevel \/ above_first (done ++ out) (r_level r) /\ e = IndexError \/
      exists parent, parent_of (r_level r) (done ++ out) parent /\ reads ver parent (r_tagid r) (r_payload r) (Raise e))).
Proof.
  intros ver o records done out o' H. induction H as [done|done r rest parent m out o' F P R M IH|done r rest parent e F P R|done r rest D|done r rest A].
  - split; [reflexivity|]. split; [intros [|i]; discriminate|left; split; reflexivity].
  - destruct IH as (I1 & I2 & I3). split; [cbn; rewrite I1; reflexivity|]. split.
    + intros [|i] r1 m1 E; cbn in E.
      * injection E as <- <-. exists parent. rewrite app_nil_r. split; assumption.
      * destruct (I2 i r1 m1 E) as (p & P1 & P2). exists p. cbn [firstn]. rewrite <- app_assoc in P1. split; assumption.
    + rewrite <- app_assoc in I3. cbn [app] in I3. destruct I3 as [[L O]|I3]; [left; cbn; split; [congruence|exact O]|right; exact I3].
  - split; [reflexivity|]. split; [intros [|i]; discriminate|]. right. exists r, e. rewrite app_nil_r. repeat split. right; right. eauto.
  - split; [reflexivity|]. split; [intros [|i]; discriminate|]. right. exists r, InvalidLevel. rewrite app_nil_r. repeat split. left. auto.
  - split; [reflexivity|]. split; [intros [|i]; discriminate|]. right. exists r, IndexError. rewrite app_nil_r. repeat split. right; left. auto.
Qed.

(** ** Trees *)
Lemma models_outcome : forall ver records done out o', models_of ver Finished done records out o' -> o' = Finished \/ exists e, o' = Failed e.
Proof. intros ver records done out o' H. induction H; eauto. Qed.

Theorem chain_is : forall ver gs o, Forall (Forall (fun r => all_bytes (r_payload r))) gs ->
  exists f out o', trees_of ver o gs out o' /\ forall k, chain_models (f + k) ver gs o = (out, o').
Proof.
  intros ver gs o. induction gs as [|g gs IH]; intros HB.
  - exists O, [], o. split; [constructor|reflexivity].
  - inversion HB as [|? ? B1 B2]; subst. destruct (parse_models_is ver g Finished B1) as (f & out & o1 & M & P).
    destruct (models_outcome _ _ _ _ _ M) as [->|[e ->]].
    + destruct (IH B2) as (f2 & out2 & o2 & T & C). exists (f + f2)%nat, (out ++ out2), o2. split; [econstructor; eassumption|]. intros k.
      cbn [chain_models]. rewrite <- Nat.add_assoc, P. replace (f + (f2 + k))%nat with (f2 + (f + k))%nat by lia. rewrite C. reflexivity.
    + exists f, out, (Failed e). split; [constructor; exact M|]. intros k. cbn [chain_models]. rewrite P. reflexivity.
Qed.

(** The whole stream at once gives the same. *)
Definition at_root (stack : list node) : Prop := exists pre, stack = pre ++ [root_node].
Lemma fresh_top : forall fuel ver stack rest o, at_root stack ->
  (forall r rs, rest = r :: rs -> r_level r = 0) ->
  parse_models_loop fuel ver (Some 0) stack rest o = parse_models_loop fuel ver None [root_node] rest o.
Proof.
  intros fuel ver stack rest o [pre ->] H. destruct rest as [|r rs]; [reflexivity|]. specialize (H r rs eq_refl).
  cbn [parse_models_loop]. rewrite H. replace (0 - 0) with 0 by lia. rewrite (pop_to_split _ 0 pre [root_node]) by reflexivity.
  change (pop_to 0 [root_node]) with (@nil node, Ok [root_node]). reflexivity.
Qed.

Lemma pop_at_root : forall level (stack s : list node) out, 0 <= level -> at_root stack -> pop_to level stack = (out, Ok s) -> at_root s.
Proof.
  intros level stack. induction stack as [|x r IH]; intros s out HL [pre E] H.
  - destruct pre; discriminate.
  - cbn [pop_to] in H. destruct (_ <? _) eqn:L.
    + apply Z.ltb_lt in L. rewrite zlen_cons in L. destruct r as [|y r']; [rewrite zlen_nil in L; lia|].
      destruct (pop_to level (y :: r')) as [out' [s'|e]] eqn:P; [|discriminate]. injection H as <- <-.
      apply IH with out'; [exact HL| |reflexivity]. destruct pre as [|p pre]; [discriminate|]. injection E as _ E. exists pre. exact E.
    + injection H as <- <-. exists pre. exact E.
Qed.

Lemma on_child_root : forall m, on_child root_node m = root_node. Proof. reflexivity. Qed.

Lemma loop_app : forall fuel ver o rest g base stack out, at_root stack ->
  (forall r rs, rest = r :: rs -> r_level r = 0) ->
  match base with None => g <> [] /\ (forall r rs, g = r :: rs -> r_level r = 0) | Some b => b = 0 end ->
  Forall (fun r => 0 <= r_level r) g ->
  parse_models_loop fuel ver base stack g Finished = (out, Finished) ->
  parse_models_loop fuel ver base stack (g ++ rest) o = gapp out (parse_models_loop fuel ver None [root_node] rest o).
Proof.
  intros fuel ver o rest. induction g as [|r g IH]; intros base stack out HR HREST HBASE HPOS H.
  - cbn in H. injection H as <-. destruct base as [b|]; [subst b|destruct HBASE; contradiction]. cbn [app]. rewrite (fresh_top fuel ver stack rest o HR HREST).
    destruct (parse_models_loop fuel ver None [root_node] rest o). reflexivity.
  - inversion HPOS as [|? ? P1 P2]; subst. cbn [app parse_models_loop] in *.
    assert (BB : match base with None => r_level r | Some b => b end = 0).
    { destruct base as [b|]; [exact HBASE|]. destruct HBASE as [_ X]. exact (X r g eq_refl). }
    assert (LL : 0 <= match base with None => 0 | Some b => r_level r - b end) by (destruct base; [subst|]; lia).
    rewrite BB in *. destruct (pop_to _ stack) as [pout [s|e]] eqn:P; [|discriminate].
    pose proof (pop_at_root _ _ _ _ LL HR P) as HS.
    destruct (check_level _ s) as [e|]; [discriminate|]. destruct s as [|parent above]; [discriminate|].
    destruct (parse_model fuel ver parent (r_tagid r) (r_payload r)) as [[m|e]|]; [|discriminate|discriminate].
    destruct (parse_models_loop fuel ver (Some 0) (model_node m :: on_child parent m :: above) g Finished) as [out1 o1] eqn:Q.
    cbn in H. injection H as <- ->.
    rewrite (IH (Some 0) (model_node m :: on_child parent m :: above) out1); [|  |exact HREST|reflexivity|exact P2|exact Q].
    + destruct (parse_models_loop fuel ver None [root_node] rest o). reflexivity.
    + destruct HS as [pre E]. destruct pre as [|p pre].
      * injection E as -> ->. exists [model_node m]. rewrite on_child_root. reflexivity.
      * injection E as -> ->. exists (model_node m :: on_child p m :: pre). reflexivity.
Qed.

Lemma loop_app_fails : forall fuel ver o rest g base stack out o', o' <> Finished ->
  parse_models_loop fuel ver base stack g Finished = (out, o') ->
  parse_models_loop fuel ver base stack (g ++ rest) o = (out, o').
Proof.
  intros fuel ver o rest. induction g as [|r g IH]; intros base stack out o' NF H.
  - cbn in H. injection H as <- <-. contradiction.
  - cbn [app parse_models_loop] in *. destruct (pop_to _ stack) as [pout [s|e]]; [|exact H].
    destruct (check_level _ s); [exact H|]. destruct s as [|parent above]; [exact H|].
    destruct (parse_model fuel ver parent (r_tagid r) (r_payload r)) as [[m|e]|]; [|exact H|exact H].
    match type of H with gcons _ ?L = _ => destruct L as [out1 o1] eqn:Q end. cbn in H. injection H as <- <-.
    rewrite (IH _ _ _ _ NF Q). reflexivity.
Qed.

Theorem groups_or_all : forall fuel ver gs, Forall (Forall (fun r => 0 <= r_level r)) gs -> Forall (Spec_Record.starts_top r_level) gs ->
  chain_models fuel ver gs Finished = parse_models fuel ver (concat gs, Finished).
Proof.
  intros fuel ver gs. induction gs as [|g gs IH]; intros HP HT; [reflexivity|].
  inversion HP as [|? ? P1 P2]; subst. inversion HT as [|? ? T1 T2]; subst. specialize (IH P2 T2). cbn [chain_models concat].
  unfold parse_models in *. cbn [fst snd] in *. destruct T1 as (x & xs & -> & X0).
  destruct (parse_models_loop fuel ver None [root_node] (x :: xs) Finished) as [out o1] eqn:E.
  destruct (match o1 with Finished => true | _ => false end) eqn:F.
  - destruct o1; try discriminate. rewrite (loop_app fuel ver Finished (concat gs) (x :: xs) None [root_node] out).
    + rewrite IH. reflexivity.
    + exists []. reflexivity.
    + intros r rs EC. destruct gs as [|g2 gs2]; [discriminate|]. inversion T2 as [|? ? U1 _]; subst. destruct U1 as (y & ys & -> & Y0).
      cbn in EC. injection EC as <- _. exact Y0.
    + split; [discriminate|]. intros r rs EQ. injection EQ as <- <-. exact X0.
    + exact P1.
    + exact E.
  - rewrite (loop_app_fails fuel ver Finished (concat gs) (x :: xs) None [root_node] out o1); [destruct o1; [discriminate|reflexivity|reflexivity]| |exact E].
    intros ->. discriminate.
Qed.

(** ** Face names *)
Definition first_of (p : model -> bool) (ms : list (record * model)) : option model := find p (map snd ms).
Lemma find_model_first : forall p ms m, first_of p ms = Some m -> forall o, find_model p ms o = Ok (Some m).
Proof.
  intros p ms m. unfold first_of. induction ms as [|[r x] ms IH]; cbn; [discriminate|]. intros H o. destruct (p x); [congruence|auto].
Qed.

Lemma ztake_nat : forall A (n : nat) (l : list A), ztake (Z.of_nat n) l = firstn n l.
Proof.
  intros A n. induction n as [|n IH]; intros l; [destruct l; reflexivity|]. destruct l as [|x l]; [reflexivity|].
  cbn [ztake firstn]. destruct (Z.leb_spec (Z.of_nat (S n)) 0); [lia|]. replace (Z.of_nat (S n) - 1) with (Z.of_nat n) by lia. rewrite IH. reflexivity.
Qed.
Lemma zdrop_nat : forall A (n : nat) (l : list A), zdrop (Z.of_nat n) l = skipn n l.
Proof.
  intros A n. induction n as [|n IH]; intros l; [destruct l; reflexivity|]. destruct l as [|x l]; [reflexivity|].
  cbn [zdrop skipn]. destruct (Z.leb_spec (Z.of_nat (S n)) 0); [lia|]. replace (Z.of_nat (S n) - 1) with (Z.of_nat n) by lia. apply IH.
Qed.

Lemma skipn_add : forall A (a b : nat) (l : list A), skipn b (skipn a l) = skipn (a + b) l.
Proof. intros A a. induction a as [|a IH]; intros b l; [reflexivity|]. destruct l as [|x l]; [destruct b; reflexivity|]. cbn. apply IH. Qed.

Lemma pyslice_nat : forall A (a n : nat) (l : list A), pyslice (Z.of_nat a) (Z.of_nat a + Z.of_nat n) l = firstn n (skipn a l).
Proof. intros A a n l. unfold pyslice. replace (Z.of_nat a + Z.of_nat n - Z.of_nat a) with (Z.of_nat n) by lia. rewrite zdrop_nat, ztake_nat. reflexivity. Qed.

Theorem facenames_are : forall ms m counts, snd ms = Finished -> first_of (fun m => String.eqb (m_type m) "IdMappings") (fst ms) = Some m ->
  declares m counts -> facenames_by_lang ms = Ok (combine languages (blocks counts (of_type "FaceName" (fst ms)))).
Proof.
  intros ms m counts HO HI HD. unfold facenames_by_lang. rewrite HO.
  assert (IM : idmappings ms = Ok (Some m)) by (apply find_model_first; exact HI). rewrite IM. cbn [bind].
  unfold declares, languages in HD.
  repeat match goal with H : Forall2 _ (_ :: _) _ |- _ => inversion H; clear H; subst end.
  match goal with H : Forall2 _ [] _ |- _ => inversion H; clear H; subst end.
  repeat match goal with H : dict_get _ (m_content m) = _ |- _ => rewrite H; clear H; cbn [int_of_value bind] end.
  set (F := of_type "FaceName" (fst ms)). change (filter (fun m0 : model => m_type m0 =? "FaceName")%string (map snd (fst ms))) with F.
  unfold languages. cbn [blocks combine dict_set String.eqb Ascii.eqb Bool.eqb]. rewrite !skipn_add.
  rewrite <- ?Nat2Z.inj_add. change 0 with (Z.of_nat 0).
  rewrite <- ?Nat2Z.inj_add. cbn [Nat.add].
  change (firstn y F) with (firstn y (skipn 0 F)). rewrite <- !pyslice_nat. rewrite ?Nat2Z.inj_add. cbn [Z.of_nat]. rewrite ?Z.add_0_l. reflexivity.
Qed.

Lemma blocks_concat : forall A counts (l : list A), concat (blocks counts l) = firstn (sum counts) l.
Proof.
  intros A. induction counts as [|n r IH]; intros l; [reflexivity|]. cbn [blocks concat sum]. rewrite IH.
  rewrite <- (firstn_skipn n l) at 3. rewrite firstn_app. rewrite firstn_firstn, Nat.min_r by lia.
  rewrite firstn_length. f_equal. destruct (Nat.le_gt_cases n (List.length l)) as [H|H].
  - rewrite Nat.min_l by lia. f_equal. lia.
  - rewrite (skipn_all2 l) by lia. rewrite !firstn_nil. reflexivity.
Qed.
Lemma blocks_nth : forall A counts (l : list A) i n, nth_error counts i = Some n ->
  nth_error (blocks counts l) i = Some (firstn n (skipn (sum (firstn i counts)) l)).
Proof.
  intros A. induction counts as [|c r IH]; intros l i n H; [destruct i; discriminate|]. destruct i as [|i]; cbn in *.
  - injection H as ->. reflexivity.
  - rewrite (IH _ _ _ H), skipn_add. reflexivity.
Qed.

Lemma znth_nth : forall A (l : list A) n, 0 <= n -> znth n l = nth_error l (Z.to_nat n).
Proof.
  intros A l. induction l as [|x l IH]; intros n H; [cbn; destruct (Z.to_nat n); reflexivity|].
  cbn [znth]. destruct (Z.eqb_spec n 0) as [->|NE]; [reflexivity|].
  destruct (Z.leb_spec n 0); [lia|]. replace (Z.to_nat n) with (S (Z.to_nat (n - 1))) by lia. cbn. apply IH. lia.
Qed.
Lemma nth_error_firstn : forall A (l : list A) i n, nth_error (firstn n l) i = if Nat.ltb i n then nth_error l i else None.
Proof.
  intros A l. induction l as [|x l IH]; intros i n.
  - rewrite firstn_nil. destruct (Nat.ltb i n); [reflexivity|]. destruct i; reflexivity.
  - destruct n as [|n]; [destruct i; reflexivity|]. destruct i as [|i]; [reflexivity|]. cbn [firstn nth_error]. rewrite IH. reflexivity.
Qed.
Lemma nth_error_skipn : forall A (l : list A) a i, nth_error (skipn a l) i = nth_error l (a + i)%nat.
Proof. intros A l. induction l as [|x l IH]; intros a i; destruct a as [|a]; cbn; [reflexivity|destruct i; reflexivity|reflexivity|apply IH]. Qed.

Lemma dict_get_combine : forall V (ks : list string) (vs : list V) j k v, NoDup ks -> nth_error ks j = Some k -> nth_error vs j = Some v ->
  dict_get k (combine ks vs) = Some v.
Proof.
  intros V ks. induction ks as [|k0 ks IH]; intros vs j k v HN HK HV; [destruct j; discriminate|].
  destruct vs as [|v0 vs]; [destruct j; discriminate|]. inversion HN as [|? ? N1 N2]; subst. cbn [combine dict_get].
  destruct j as [|j]; cbn in HK, HV.
  - injection HK as ->. injection HV as ->. rewrite String.eqb_refl. reflexivity.
  - destruct (String.eqb_spec k k0) as [->|]; [exfalso; apply N1; eapply nth_error_In; eassumption|]. eapply IH; eassumption.
Qed.

Theorem face_of_charshape : forall ms m counts cs faces id lang j n i,
  snd ms = Finished ->
  find (fun m => String.eqb (m_type m) "IdMappings") (map snd (fst ms)) = Some m -> declares m counts ->
  nth_error (of_type "CharShape" (fst ms)) id = Some cs ->
  dict_get "font_face" (m_content cs) = Some (VDict faces) -> dict_get lang faces = Some (VInt (Z.of_nat i)) ->
  nth_error languages j = Some lang -> nth_error counts j = Some n ->
  charshape_lang_facename ms id lang =
    match (if Nat.ltb i n then nth_error (of_type "FaceName" (fst ms)) (sum (firstn j counts) + i)%nat else None) with
    | Some f => Ok f
    | None => Raise IndexError
    end.
Proof.
  intros ms m counts cs faces id lang j n i HO HI HD HC HF HL HJ HN.
  unfold charshape_lang_facename, get_charshape. fold (of_type "CharShape" (fst ms)). rewrite HC. cbn [bind].
  rewrite HF, HL, (facenames_are ms m counts HO HI HD). cbn [bind].
  rewrite (dict_get_combine _ languages _ j lang (firstn n (skipn (sum (firstn j counts)) (of_type "FaceName" (fst ms))))).
  - cbn [int_of_value bind]. unfold pyindex. destruct (Z.ltb_spec (Z.of_nat i) 0); [lia|].
    rewrite znth_nth, Nat2Z.id, nth_error_firstn, nth_error_skipn by lia. reflexivity.
  - repeat (constructor; [cbn; intuition discriminate|]). constructor.
  - exact HJ.
  - apply blocks_nth. exact HN.
Qed.

Theorem grouping_irrelevant : forall fuel version records,
  Forall (fun r => 0 <= r_level r) records ->
  (forall r rest, records = r :: rest -> r_level r = 0) ->
  stream_models fuel version (records, Finished) = parse_models fuel version (records, Finished).
Proof.
  intros fuel v rs HP H0. destruct (group_by_toplevel r_level (rs, Finished)) as [gs o] eqn:E.
  assert (o = Finished) as ->.
  { destruct rs as [|r t]; [inversion E; reflexivity|]. unfold group_by_toplevel in E. cbn [fst snd] in E.
    destruct (Proof_Record.group_loop_spec _ r_level (S (List.length t)) r t ltac:(lia)) as (gs' & E' & _).
    rewrite E' in E. inversion E. reflexivity. }
  pose proof (proj1 (Proof_Record.grouping_correct _ r_level rs gs) E) as (HC & HB & HT).
  unfold stream_models. rewrite E. cbn [fst snd]. rewrite <- HC. apply groups_or_all.
  - rewrite <- HC in HP. clear -HP. induction gs as [|g gs IH]; constructor.
    + apply Forall_forall. intros x Hx. rewrite Forall_forall in HP. apply HP. cbn. apply in_or_app. left. exact Hx.
    + apply IH. apply Forall_forall. intros x Hx. rewrite Forall_forall in HP. apply HP. cbn. apply in_or_app. right. exact Hx.
  - destruct gs as [|g gs]; [constructor|]. constructor; [|exact HT].
    inversion HB as [|? ? (x & xs & -> & _) _]; subst. exists x, xs. split; [reflexivity|]. eapply H0. cbn. reflexivity.
Qed.
