(** The caches of compiled layouts, and reads one after another. *)
From Coq Require Import ZArith String List Bool Lia.
From Verif Require Import Base Model_Text Model_Dataio Model_ParaText Model_Bintype Model_Heap Spec_Text Spec_Dataio Spec_ParaText Spec_Bintype
  Spec_Heap Proof_Bintype Proof_Bintype2 Proof_Heap.
Import ListNotations.
Open Scope Z_scope.

Section P.
Variable Ctx : Type.
Notation ty := (Model_Bintype.ty Ctx).
Notation attrs := (Model_Bintype.attrs Ctx).
Notation item := (Model_Bintype.item Ctx).
Notation bev := (Model_Bintype.bev Ctx).
Notation oev := (Model_Bintype.oev Ctx).
Notation heap := (Model_Heap.heap Ctx).
Notation hget := (Model_Heap.hget Ctx).
Notation content := (Model_Heap.content Ctx).
Notation o_ty := (Model_Heap.o_ty Ctx).
Notation o_attrs := (Model_Heap.o_attrs Ctx).
Notation BStart := (Model_Bintype.BStart Ctx).
Notation BEnd := (Model_Bintype.BEnd Ctx).
Notation BLeaf := (Model_Bintype.BLeaf Ctx).
Notation static_of := (Model_Heap.static_of Ctx).
Notation seg := (seg Ctx).
Notation leafy := (leafy Ctx).

(** ** Events in which every END is for the START it closes *)
Inductive wfb : list item -> list bev -> Prop :=
| wfb_nil : wfb [] []
| wfb_leaf : forall o i b, leafy (snd i) = true -> wfb o b -> wfb o (BLeaf i :: b)
| wfb_start : forall o i b, leafy (snd i) = false -> wfb (@cons item i o) b -> wfb o (BStart i :: b)
| wfb_end : forall o i b, wfb o b -> wfb (@cons item i o) (BEnd i :: b).

Definition brackets (l : list bev) : Prop := forall o b, wfb o b -> wfb o (l ++ b).
Lemma brackets_nil : brackets [].
Proof. intros o b H. exact H. Qed.
Lemma brackets_app : forall l m, brackets l -> brackets m -> brackets (l ++ m).
Proof. intros l m L M o b H. rewrite <- app_assoc. apply L, M, H. Qed.
Lemma brackets_leaf : forall i, leafy (snd i) = true -> brackets [BLeaf i].
Proof. intros i L o b H. apply wfb_leaf; assumption. Qed.
Lemma brackets_wrap : forall i l, leafy (snd i) = false -> brackets l -> brackets (BStart i :: l ++ [BEnd i]).
Proof. intros i l L B o b H. cbn. apply wfb_start; [exact L|]. rewrite <- app_assoc. apply B. apply wfb_end. exact H. Qed.

#[local] Hint Rewrite ve_prim ve_flags ve_struct ve_fixed ve_var ve_x ve_sel vm_nil vm_cons va_nil va_cons : evs.

Lemma visible_brackets : forall ver,
  (forall t a, brackets (visible_events Ctx ver a t)) /\
  (forall ms, brackets (visible_members Ctx ver ms)) /\
  (forall l a, brackets (visible_alts Ctx ver a l)).
Proof.
  intros ver. apply ty_members_alts_ind; intros; autorewrite with evs;
    auto using brackets_leaf, brackets_nil, brackets_wrap, brackets_app.
  apply brackets_app; [|assumption]. destruct (visible ver version); auto using brackets_nil.
Qed.

Lemma typedef_wfb : forall t ver, wfb [] (get_typedef Ctx t ver).
Proof.
  intros t ver. rewrite get_typedef_visible. rewrite <- (app_nil_r (visible_events _ _ _ _)). apply (proj1 (visible_brackets ver)). constructor.
Qed.

(** ** Compiled layouts *)
Lemma freeze_is : forall {X} (look : X -> item) o b, wfb o b -> forall evs, map (fun e => (fst e, look (snd e))) evs = map static_of b ->
  freeze Ctx look o evs = Ok (map static_of b).
Proof.
  intros X look o b W. induction W as [|o i b L W IH|o i b L W IH|o i b W IH]; intros evs E.
  - destruct evs; [reflexivity|discriminate].
  - destruct evs as [|[k x] evs]; [discriminate|]. cbn in E. injection E as -> Ex E. subst i. change (map static_of (BLeaf (look x) :: b)) with ((KLeaf, look x) :: map static_of b). cbn [freeze]. rewrite (IH evs E). reflexivity.
  - destruct evs as [|[k x] evs]; [discriminate|]. cbn in E. injection E as -> Ex E. subst i. change (map static_of (BStart (look x) :: b)) with ((KStart, look x) :: map static_of b). cbn [freeze]. rewrite (IH evs E). reflexivity.
  - destruct evs as [|[k x] evs]; [discriminate|]. cbn in E. injection E as -> _ E. cbn [freeze]. rewrite (IH evs E). reflexivity.
Qed.

Definition deref (h : heap) (e : hev) : static Ctx := (fst e, content h (snd e)).

Lemma thaw_is : forall o b, wfb o b -> forall h stk, Forall2 (fun i a => content h a = i /\ (a < List.length h)%nat) o stk ->
  exists new l, copy Ctx (fun _ i => fresh Ctx i) h stk (map static_of b) = Ok (h ++ new, l) /\ seg (h ++ new) stk l b [] /\
    heads l = seq (List.length h) (List.length new) /\ map (deref (h ++ new)) l = map static_of b.
Proof.
  intros o b W. induction W as [|o i b L W IH|o i b L W IH|o i b W IH]; intros h stk F; cbn [map static_of copy].
  - inversion F; subst. exists [], []. rewrite app_nil_r. repeat split. constructor.
  - destruct (IH (h ++ [fresh Ctx i]) stk) as (new & l & C & D & Hd & M).
    { eapply Forall2_impl_In; [exact F|]. intros j a _ [Q R]. unfold Model_Heap.content in *. rewrite hget_app by exact R. rewrite app_length. split; [exact Q|lia]. }
    exists (fresh Ctx i :: new), ((KLeaf, List.length h) :: l). rewrite C. cbn [bind]. rewrite <- app_assoc in *. cbn [app] in *.
    assert (Ci : content (h ++ fresh Ctx i :: new) (List.length h) = i) by (rewrite content_new; destruct i; reflexivity).
    split; [reflexivity|]. split; [apply seg_leaf; assumption|]. split.
    + transitivity (List.length h :: heads l); [reflexivity|]. rewrite Hd, app_length. cbn [List.length seq]. rewrite Nat.add_1_r. reflexivity.
    + cbn [map]. rewrite M. unfold deref. cbn [fst snd]. rewrite Ci. reflexivity.
  - destruct (IH (h ++ [fresh Ctx i]) (List.length h :: stk)) as (new & l & C & D & Hd & M).
    { constructor.
      - rewrite content_new, app_length. cbn. split; [destruct i; reflexivity|lia].
      - eapply Forall2_impl_In; [exact F|]. intros j a _ [Q R]. unfold Model_Heap.content in *. rewrite hget_app by exact R. rewrite app_length. split; [exact Q|lia]. }
    exists (fresh Ctx i :: new), ((KStart, List.length h) :: l). rewrite C. cbn [bind]. rewrite <- app_assoc in *. cbn [app] in *.
    assert (Ci : content (h ++ fresh Ctx i :: new) (List.length h) = i) by (rewrite content_new; destruct i; reflexivity).
    split; [reflexivity|]. split; [apply seg_start; assumption|]. split.
    + transitivity (List.length h :: heads l); [reflexivity|]. rewrite Hd, app_length. cbn [List.length seq]. rewrite Nat.add_1_r. reflexivity.
    + cbn [map]. rewrite M. unfold deref. cbn [fst snd]. rewrite Ci. reflexivity.
  - inversion F as [|? a ? stk' [Q R] F']; subst. destruct (IH h stk' F') as (new & l & C & D & Hd & M).
    exists new, ((KEnd, a) :: l). rewrite C. cbn [bind].
    assert (Ci : content (h ++ new) a = content h a) by (unfold Model_Heap.content; rewrite hget_app by exact R; reflexivity).
    split; [reflexivity|]. split; [|split; [exact Hd|]].
    + apply seg_end; [|exact D]. rewrite hget_app by exact R. reflexivity.
    + cbn [map]. rewrite M. unfold deref. cbn [fst snd]. rewrite Ci. reflexivity.
Qed.

Lemma pop_deref : forall h b l n, map (deref h) l = map static_of b ->
  map (deref h) (snd (hpop n l)) = map static_of (snd (pop_subevents_loop Ctx n b)).
Proof.
  induction b as [|e b IH]; intros l n E; (destruct l as [|[k a] l]; [try reflexivity; discriminate|]); [discriminate|].
  cbn [map] in E. destruct e as [i|i|i]; cbn in E; injection E as -> E1 E; cbn [hpop pop_subevents_loop].
  - specialize (IH l (n + 1) E). destruct (hpop (n + 1) l), (pop_subevents_loop Ctx (n + 1) b). exact IH.
  - destruct (0 <? n); [|exact E]. specialize (IH l (n - 1) E). destruct (hpop (n - 1) l), (pop_subevents_loop Ctx (n - 1) b). exact IH.
  - specialize (IH l n E). destruct (hpop n l), (pop_subevents_loop Ctx n b). exact IH.
Qed.

Lemma filter_deref : forall h v fuel b l, map (deref h) l = map static_of b ->
  map (deref h) (hfilter Ctx fuel h l v) = map static_of (fst (filter_loop Ctx fuel b v)).
Proof.
  intros h v. induction fuel as [|fuel IH]; intros b l E.
  - destruct l as [|[k a] l], b as [|e b]; reflexivity.
  - destruct l as [|[k a] l], b as [|e b]; try discriminate; [reflexivity|]. cbn [map] in E. injection E as Ek Er.
    cbn [hfilter filter_loop].
    assert (Av : o_attrs (hget h a) = fst (bev_item Ctx e)).
    { unfold deref in Ek. cbn [fst snd] in Ek. destruct e; cbn in Ek; injection Ek as _ Ek; rewrite <- Ek; reflexivity. }
    assert (Cons : forall g, map (deref h) ((k, a) :: g) = static_of e :: map (deref h) g) by (intros; cbn [map]; rewrite <- Ek; reflexivity).
    rewrite Av. destruct (a_version Ctx (fst (bev_item Ctx e))) as [req|].
    + destruct (version_lt v req).
      * destruct e; cbn in Ek; unfold deref in Ek; cbn in Ek; injection Ek as -> _; cbn [fst]; apply IH; try exact Er. apply pop_deref. exact Er.
      * rewrite Cons, (IH b l Er). destruct (filter_loop Ctx fuel b v). reflexivity.
    + rewrite Cons, (IH b l Er). destruct (filter_loop Ctx fuel b v). reflexivity.
Qed.

Section C.
Variable classes : nat -> ty.
Notation interp := (Model_Heap.interp Ctx).

Lemma version_eqb_spec : forall a b, version_eqb a b = true <-> a = b.
Proof.
  induction a as [|x a IH]; intros [|y b]; cbn; split; intros H; try discriminate; try reflexivity.
  - apply andb_true_iff in H. destruct H as [H1 H2]. apply Z.eqb_eq in H1. apply IH in H2. congruence.
  - injection H as -> ->. rewrite Z.eqb_refl. apply IH. reflexivity.
Qed.
Lemma assoc_put : forall {K V} (eqb : K -> K -> bool), (forall a b, eqb a b = true <-> a = b) -> forall k (v : V) l k',
  assoc eqb k' (assoc_set eqb k v l) = if eqb k' k then Some v else assoc eqb k' l.
Proof.
  intros K V eqb Sp k v l k'. induction l as [|[x y] l IH]; cbn [assoc_set assoc].
  - reflexivity.
  - destruct (eqb k x) eqn:E; cbn [assoc].
    + apply Sp in E. subst x. destruct (eqb k' k); reflexivity.
    + rewrite IH. destruct (eqb k' x) eqn:E1; [|reflexivity]. destruct (eqb k' k) eqn:E2; [|reflexivity].
      apply Sp in E1. apply Sp in E2. subst. assert (eqb x x = true) by (apply Sp; reflexivity). congruence.
Qed.

Definition cached (st : interp) : Prop :=
  (forall id evs, assoc Nat.eqb id (in_master Ctx st) = Some evs -> evs = map static_of (get_typedef Ctx (classes id) None)) /\
  (forall v d, assoc version_eqb v (in_versioned Ctx st) = Some d ->
     forall id evs, assoc Nat.eqb id d = Some evs -> evs = map static_of (get_typedef Ctx (classes id) (Some v))).

Lemma compiled_is : forall st id, cached st -> exists st',
  compiled Ctx classes st id = (st', Ok (map static_of (get_typedef Ctx (classes id) None))) /\ cached st' /\
  in_heap Ctx st' = in_heap Ctx st /\ in_versioned Ctx st' = in_versioned Ctx st.
Proof.
  intros st id [M V]. unfold compiled. destruct (assoc Nat.eqb id (in_master Ctx st)) as [evs|] eqn:E.
  - exists st. rewrite (M id evs E). repeat split; assumption.
  - unfold compile. change (map_events Ctx (no_attrs Ctx) (classes id)) with (get_typedef Ctx (classes id) None).
    rewrite (freeze_is (fun i => i) [] (get_typedef Ctx (classes id) None)).
    2: apply typedef_wfb.
    2: { rewrite <- map_id. apply map_ext. intros [k i]. reflexivity. }
    eexists. split; [reflexivity|]. split; [|split; reflexivity]. split; cbn [in_master in_versioned]; [|exact V].
    intros id' evs Q. rewrite (assoc_put Nat.eqb Nat.eqb_eq) in Q. destruct (Nat.eqb id' id) eqn:E'; [|exact (M id' evs Q)].
    apply Nat.eqb_eq in E'. subst id'. injection Q as <-. reflexivity.
Qed.

Lemma compiled_with_version_is : forall st id v, cached st -> exists st' new,
  compiled_with_version Ctx classes st id v = (st', Ok (map static_of (get_typedef Ctx (classes id) (Some v)))) /\ cached st' /\
  in_heap Ctx st' = in_heap Ctx st ++ new.
Proof.
  intros st id v [M V]. unfold compiled_with_version.
  set (td := match assoc version_eqb v (in_versioned Ctx st) with Some d => d | None => [] end).
  assert (Td : forall i evs, assoc Nat.eqb i td = Some evs -> evs = map static_of (get_typedef Ctx (classes i) (Some v))).
  { intros i evs. unfold td. destruct (assoc version_eqb v (in_versioned Ctx st)) as [d|] eqn:E; [apply (V v d E)|discriminate]. }
  set (st0 := mkInterp Ctx (in_heap Ctx st) (in_master Ctx st) (assoc_set version_eqb v td (in_versioned Ctx st))).
  assert (C0 : cached st0).
  { split; [exact M|]. cbn [in_versioned st0]. intros v' d Q. rewrite (assoc_put version_eqb version_eqb_spec) in Q.
    destruct (version_eqb v' v) eqn:E; [|exact (V v' d Q)]. apply version_eqb_spec in E. subst v'. injection Q as <-. exact Td. }
  destruct (assoc Nat.eqb id td) as [evs|] eqn:E.
  - exists st0, []. rewrite (Td id evs E). rewrite app_nil_r. repeat split; apply C0.
  - destruct (compiled_is st0 id C0) as (st1 & Ec & C1 & H1 & V1). rewrite Ec. unfold thaw.
    destruct (thaw_is [] (get_typedef Ctx (classes id) None) (typedef_wfb _ _) (in_heap Ctx st1) [] (Forall2_nil _)) as (new & l & Et & Sg & Hd & Dr).
    rewrite Et.
    assert (Len : List.length l = List.length (get_typedef Ctx (classes id) None)).
    { rewrite <- (map_length (deref (in_heap Ctx st1 ++ new)) l), Dr. apply map_length. }
    pose proof (filter_deref (in_heap Ctx st1 ++ new) v (List.length l) _ l Dr) as Fd.
    replace (fst (filter_loop Ctx (List.length l) (get_typedef Ctx (classes id) None) v)) with (get_typedef Ctx (classes id) (Some v)) in Fd
      by (rewrite Len; reflexivity).
    rewrite (freeze_is (content (in_heap Ctx st1 ++ new)) [] _ (typedef_wfb (classes id) (Some v)) _ Fd).
    exists (mkInterp Ctx (in_heap Ctx st1 ++ new) (in_master Ctx st1)
      (assoc_set version_eqb v (assoc_set Nat.eqb id (map static_of (get_typedef Ctx (classes id) (Some v))) td) (in_versioned Ctx st1))), new.
    split; [reflexivity|]. split; [|cbn [in_heap]; rewrite H1; reflexivity]. destruct C1 as [M1 V1']. split; [exact M1|].
    cbn [in_versioned]. intros v' d Q. rewrite (assoc_put version_eqb version_eqb_spec) in Q.
    destruct (version_eqb v' v) eqn:E'; [|exact (V1' v' d Q)]. apply version_eqb_spec in E'. subst v'. injection Q as <-.
    intros id' evs Q. rewrite (assoc_put Nat.eqb Nat.eqb_eq) in Q. destruct (Nat.eqb id' id) eqn:E''; [|exact (Td id' evs Q)].
    apply Nat.eqb_eq in E''. subst id'. injection Q as <-. reflexivity.
Qed.

(** ** A read *)
Lemma reads : forall st q, cached st ->
  let st' := fst (read_events Ctx classes st q) in
  let ans := snd (read_events Ctx classes st q) in
  let '(out, strm, o) := read_type_events Ctx (c_fuel Ctx q) (classes (c_class Ctx q)) (c_ctx Ctx q) (c_version Ctx q) (c_stream Ctx q) in
  cached st' /\ (List.length (in_heap Ctx st) <= List.length (in_heap Ctx st'))%nat /\
  (forall a, (a < List.length (in_heap Ctx st))%nat -> hget (in_heap Ctx st') a = hget (in_heap Ctx st) a) /\
  (forall k a, In (k, a) (ans_out ans) -> (a < List.length (in_heap Ctx st'))%nat) /\
  told Ctx st' ans = (map Some out, strm, o).
Proof.
  intros st q Cd. cbv zeta. unfold read_type_events.
  set (b := get_typedef Ctx (classes (c_class Ctx q)) (c_version Ctx q)).
  assert (G : exists st1 new0, match c_version Ctx q with Some v => compiled_with_version Ctx classes st (c_class Ctx q) v | None => compiled Ctx classes st (c_class Ctx q) end
      = (st1, Ok (map static_of b)) /\ cached st1 /\ in_heap Ctx st1 = in_heap Ctx st ++ new0).
  { unfold b. destruct (c_version Ctx q) as [v|].
    - apply compiled_with_version_is. exact Cd.
    - destruct (compiled_is st (c_class Ctx q) Cd) as (st1 & E & C & H & _). exists st1, []. rewrite app_nil_r. repeat split; try assumption; apply C. }
  destruct G as (st1 & new0 & E & C1 & H1). unfold read_events. rewrite E. unfold thaw.
  destruct (thaw_is [] b (typedef_wfb _ _) (in_heap Ctx st1) [] (Forall2_nil _)) as (new & l & Et & Sg & Hd & _).
  rewrite Et.
  destruct (clone_seg Ctx (in_heap Ctx st1 ++ new) l b Sg) with (x := @nil (Model_Heap.obj Ctx)) as (new2 & l2 & Ec & Sg2 & Hd2).
  { intros a A. rewrite Hd in A. apply in_seq in A. rewrite app_length. lia. }
  rewrite app_nil_r in *. rewrite Ec. set (h2 := (in_heap Ctx st1 ++ new) ++ new2) in *. set (base := List.length (in_heap Ctx st1 ++ new)) in *.
  assert (L2 : List.length h2 = (base + List.length new2)%nat) by (unfold h2, base; rewrite !app_length; lia).
  assert (I : Inv Ctx base h2 [] (mkH Ctx h2 l2 [] [] [] (c_stream Ctx q) []) (mkState Ctx b [] [] (c_stream Ctx q) [])).
  { assert (Rg0 : forall a, In a (heads l2 ++ []) -> (base <= a < List.length h2)%nat).
    { intros a A. rewrite app_nil_r, Hd2 in A. apply in_seq in A. lia. }
    split; cbn [h_heap h_events h_stack h_selects h_values h_stream h_out st_events st_stack st_select st_stream st_out]; try reflexivity; try exact Sg2; try exact Rg0; try (constructor; fail).
    - rewrite app_nil_r, Hd2. apply seq_NoDup.
    - intros k a [].
    - lia. }
  pose proof (runs Ctx (c_fuel Ctx q) base h2 [] (c_ctx Ctx q) _ _ I) as R.
  destruct (hrun Ctx (c_fuel Ctx q) (c_ctx Ctx q) (mkH Ctx h2 l2 [] [] [] (c_stream Ctx q) [])) as [[[h3 out] strm] o].
  destruct (run Ctx (c_fuel Ctx q) (c_ctx Ctx q) (mkState Ctx b [] [] (c_stream Ctx q) [])) as [[out' strm'] o'].
  destruct R as (-> & -> & V & Old & Lb & Rg). cbn [fst snd in_heap ans_out].
  assert (Le : (List.length (in_heap Ctx st) <= base)%nat) by (unfold base; rewrite H1, !app_length; lia).
  split; [exact C1|]. split; [lia|]. split; [|split].
  - intros a A. rewrite Old by lia. unfold h2. rewrite H1. rewrite <- !app_assoc. rewrite hget_app by exact A. reflexivity.
  - intros k a A. apply Rg in A. lia.
  - unfold told. cbn [in_heap ans_out ans_stream ans_outcome]. rewrite V. reflexivity.
Qed.

Lemma started_cached : cached (started Ctx).
Proof. split; intros; discriminate. Qed.

Lemma after_cached : forall history st, cached st ->
  cached (after Ctx classes st history) /\
  (List.length (in_heap Ctx st) <= List.length (in_heap Ctx (after Ctx classes st history)))%nat /\
  (forall a, (a < List.length (in_heap Ctx st))%nat -> hget (in_heap Ctx (after Ctx classes st history)) a = hget (in_heap Ctx st) a).
Proof.
  induction history as [|q rest IH]; intros st C; cbn [after]; [repeat split; try lia; apply C|].
  pose proof (reads st q C) as R. cbv zeta in R.
  destruct (read_type_events Ctx (c_fuel Ctx q) (classes (c_class Ctx q)) (c_ctx Ctx q) (c_version Ctx q) (c_stream Ctx q)) as [[out strm] o].
  destruct R as (C' & L & K & _ & _). destruct (IH _ C') as (C2 & L2 & K2). split; [exact C2|]. split; [lia|].
  intros a A. rewrite K2 by lia. apply K, A.
Qed.

Theorem any_history : forall history q,
  told_now Ctx classes (after Ctx classes (started Ctx) history) q =
  (let '(out, strm, o) := read_type_events Ctx (c_fuel Ctx q) (classes (c_class Ctx q)) (c_ctx Ctx q) (c_version Ctx q) (c_stream Ctx q) in
   (map Some out, strm, o)).
Proof.
  intros history q. destruct (after_cached history (started Ctx) started_cached) as (C & _ & _).
  pose proof (reads _ q C) as R. cbv zeta in R. unfold told_now.
  destruct (read_type_events Ctx (c_fuel Ctx q) (classes (c_class Ctx q)) (c_ctx Ctx q) (c_version Ctx q) (c_stream Ctx q)) as [[out strm] o].
  apply R.
Qed.

Theorem earlier_kept : forall history q later,
  let st := after Ctx classes (started Ctx) history in
  told Ctx (after Ctx classes st (q :: later)) (snd (read_events Ctx classes st q)) = told_now Ctx classes st q.
Proof.
  intros history q later st. destruct (after_cached history (started Ctx) started_cached) as (C & _ & _). fold st in C.
  pose proof (reads st q C) as R. cbv zeta in R.
  destruct (read_type_events Ctx (c_fuel Ctx q) (classes (c_class Ctx q)) (c_ctx Ctx q) (c_version Ctx q) (c_stream Ctx q)) as [[out strm] o].
  destruct R as (C' & _ & _ & B & _). cbn [after]. destruct (after_cached later _ C') as (_ & _ & K).
  unfold told_now, told. f_equal. f_equal. apply map_ext_in. intros [k a] A. unfold view. cbn [fst snd]. rewrite (K a (B k a A)). reflexivity.
Qed.

(** ** The value of a read *)
Lemma view_value : forall h k a e v, view Ctx h (k, a) = Some e -> oev_value Ctx e = Some v -> Model_Heap.o_value Ctx (hget h a) = Some v.
Proof.
  intros h k a e v V O. unfold view in V. cbn [fst snd] in V.
  destruct k; destruct (o_offset Ctx (hget h a)); destruct (Model_Heap.o_value Ctx (hget h a)); destruct (o_exn Ctx (hget h a));
    try discriminate; injection V as <-; cbn in O; congruence.
Qed.

Theorem any_history_value : forall history q t, classes (c_class Ctx q) = t -> wf Ctx t -> sane Ctx t -> all_bytes (s_rest (c_stream Ctx q)) ->
  exists n, forall k, c_fuel Ctx q = (n + k)%nat ->
  let st := after Ctx classes (started Ctx) history in
  match rd Ctx (c_ctx Ctx q) (c_version Ctx q) None None None t (c_stream Ctx q) with
  | (tr, s', Some (Ok (Some v))) =>
      told_now Ctx classes st q = (map Some tr, s', Finished) /\ snd (read_value Ctx classes st q) = Some (Ok v)
  | (tr, s', Some (Raise e)) =>
      told_now Ctx classes st q = (map Some tr, s', Failed e) /\ snd (read_value Ctx classes st q) = Some (Raise e)
  | _ => False
  end.
Proof.
  intros history q t Et W Sn B. destruct (read_type_is Ctx (c_ctx Ctx q) (c_version Ctx q) t (c_stream Ctx q) W B Sn) as [n Hn].
  exists n. intros k Fk. cbv zeta. specialize (Hn k). pose proof (any_history history q) as A. rewrite Et, Fk in A.
  set (st := after Ctx classes (started Ctx) history) in *.
  destruct (rd Ctx (c_ctx Ctx q) (c_version Ctx q) None None None t (c_stream Ctx q)) as [[tr s'] [[[v|]|e]|]]; try contradiction.
  - destruct Hn as [H1 H2]. rewrite H1 in A. split; [exact A|]. unfold read_value. unfold told_now, told in A.
    destruct (read_events Ctx classes st q) as [st' ans]. cbn [fst snd] in *. injection A as A1 A2 A3. rewrite A3.
    unfold read_type in H2. rewrite H1 in H2. destruct (rev tr) as [|e r] eqn:Er; [discriminate|].
    destruct (oev_value Ctx e) as [w|] eqn:Ew; [|discriminate]. injection H2 as ->.
    assert (Rv : map (view Ctx (in_heap Ctx st')) (rev (ans_out ans)) = map Some (rev tr)) by (rewrite !map_rev, A1; reflexivity).
    rewrite Er in Rv. destruct (rev (ans_out ans)) as [|[kk a] r']; [discriminate|]. cbn [map] in Rv. injection Rv as Rv _.
    rewrite (view_value _ _ _ _ _ Rv Ew). reflexivity.
  - destruct Hn as [H1 H2]. rewrite H1 in A. split; [exact A|]. unfold read_value. unfold told_now, told in A.
    destruct (read_events Ctx classes st q) as [st' ans]. cbn [fst snd] in *. injection A as A1 A2 A3. rewrite A3. reflexivity.
Qed.
End C.
End P.
