(** The reader with its mutable objects does what the reader over values does. *)
From Coq Require Import ZArith String List Bool Lia.
From Verif Require Import Base Model_Dataio Model_ParaText Model_Bintype Model_Heap Spec_Bintype Proof_Bintype.
Import ListNotations.
Open Scope Z_scope.

Section P.
Variable Ctx : Type.
Notation ty := (Model_Bintype.ty Ctx).
Notation attrs := (Model_Bintype.attrs Ctx).
Notation item := (Model_Bintype.item Ctx).
Notation bev := (Model_Bintype.bev Ctx).
Notation oev := (Model_Bintype.oev Ctx).
Notation obj := (Model_Heap.obj Ctx).
Notation heap := (Model_Heap.heap Ctx).
Notation hget := (Model_Heap.hget Ctx).
Notation hset := (Model_Heap.hset Ctx).
Notation hput := (Model_Heap.hput Ctx).
Notation content := (Model_Heap.content Ctx).
Notation o_attrs := (Model_Heap.o_attrs Ctx).
Notation o_ty := (Model_Heap.o_ty Ctx).
Notation o_value := (Model_Heap.o_value Ctx).
Notation o_select := (Model_Heap.o_select Ctx).
Notation BStart := (Model_Bintype.BStart Ctx).
Notation BEnd := (Model_Bintype.BEnd Ctx).
Notation BLeaf := (Model_Bintype.BLeaf Ctx).
Notation hstate := (Model_Heap.hstate Ctx).
Notation state := (Model_Bintype.state Ctx).
Notation hpop := (Model_Heap.hpop).
Notation is_array := (Model_Heap.is_array Ctx).

Lemma Forall2_impl_In : forall {A B} (P Q : A -> B -> Prop) l m, Forall2 P l m -> (forall a b, In a l -> P a b -> Q a b) -> Forall2 Q l m.
Proof. induction 1; intros H1; constructor; [apply H1; [left; reflexivity|assumption]|apply IHForall2; intros; apply H1; [right|]; assumption]. Qed.


(** ** The heap *)
Lemma hset_length : forall (h : heap) a o, List.length (hset h a o) = List.length h.
Proof. induction h as [|x h IH]; intros [|a] o; cbn; try reflexivity. rewrite IH. reflexivity. Qed.
Lemma hget_app : forall (h l : heap) a, (a < List.length h)%nat -> hget (h ++ l) a = hget h a.
Proof. intros. apply app_nth1. assumption. Qed.
Lemma hget_new : forall (h : heap) o l, hget (h ++ o :: l) (List.length h) = o.
Proof. intros. unfold Model_Heap.hget. rewrite app_nth2 by lia. rewrite Nat.sub_diag. reflexivity. Qed.
Lemma hget_set_same : forall (h : heap) a o, (a < List.length h)%nat -> hget (hset h a o) a = o.
Proof. induction h as [|x h IH]; intros [|a] o H; cbn in *; try lia; [reflexivity|]. apply IH. lia. Qed.
Lemma hget_set_other : forall (h : heap) a b o, a <> b -> hget (hset h a o) b = hget h b.
Proof.
  induction h as [|x h IH]; intros [|a] [|b] o H; cbn; try reflexivity; try congruence.
  apply IH. congruence.
Qed.
Lemma hput_length : forall (h : heap) a f, List.length (hput h a f) = List.length h.
Proof. intros. apply hset_length. Qed.
Lemma hput_same : forall (h : heap) a f, (a < List.length h)%nat -> hget (hput h a f) a = f (hget h a).
Proof. intros. apply hget_set_same. assumption. Qed.
Lemma hput_other : forall (h : heap) a b f, a <> b -> hget (hput h a f) b = hget h b.
Proof. intros. apply hget_set_other. assumption. Qed.

Definition alike (x y : obj) : Prop := o_ty y = o_ty x /\ a_name Ctx (o_attrs y) = a_name Ctx (o_attrs x).
(** [h'] is [h] with new objects, and changes in the objects of [T] that leave
    their type and name alone. *)
Definition touched (T : list nat) (h h' : heap) : Prop :=
  (List.length h <= List.length h')%nat /\
  (forall a, (a < List.length h)%nat -> alike (hget h a) (hget h' a)) /\
  (forall a, (a < List.length h)%nat -> ~ In a T -> hget h' a = hget h a).
Lemma touched_refl : forall h, touched [] h h.
Proof. intros. split; [lia|]. split; intros; [split; reflexivity|reflexivity]. Qed.
Lemma touched_app : forall h l, touched [] h (h ++ l).
Proof.
  intros. split; [rewrite app_length; lia|]. split; intros; rewrite hget_app by assumption; [split; reflexivity|reflexivity].
Qed.
Lemma touched_put : forall h a f, (forall o, alike o (f o)) -> touched [a] h (hput h a f).
Proof.
  intros h a f F. split; [rewrite hput_length; lia|]. split.
  - intros b B. destruct (Nat.eq_dec a b) as [<-|N]; [rewrite hput_same by assumption; apply F|].
    rewrite hput_other by assumption. split; reflexivity.
  - intros b B N. apply hput_other. intros ->. apply N. left. reflexivity.
Qed.
Lemma touched_more : forall T T' h h', touched T h h' -> incl T T' -> touched T' h h'.
Proof. intros T T' h h' (L & A & S0) I. split; [exact L|]. split; [exact A|]. intros a B N. apply S0; [exact B|]. intros C. apply N, I, C. Qed.
Lemma touched_trans : forall T a b c, touched T a b -> touched T b c -> touched T a c.
Proof.
  intros T a b c (L & A & S0) (L' & A' & S'). split; [lia|]. split.
  - intros x X. destruct (A x X) as [E1 E2]. destruct (A' x ltac:(lia)) as [F1 F2]. split; [rewrite F1; exact E1|rewrite F2; exact E2].
  - intros x X N. rewrite S' by (try lia; assumption). apply S0; assumption.
Qed.

(** ** Events that refer to objects, and the events they stand for *)
Definition leafy (t : ty) : bool := match t with TPrim _ _ | TFlags _ _ _ => true | _ => false end.
Definition heads (l : list hev) : list nat := flat_map (fun e => match fst e with KEnd => [] | _ => [snd e] end) l.
Lemma heads_app : forall a b, heads (a ++ b) = heads a ++ heads b.
Proof. intros. apply flat_map_app. Qed.

Inductive seg (h : heap) : list nat -> list hev -> list bev -> list nat -> Prop :=
| seg_nil : forall o, seg h o [] [] o
| seg_leaf : forall o o2 a i l b, content h a = i -> leafy (snd i) = true -> seg h o l b o2 ->
    seg h o ((KLeaf, a) :: l) (BLeaf i :: b) o2
| seg_start : forall o o2 a i l b, content h a = i -> leafy (snd i) = false -> seg h (a :: o) l b o2 ->
    seg h o ((KStart, a) :: l) (BStart i :: b) o2
| seg_end : forall o o2 a i l b, snd i = o_ty (hget h a) -> seg h o l b o2 ->
    seg h (a :: o) ((KEnd, a) :: l) (BEnd i :: b) o2.

Lemma seg_app : forall h o l b o2, seg h o l b o2 -> forall l' b' o3, seg h o2 l' b' o3 -> seg h o (l ++ l') (b ++ b') o3.
Proof. induction 1; intros; cbn; [assumption| | |]; econstructor; eauto. Qed.
Lemma seg_frame : forall h o l b o2, seg h o l b o2 -> forall o3, seg h (o ++ o3) l b (o2 ++ o3).
Proof.
  induction 1; intros; cbn; [constructor|econstructor; eauto|eapply seg_start; eauto|econstructor; eauto].
Qed.
Lemma seg_change : forall h h' o l b o2, seg h o l b o2 ->
  (forall a, In a (heads l) -> content h' a = content h a) ->
  (forall a, In a o -> o_ty (hget h' a) = o_ty (hget h a)) -> seg h' o l b o2.
Proof.
  induction 1 as [o|o o2 a i l b E F S0 IH|o o2 a i l b E F S0 IH|o o2 a i l b E S0 IH]; intros C T; cbn in C.
  - constructor.
  - apply seg_leaf; [rewrite C by (left; reflexivity); exact E|exact F|]. apply IH; [intros x X; apply C; right; exact X|exact T].
  - assert (Ea : content h' a = content h a) by (apply C; left; reflexivity).
    apply seg_start; [rewrite Ea; exact E|exact F|]. apply IH; [intros x X; apply C; right; exact X|].
    intros x [<-|X]; [injection Ea as _ Q; exact Q|apply T; exact X].
  - apply seg_end; [rewrite T by (left; reflexivity); exact E|]. apply IH; [exact C|]. intros x X. apply T. right. exact X.
Qed.

Lemma seg_pop : forall h l b o, seg h o l b [] -> forall pre a o', o = pre ++ a :: o' ->
  exists sub rest sub' rest' i,
    hpop (Z.of_nat (List.length pre)) l = (sub ++ [(KEnd, a)], rest) /\
    pop_subevents_loop Ctx (Z.of_nat (List.length pre)) b = (sub' ++ [BEnd i], rest') /\
    l = sub ++ (KEnd, a) :: rest /\ snd i = o_ty (hget h a) /\
    seg h pre sub sub' [] /\ seg h o' rest rest' [].
Proof.
  intros h l b o S0. remember [] as z eqn:Z0. induction S0 as [o|o o2 x i l b E F S0 IH|o o2 x i l b E F S0 IH|o o2 x i l b E S0 IH];
    intros pre a o' P; subst.
  - symmetry in P. apply app_eq_nil in P. destruct P; discriminate.
  - destruct (IH eq_refl pre a o' eq_refl) as (sub & rest & sub' & rest' & j & H1 & H2 & H3 & H4 & H5 & H6).
    exists ((KLeaf, x) :: sub), rest, (BLeaf (content h x) :: sub'), rest', j. cbn [Model_Heap.hpop pop_subevents_loop]. rewrite H1, H2, H3.
    repeat split; try assumption. econstructor; eauto.
  - destruct (IH eq_refl (x :: pre) a o' eq_refl) as (sub & rest & sub' & rest' & j & H1 & H2 & H3 & H4 & H5 & H6).
    exists ((KStart, x) :: sub), rest, (BStart (content h x) :: sub'), rest', j. cbn [Model_Heap.hpop pop_subevents_loop].
    replace (Z.of_nat (List.length pre) + 1) with (Z.of_nat (List.length (x :: pre))) by (cbn [List.length]; lia).
    rewrite H1, H2, H3. repeat split; try assumption. econstructor; eauto.
  - destruct pre as [|y pre].
    + injection P as <- <-. exists [], l, [], b, i. cbn [Model_Heap.hpop pop_subevents_loop List.length].
      change (0 <? Z.of_nat 0) with false. cbv iota. repeat split; try assumption. constructor.
    + injection P as <- ->. destruct (IH eq_refl pre a o' eq_refl) as (sub & rest & sub' & rest' & j & H1 & H2 & H3 & H4 & H5 & H6).
      exists ((KEnd, x) :: sub), rest, (BEnd i :: sub'), rest', j. cbn [Model_Heap.hpop pop_subevents_loop].
      replace (Z.of_nat (List.length (x :: pre)) - 1) with (Z.of_nat (List.length pre)) by (cbn [List.length]; lia).
      replace (0 <? Z.of_nat (List.length (x :: pre))) with true by (symmetry; apply Z.ltb_lt; cbn [List.length]; lia).
      rewrite H1, H2, H3. repeat split; try assumption. econstructor; eauto.
Qed.

(** Copies stand for the same events, with new objects. *)
Lemma content_new : forall (h : heap) o l, content (h ++ o :: l) (List.length h) = (o_attrs o, o_ty o).
Proof. intros. unfold Model_Heap.content. rewrite hget_new. reflexivity. Qed.

Lemma copy_seg : forall h o l b, seg h o l b [] -> forall g stk,
  (forall a, In a (heads l) -> (a < List.length h)%nat) ->
  (exists x, g = h ++ x) -> Forall2 (fun a c => o_ty (hget g c) = o_ty (hget h a) /\ (c < List.length g)%nat) o stk ->
  exists new out, copy Ctx hget g stk l = Ok (g ++ new, out) /\ seg (g ++ new) stk out b [] /\
    heads out = seq (List.length g) (List.length new).
Proof.
  intros h o l b S0. remember [] as z eqn:Z0. induction S0 as [o|o o2 x i l b E F S0 IH|o o2 x i l b E F S0 IH|o o2 x i l b E S0 IH];
    intros g stk B G FA; subst; cbn [copy].
  - exists [], []. inversion FA; subst. rewrite app_nil_r. repeat split. constructor.
  - destruct G as [y ->]. cbn in B. pose proof (B x (or_introl eq_refl)) as Bx.
    rewrite hget_app by exact Bx.
    destruct (IH eq_refl ((h ++ y) ++ [hget h x]) stk) as (new & out & C & D & H).
    { intros. apply B. right. assumption. } { exists (y ++ [hget h x]). rewrite app_assoc. reflexivity. }
    { eapply Forall2_impl_In; [exact FA|]. intros a c _ (Q & L). rewrite hget_app by exact L. split; [exact Q|rewrite !app_length in *; lia]. }
    exists (hget h x :: new), ((KLeaf, List.length (h ++ y)) :: out). rewrite C. cbn [bind].
    rewrite <- app_assoc in D |- *. cbn [app] in D |- *. split; [reflexivity|]. split.
    + apply seg_leaf; [|exact F|exact D]. rewrite content_new. reflexivity.
    + transitivity (List.length (h ++ y) :: heads out); [reflexivity|]. rewrite H, (app_length (h ++ y)). cbn [List.length seq]. rewrite Nat.add_1_r. reflexivity.
  - destruct G as [y ->]. cbn in B. pose proof (B x (or_introl eq_refl)) as Bx.
    rewrite hget_app by exact Bx.
    destruct (IH eq_refl ((h ++ y) ++ [hget h x]) (List.length (h ++ y) :: stk)) as (new & out & C & D & H).
    { intros. apply B. right. assumption. } { exists (y ++ [hget h x]). rewrite app_assoc. reflexivity. }
    { constructor.
      - rewrite hget_new. split; [reflexivity|rewrite !app_length; cbn; lia].
      - eapply Forall2_impl_In; [exact FA|]. intros a c _ (Q & L). rewrite hget_app by exact L. split; [exact Q|rewrite !app_length in *; lia]. }
    exists (hget h x :: new), ((KStart, List.length (h ++ y)) :: out). rewrite C. cbn [bind].
    rewrite <- app_assoc in D |- *. cbn [app] in D |- *. split; [reflexivity|]. split.
    + apply seg_start; [|exact F|exact D]. rewrite content_new. reflexivity.
    + transitivity (List.length (h ++ y) :: heads out); [reflexivity|]. rewrite H, (app_length (h ++ y)). cbn [List.length seq]. rewrite Nat.add_1_r. reflexivity.
  - inversion FA as [|? c ? stk' (Q & L) FA']; subst.
    destruct (IH eq_refl g stk' B G FA') as (new & out & C & D & H).
    exists new, ((KEnd, c) :: out). rewrite C. cbn [bind]. split; [reflexivity|]. split; [|exact H].
    apply seg_end; [|exact D]. rewrite hget_app by exact L. congruence.
Qed.

Lemma clone_seg : forall h l b, seg h [] l b [] -> (forall a, In a (heads l) -> (a < List.length h)%nat) ->
  forall x, exists new out, clone Ctx (h ++ x) l = Ok ((h ++ x) ++ new, out) /\ seg ((h ++ x) ++ new) [] out b [] /\
    heads out = seq (List.length (h ++ x)) (List.length new).
Proof. intros h l b S0 B x. apply (copy_seg h [] l b S0); [exact B|exists x; reflexivity|constructor]. Qed.

Lemma seg_more : forall h x o l b o2, seg h o l b o2 -> (forall a, In a (heads l ++ o) -> (a < List.length h)%nat) -> seg (h ++ x) o l b o2.
Proof.
  intros h x o l b o2 S0 B. apply (seg_change h); [exact S0| |]; intros a A; unfold Model_Heap.content; rewrite hget_app; try reflexivity;
    apply B, in_or_app; [left|right]; exact A.
Qed.

Lemma times_S : forall {X} k (l : list X), concat (repeat l (S k)) = concat (repeat l k) ++ l.
Proof.
  induction k as [|k IH]; intros l; [cbn; rewrite app_nil_r; reflexivity|].
  change (concat (repeat l (S (S k)))) with (l ++ concat (repeat l (S k))). rewrite IH at 1. cbn [repeat concat]. rewrite app_assoc. reflexivity.
Qed.

Lemma clones_seg : forall h l b, seg h [] l b [] -> (forall a, In a (heads l) -> (a < List.length h)%nat) -> forall n x,
  exists new out, clones Ctx n (h ++ x) l = Ok ((h ++ x) ++ new, out) /\ seg ((h ++ x) ++ new) [] out (concat (repeat b n)) [] /\
    NoDup (heads out) /\ (forall a, In a (heads out) -> (List.length (h ++ x) <= a < List.length ((h ++ x) ++ new))%nat).
Proof.
  intros h l b S0 B. induction n as [|n IH]; intros x; cbn [clones].
  - exists [], []. rewrite app_nil_r. repeat split; try constructor; cbn in *; contradiction.
  - destruct (clone_seg h l b S0 B x) as (new & one & C & D & H). rewrite C. cbn [bind].
    assert (One : forall a, In a (heads one) -> (List.length (h ++ x) <= a < List.length ((h ++ x) ++ new))%nat).
    { intros a A. rewrite H in A. apply in_seq in A. rewrite (app_length _ new). lia. }
    rewrite <- app_assoc. destruct (IH (x ++ new)) as (new' & more & C' & D' & N' & B'). rewrite C'. cbn [bind].
    exists (new ++ new'), (more ++ one). rewrite <- !app_assoc in *. split; [reflexivity|]. split; [|split].
    + rewrite times_S. eapply seg_app; [exact D'|]. rewrite !app_assoc. apply seg_more; [rewrite <- app_assoc; exact D|].
      intros a A. rewrite app_nil_r in A. apply One in A. rewrite !app_length in *. lia.
    + rewrite heads_app. assert (N1 : NoDup (heads one)) by (rewrite H; apply seq_NoDup). clear - N' N1 B' One.
      revert N' B'. generalize (heads more) as m. induction m as [|y m IHm]; intros N' B'; cbn; [exact N1|].
      inversion N' as [|? ? NY NM]; subst. constructor.
      * intros A. apply in_app_or in A. destruct A as [A|A]; [exact (NY A)|].
        specialize (B' y (or_introl eq_refl)). apply One in A. rewrite !app_length in *. lia.
      * apply IHm; [exact NM|]. intros a A. apply B'. right. exact A.
    + intros a A. rewrite heads_app in A. apply in_app_or in A. destruct A as [A|A].
      * apply B' in A. rewrite !app_length in *. lia.
      * apply One in A. rewrite !app_length in *. lia.
Qed.

(** ** The states correspond *)
Definition selb (h : heap) (a : nat) : bool := match o_ty (hget h a) with TSel _ _ _ => true | _ => false end.
Definition shape (t : ty) (v : value) : Prop :=
  match t, v with
  | TStruct _ _, VDict _ => True
  | TFixed _ _ _, VList _ | TVar _ _ _, VList _ | TX _ _ _, VList _ => True
  | _, _ => False
  end.
Definition opened (h : heap) (a : nat) (iv : item * value) : Prop :=
  content h a = fst iv /\ o_value (hget h a) = Some (snd iv) /\ a_when Ctx (fst (fst iv)) = None /\ a_cond Ctx (fst (fst iv)) = None /\
  (is_array (snd (fst iv)) = true -> a_count Ctx (fst (fst iv)) <> None) /\ shape (snd (fst iv)) (snd iv).

Record Inv (base : nat) (h0 : heap) (opens : list nat) (s : hstate) (p : state) : Prop := mkInv {
  iv_seg : seg (h_heap Ctx s) opens (h_events Ctx s) (st_events Ctx p) [];
  iv_nodup : NoDup (heads (h_events Ctx s) ++ opens);
  iv_range : forall a, In a (heads (h_events Ctx s) ++ opens) -> (base <= a < List.length (h_heap Ctx s))%nat;
  iv_stack : h_stack Ctx s = filter (fun a => negb (selb (h_heap Ctx s) a)) opens;
  iv_values : h_values Ctx s = h_stack Ctx s;
  iv_selects : h_selects Ctx s = filter (selb (h_heap Ctx s)) opens;
  iv_open : Forall2 (opened (h_heap Ctx s)) (h_stack Ctx s) (st_stack Ctx p);
  iv_keys : Forall2 (fun a k => o_select (hget (h_heap Ctx s) a) = Some k) (h_selects Ctx s) (st_select Ctx p);
  iv_stream : h_stream Ctx s = st_stream Ctx p;
  iv_out : map (view Ctx (h_heap Ctx s)) (h_out Ctx s) = map Some (st_out Ctx p);
  iv_kept : forall k a, In (k, a) (h_out Ctx s) ->
    (base <= a < List.length (h_heap Ctx s))%nat /\ ~ In a (heads (h_events Ctx s)) /\ (k <> YStart -> ~ In a opens);
  iv_old : forall a, (a < base)%nat -> hget (h_heap Ctx s) a = hget h0 a;
  iv_base : (base <= List.length (h_heap Ctx s))%nat
}.

(** What was handed out stays as it was. *)
Lemma view_alike : forall h h' k a, alike (hget h a) (hget h' a) -> (k <> YStart -> hget h' a = hget h a) -> view Ctx h' (k, a) = view Ctx h (k, a).
Proof.
  intros h h' k a [T N] E. destruct k; try (unfold view; cbn [fst snd]; rewrite (E ltac:(discriminate)); reflexivity).
  unfold view. cbn [fst snd]. rewrite T, N. reflexivity.
Qed.
Lemma views_kept : forall base h0 opens s p h', Inv base h0 opens s p -> touched (heads (h_events Ctx s) ++ opens) (h_heap Ctx s) h' ->
  map (view Ctx h') (h_out Ctx s) = map Some (st_out Ctx p).
Proof.
  intros base h0 opens s p h' I (L & A & E). rewrite <- (iv_out _ _ _ _ _ I). apply map_ext_in. intros [k a] In1.
  destruct (iv_kept _ _ _ _ _ I k a In1) as ([_ B] & N & M). apply view_alike; [apply A; exact B|].
  intros K. apply E; [exact B|]. intros In2. apply in_app_or in In2. destruct In2 as [In2|In2]; [exact (N In2)|exact (M K In2)].
Qed.
Lemma old_kept : forall base h0 opens s p h', Inv base h0 opens s p -> touched (heads (h_events Ctx s) ++ opens) (h_heap Ctx s) h' ->
  forall a, (a < base)%nat -> hget h' a = hget h0 a.
Proof.
  intros base h0 opens s p h' I (L & A & E) a B. rewrite <- (iv_old _ _ _ _ _ I a B). pose proof (iv_base _ _ _ _ _ I).
  apply E; [lia|]. intros In2. apply (iv_range _ _ _ _ _ I) in In2. lia.
Qed.
Lemma selb_kept : forall T h h' a, touched T h h' -> (a < List.length h)%nat -> selb h' a = selb h a.
Proof. intros T h h' a (L & A & E) B. unfold selb. destruct (A a B) as [-> _]. reflexivity. Qed.
Lemma filter_ext_In : forall {A} (f g : A -> bool) l, (forall a, In a l -> f a = g a) -> filter f l = filter g l.
Proof.
  induction l as [|x l IH]; intros H; [reflexivity|]. cbn. rewrite (H x (or_introl eq_refl)), IH by (intros; apply H; right; assumption). reflexivity.
Qed.
Lemma stacks_kept : forall T h h' opens, touched T h h' -> (forall a, In a opens -> (a < List.length h)%nat) ->
  filter (selb h') opens = filter (selb h) opens /\ filter (fun a => negb (selb h' a)) opens = filter (fun a => negb (selb h a)) opens.
Proof.
  intros T h h' opens Tc B. split; apply filter_ext_In; intros a A; rewrite (selb_kept T h h' a Tc (B a A)); reflexivity.
Qed.

(** The objects that are open and not touched. *)
Lemma opened_kept : forall h h' T l m, touched T h h' -> (forall a, In a l -> (a < List.length h)%nat /\ ~ In a T) ->
  Forall2 (opened h) l m -> Forall2 (opened h') l m.
Proof.
  intros h h' T l m (L & A & E) B F. eapply Forall2_impl_In; [exact F|]. intros a iv In1 O. destruct (B a In1) as [B1 B2].
  unfold opened, Model_Heap.content in *. rewrite (E a B1 B2). exact O.
Qed.
Lemma keys_kept : forall h h' T l m, touched T h h' -> (forall a, In a l -> (a < List.length h)%nat /\ ~ In a T) ->
  Forall2 (fun a k => o_select (hget h a) = Some k) l m -> Forall2 (fun a k => o_select (hget h' a) = Some k) l m.
Proof.
  intros h h' T l m (L & A & E) B F. eapply Forall2_impl_In; [exact F|]. intros a k In1 O. destruct (B a In1) as [B1 B2].
  rewrite (E a B1 B2). exact O.
Qed.

Lemma range_of : forall base h0 opens s p a, Inv base h0 opens s p -> In a (heads (h_events Ctx s)) \/ In a opens ->
  (base <= a < List.length (h_heap Ctx s))%nat.
Proof. intros base h0 opens s p a I D. apply (iv_range _ _ _ _ _ I), in_or_app, D. Qed.
Lemma apart : forall {A} (l m : list A) a, NoDup (l ++ m) -> In a l -> In a m -> False.
Proof.
  induction l as [|x l IH]; intros m a N L M; [exact L|]. inversion N as [|? ? N1 N2]; subst.
  destruct L as [->|L]; [apply N1, in_or_app; right; exact M|exact (IH m a N2 L M)].
Qed.

(** Changing objects that are not open, and exchanging the events. *)
Lemma rebuild : forall base h0 opens s p h' T evs pevs strm, Inv base h0 opens s p ->
  touched T (h_heap Ctx s) h' -> incl T (heads (h_events Ctx s)) ->
  seg h' opens evs pevs [] -> NoDup (heads evs ++ opens) ->
  (forall a, In a (heads evs) -> In a (heads (h_events Ctx s)) \/ (List.length (h_heap Ctx s) <= a < List.length h')%nat) ->
  Inv base h0 opens (mkH Ctx h' evs (h_stack Ctx s) (h_selects Ctx s) (h_values Ctx s) strm (h_out Ctx s))
    (mkState Ctx pevs (st_stack Ctx p) (st_select Ctx p) strm (st_out Ctx p)).
Proof.
  intros base h0 opens s p h' T evs pevs strm I Tc Ti Sg Nd Hd.
  assert (Tc' : touched (heads (h_events Ctx s) ++ opens) (h_heap Ctx s) h') by (eapply touched_more; [exact Tc|apply incl_appl; exact Ti]).
  assert (Op : forall a, In a opens -> (a < List.length (h_heap Ctx s))%nat /\ ~ In a T).
  { intros a A. split; [apply (range_of _ _ _ _ _ a I); right; exact A|]. intros B. apply (apart _ _ a (iv_nodup _ _ _ _ _ I) (Ti a B) A). }
  destruct (stacks_kept T _ h' opens Tc (fun a A => proj1 (Op a A))) as [E1 E2].
  destruct Tc as (L & Al & Eq). split; cbn.
  - exact Sg.
  - exact Nd.
  - intros a A. apply in_app_or in A. destruct A as [A|A].
    + destruct (Hd a A) as [B|B]; [|pose proof (iv_base _ _ _ _ _ I); lia]. pose proof (range_of _ _ _ _ _ a I (or_introl B)). lia.
    + pose proof (range_of _ _ _ _ _ a I (or_intror A)). lia.
  - rewrite E2. apply (iv_stack _ _ _ _ _ I).
  - apply (iv_values _ _ _ _ _ I).
  - rewrite E1. apply (iv_selects _ _ _ _ _ I).
  - eapply opened_kept; [exact (conj L (conj Al Eq))| |exact (iv_open _ _ _ _ _ I)].
    intros a A. apply Op. rewrite (iv_stack _ _ _ _ _ I) in A. apply filter_In in A. apply A.
  - eapply keys_kept; [exact (conj L (conj Al Eq))| |exact (iv_keys _ _ _ _ _ I)].
    intros a A. apply Op. rewrite (iv_selects _ _ _ _ _ I) in A. apply filter_In in A. apply A.
  - reflexivity.
  - eapply views_kept; eassumption.
  - intros k a A. destruct (iv_kept _ _ _ _ _ I k a A) as (B & N & M). split; [lia|]. split; [|exact M].
    intros C. destruct (Hd a C) as [D|D]; [exact (N D)|lia].
  - eapply old_kept; eassumption.
  - pose proof (iv_base _ _ _ _ _ I). lia.
Qed.

(** Handing out an event. *)
Lemma hand_out : forall base h0 opens s p k b o, Inv base h0 opens s p -> view Ctx (h_heap Ctx s) (k, b) = Some o ->
  (base <= b < List.length (h_heap Ctx s))%nat -> ~ In b (heads (h_events Ctx s)) -> (k <> YStart -> ~ In b opens) ->
  Inv base h0 opens (mkH Ctx (h_heap Ctx s) (h_events Ctx s) (h_stack Ctx s) (h_selects Ctx s) (h_values Ctx s) (h_stream Ctx s) (h_out Ctx s ++ [(k, b)]))
    (mkState Ctx (st_events Ctx p) (st_stack Ctx p) (st_select Ctx p) (st_stream Ctx p) (st_out Ctx p ++ [o])).
Proof.
  intros base h0 opens s p k b o I V B N M. destruct I as [I1 I2 I3 I4 I5 I6 I7 I8 I9 I10 I11 I12 I13]. split; cbn; try assumption.
  - rewrite !map_app. cbn [map]. rewrite I10, V. reflexivity.
  - intros k' a A. apply in_app_or in A. destruct A as [A|[A|[]]]; [exact (I11 k' a A)|]. injection A as <- <-. repeat split; try lia; assumption.
Qed.

Lemma filter_head : forall {A} (f : A -> bool) a l, f a = true -> filter f (a :: l) = a :: filter f l.
Proof. intros. cbn. rewrite H. reflexivity. Qed.
Lemma filter_skip : forall {A} (f : A -> bool) a l, f a = false -> filter f (a :: l) = filter f l.
Proof. intros. cbn. rewrite H. reflexivity. Qed.

(** A composite item is opened. *)
Lemma opening : forall base h0 opens s p a i rest rest' v, Inv base h0 opens s p ->
  h_events Ctx s = (KStart, a) :: rest -> st_events Ctx p = BStart i :: rest' ->
  selb (h_heap Ctx s) a = false -> a_when Ctx (fst i) = None -> a_cond Ctx (fst i) = None ->
  (is_array (snd i) = true -> a_count Ctx (fst i) <> None) -> shape (snd i) v ->
  Inv base h0 (a :: opens)
    (mkH Ctx (hput (h_heap Ctx s) a (put_value Ctx v)) rest (a :: h_stack Ctx s) (h_selects Ctx s) (a :: h_values Ctx s) (h_stream Ctx s) (h_out Ctx s ++ [(YStart, a)]))
    (mkState Ctx rest' ((i, v) :: st_stack Ctx p) (st_select Ctx p) (st_stream Ctx p) (st_out Ctx p ++ [OStart Ctx (a_name Ctx (fst i)) (snd i)])).
Proof.
  intros base h0 opens s p a i rest rest' v I Ev Pv Sl W Cn Ct Sh.
  pose proof (iv_seg _ _ _ _ _ I) as Sg. rewrite Ev, Pv in Sg. inversion Sg as [| |? ? ? ? ? ? Ci Lf Sg'|]; subst. set (i := content (h_heap Ctx s) a) in *.
  pose proof (iv_nodup _ _ _ _ _ I) as Nd. rewrite Ev in Nd. change (NoDup (a :: heads rest ++ opens)) in Nd. inversion Nd as [|? ? Na Nr]; subst.
  assert (Ha : In a (heads (h_events Ctx s))) by (rewrite Ev; left; reflexivity).
  assert (Hr : forall x, In x (heads rest) -> In x (heads (h_events Ctx s))) by (intros x X; rewrite Ev; right; exact X).
  pose proof (range_of _ _ _ _ _ a I (or_introl Ha)) as Ra.
  set (h' := hput (h_heap Ctx s) a (put_value Ctx v)).
  assert (Tc : touched [a] (h_heap Ctx s) h') by (apply touched_put; intros; split; reflexivity).
  assert (Tc' : touched (heads (h_events Ctx s) ++ opens) (h_heap Ctx s) h').
  { eapply touched_more; [exact Tc|]. intros x [<-|[]]. apply in_or_app. left. exact Ha. }
  assert (Op : forall x, In x opens -> (x < List.length (h_heap Ctx s))%nat /\ ~ In x [a]).
  { intros x X. split; [apply (range_of _ _ _ _ _ x I); right; exact X|]. intros [<-|[]]. apply Na, in_or_app. right. exact X. }
  destruct (stacks_kept [a] _ h' opens Tc (fun x X => proj1 (Op x X))) as [E1 E2].
  assert (Sa : selb h' a = false) by (rewrite (selb_kept [a] _ h' a Tc) by lia; exact Sl).
  assert (Ga : hget h' a = put_value Ctx v (hget (h_heap Ctx s) a)) by (apply hput_same; lia).
  assert (Ca : content h' a = i) by (unfold Model_Heap.content; rewrite Ga; reflexivity).
  assert (Len : List.length h' = List.length (h_heap Ctx s)) by apply hput_length.
  split; cbn [h_heap h_events h_stack h_selects h_values h_stream h_out st_events st_stack st_select st_stream st_out].
  - apply (seg_change (h_heap Ctx s)); [exact Sg'| |].
    + intros x X. unfold Model_Heap.content. unfold h'. rewrite hput_other; [reflexivity|]. intros <-. apply Na, in_or_app. left. exact X.
    + intros x [<-|X]; [rewrite Ga; reflexivity|]. apply Op in X. destruct Tc as (_ & Al & _). apply Al. apply X.
  - apply NoDup_Add with (l := heads rest ++ opens) (a := a); [apply Add_app|]. split; [exact Nr|exact Na].
  - intros x X. apply in_app_or in X. rewrite Len. destruct X as [X|[<-|X]]; [apply (range_of _ _ _ _ _ x I); left; apply Hr; exact X|exact Ra|].
    apply (range_of _ _ _ _ _ x I). right. exact X.
  - rewrite filter_head by (rewrite Sa; reflexivity). rewrite E2, (iv_stack _ _ _ _ _ I). reflexivity.
  - rewrite (iv_values _ _ _ _ _ I). reflexivity.
  - rewrite filter_skip by exact Sa. rewrite E1. apply (iv_selects _ _ _ _ _ I).
  - constructor.
    + unfold opened. cbn [fst snd]. rewrite Ca, Ga. repeat split; assumption.
    + eapply opened_kept; [exact Tc| |exact (iv_open _ _ _ _ _ I)].
      intros x X. apply Op. rewrite (iv_stack _ _ _ _ _ I) in X. apply filter_In in X. apply X.
  - eapply keys_kept; [exact Tc| |exact (iv_keys _ _ _ _ _ I)].
    intros x X. apply Op. rewrite (iv_selects _ _ _ _ _ I) in X. apply filter_In in X. apply X.
  - apply (iv_stream _ _ _ _ _ I).
  - rewrite !map_app. f_equal; [eapply views_kept; eassumption|]. cbn [map]. unfold view. cbn [fst snd]. rewrite Ga. reflexivity.
  - intros k x X. apply in_app_or in X. destruct X as [X|[X|[]]].
    + destruct (iv_kept _ _ _ _ _ I k x X) as (B & N & M). rewrite Len. split; [exact B|]. split; [intros Y; apply N, Hr, Y|].
      intros K [<-|Y]; [exact (N Ha)|exact (M K Y)].
    + injection X as <- <-. rewrite Len. split; [exact Ra|]. split; [|congruence]. intros Y. apply Na, in_or_app. left. exact Y.
  - eapply old_kept; eassumption.
  - rewrite Len. apply (iv_base _ _ _ _ _ I).
Qed.

(** A selection is opened. *)
Lemma selecting : forall base h0 opens s p a i rest rest' key, Inv base h0 opens s p ->
  h_events Ctx s = (KStart, a) :: rest -> st_events Ctx p = BStart i :: rest' -> selb (h_heap Ctx s) a = true ->
  Inv base h0 (a :: opens)
    (mkH Ctx (hput (h_heap Ctx s) a (put_select Ctx key)) rest (h_stack Ctx s) (a :: h_selects Ctx s) (h_values Ctx s) (h_stream Ctx s) (h_out Ctx s))
    (mkState Ctx rest' (st_stack Ctx p) (key :: st_select Ctx p) (st_stream Ctx p) (st_out Ctx p)).
Proof.
  intros base h0 opens s p a i rest rest' key I Ev Pv Sl.
  pose proof (iv_seg _ _ _ _ _ I) as Sg. rewrite Ev, Pv in Sg. inversion Sg as [| |? ? ? ? ? ? Ci Lf Sg'|]; subst. set (i := content (h_heap Ctx s) a) in *.
  pose proof (iv_nodup _ _ _ _ _ I) as Nd. rewrite Ev in Nd. change (NoDup (a :: heads rest ++ opens)) in Nd. inversion Nd as [|? ? Na Nr]; subst.
  assert (Ha : In a (heads (h_events Ctx s))) by (rewrite Ev; left; reflexivity).
  assert (Hr : forall x, In x (heads rest) -> In x (heads (h_events Ctx s))) by (intros x X; rewrite Ev; right; exact X).
  pose proof (range_of _ _ _ _ _ a I (or_introl Ha)) as Ra.
  set (h' := hput (h_heap Ctx s) a (put_select Ctx key)).
  assert (Tc : touched [a] (h_heap Ctx s) h') by (apply touched_put; intros; split; reflexivity).
  assert (Tc' : touched (heads (h_events Ctx s) ++ opens) (h_heap Ctx s) h').
  { eapply touched_more; [exact Tc|]. intros x [<-|[]]. apply in_or_app. left. exact Ha. }
  assert (Op : forall x, In x opens -> (x < List.length (h_heap Ctx s))%nat /\ ~ In x [a]).
  { intros x X. split; [apply (range_of _ _ _ _ _ x I); right; exact X|]. intros [<-|[]]. apply Na, in_or_app. right. exact X. }
  destruct (stacks_kept [a] _ h' opens Tc (fun x X => proj1 (Op x X))) as [E1 E2].
  assert (Sa : selb h' a = true) by (rewrite (selb_kept [a] _ h' a Tc) by lia; exact Sl).
  assert (Ga : hget h' a = put_select Ctx key (hget (h_heap Ctx s) a)) by (apply hput_same; lia).
  assert (Len : List.length h' = List.length (h_heap Ctx s)) by apply hput_length.
  split; cbn [h_heap h_events h_stack h_selects h_values h_stream h_out st_events st_stack st_select st_stream st_out].
  - apply (seg_change (h_heap Ctx s)); [exact Sg'| |].
    + intros x X. unfold Model_Heap.content. unfold h'. rewrite hput_other; [reflexivity|]. intros <-. apply Na, in_or_app. left. exact X.
    + intros x [<-|X]; [rewrite Ga; reflexivity|]. apply Op in X. destruct Tc as (_ & Al & _). apply Al. apply X.
  - apply NoDup_Add with (l := heads rest ++ opens) (a := a); [apply Add_app|]. split; [exact Nr|exact Na].
  - intros x X. apply in_app_or in X. rewrite Len. destruct X as [X|[<-|X]]; [apply (range_of _ _ _ _ _ x I); left; apply Hr; exact X|exact Ra|].
    apply (range_of _ _ _ _ _ x I). right. exact X.
  - rewrite filter_skip by (rewrite Sa; reflexivity). rewrite E2. apply (iv_stack _ _ _ _ _ I).
  - apply (iv_values _ _ _ _ _ I).
  - rewrite filter_head by exact Sa. rewrite E1, (iv_selects _ _ _ _ _ I). reflexivity.
  - eapply opened_kept; [exact Tc| |exact (iv_open _ _ _ _ _ I)].
    intros x X. apply Op. rewrite (iv_stack _ _ _ _ _ I) in X. apply filter_In in X. apply X.
  - constructor; [rewrite Ga; reflexivity|]. eapply keys_kept; [exact Tc| |exact (iv_keys _ _ _ _ _ I)].
    intros x X. apply Op. rewrite (iv_selects _ _ _ _ _ I) in X. apply filter_In in X. apply X.
  - apply (iv_stream _ _ _ _ _ I).
  - eapply views_kept; eassumption.
  - intros k x X. destruct (iv_kept _ _ _ _ _ I k x X) as (B & N & M). rewrite Len. split; [exact B|]. split; [intros Y; apply N, Hr, Y|].
    intros K [<-|Y]; [exact (N Ha)|exact (M K Y)].
  - eapply old_kept; eassumption.
  - rewrite Len. apply (iv_base _ _ _ _ _ I).
Qed.

(** An item is closed: a selection ... *)
Lemma unselecting : forall base h0 opens s p a i rest rest', Inv base h0 (a :: opens) s p ->
  h_events Ctx s = (KEnd, a) :: rest -> st_events Ctx p = BEnd i :: rest' -> selb (h_heap Ctx s) a = true ->
  exists sels key keys, h_selects Ctx s = a :: sels /\ st_select Ctx p = key :: keys /\
  Inv base h0 opens
    (mkH Ctx (h_heap Ctx s) rest (h_stack Ctx s) sels (h_values Ctx s) (h_stream Ctx s) (h_out Ctx s))
    (mkState Ctx rest' (st_stack Ctx p) keys (st_stream Ctx p) (st_out Ctx p)).
Proof.
  intros base h0 opens s p a i rest rest' I Ev Pv Sl. destruct I as [I1 I2 I3 I4 I5 I6 I7 I8 I9 I10 I11 I12 I13].
  rewrite Ev in *. rewrite Pv in *. inversion I1 as [| | |? ? ? ? ? ? Ty Sg']; subst.
  rewrite filter_head in I6 by exact Sl. rewrite filter_skip in I4 by (rewrite Sl; reflexivity).
  rewrite I6 in I8. inversion I8 as [|? key ? keys K1 K2]; subst.
  exists (filter (selb (h_heap Ctx s)) opens), key, keys. split; [exact I6|]. split; [reflexivity|].
  change (heads ((KEnd, a) :: rest)) with (heads rest) in *. pose proof (NoDup_remove_1 _ _ _ I2) as Nd.
  split; cbn [h_heap h_events h_stack h_selects h_values h_stream h_out st_events st_stack st_select st_stream st_out]; try assumption; try reflexivity.
  - intros x X. apply I3. apply in_app_or in X. apply in_or_app. destruct X as [X|X]; [left; exact X|right; right; exact X].
  - intros k x X. destruct (I11 k x X) as (B & N & M). split; [exact B|]. split; [exact N|]. intros K Y. apply (M K). right. exact Y.
Qed.

(** ... or a composite item. *)
Lemma closing_item : forall base h0 opens s p a i rest rest' v', Inv base h0 (a :: opens) s p ->
  h_events Ctx s = (KEnd, a) :: rest -> st_events Ctx p = BEnd i :: rest' -> selb (h_heap Ctx s) a = false ->
  exists stk j v pstk, h_stack Ctx s = a :: stk /\ h_values Ctx s = a :: stk /\ st_stack Ctx p = (j, v) :: pstk /\
  opened (h_heap Ctx s) a (j, v) /\ ~ In a (heads rest) /\ ~ In a opens /\ (base <= a < List.length (h_heap Ctx s))%nat /\
  Inv base h0 opens
    (mkH Ctx (hput (h_heap Ctx s) a (put_value Ctx v')) rest stk (h_selects Ctx s) stk (h_stream Ctx s) (h_out Ctx s))
    (mkState Ctx rest' pstk (st_select Ctx p) (st_stream Ctx p) (st_out Ctx p)).
Proof.
  intros base h0 opens s p a i rest rest' v' I Ev Pv Sl. pose proof I as II. destruct I as [I1 I2 I3 I4 I5 I6 I7 I8 I9 I10 I11 I12 I13].
  rewrite Ev in *. rewrite Pv in *. inversion I1 as [| | |? ? ? ? ? ? Ty Sg']; subst.
  rewrite filter_skip in I6 by exact Sl. rewrite filter_head in I4 by (rewrite Sl; reflexivity).
  rewrite I4 in I7. inversion I7 as [|? jv ? pstk K1 K2]; subst. destruct jv as [j v].
  change (heads ((KEnd, a) :: rest)) with (heads rest) in *. pose proof (NoDup_remove_1 _ _ _ I2) as Nd. pose proof (NoDup_remove_2 _ _ _ I2) as Na.
  set (stk := filter (fun a0 => negb (selb (h_heap Ctx s) a0)) opens) in *.
  exists stk, j, v, pstk. split; [exact I4|]. split; [rewrite I5; exact I4|]. split; [reflexivity|]. split; [exact K1|].
  assert (Na1 : ~ In a (heads rest)) by (intros Y; apply Na, in_or_app; left; exact Y).
  assert (Na2 : ~ In a opens) by (intros Y; apply Na, in_or_app; right; exact Y).
  assert (Ra : (base <= a < List.length (h_heap Ctx s))%nat) by (apply I3, in_or_app; right; left; reflexivity).
  split; [exact Na1|]. split; [exact Na2|]. split; [exact Ra|].
  set (h' := hput (h_heap Ctx s) a (put_value Ctx v')).
  assert (Tc : touched [a] (h_heap Ctx s) h') by (apply touched_put; intros; split; reflexivity).
  assert (Tc' : touched (heads (h_events Ctx s) ++ a :: opens) (h_heap Ctx s) h').
  { eapply touched_more; [exact Tc|]. intros x [<-|[]]. apply in_or_app. right. left. reflexivity. }
  assert (Op : forall x, In x opens -> (x < List.length (h_heap Ctx s))%nat /\ ~ In x [a]).
  { intros x X. split; [apply I3, in_or_app; right; right; exact X|]. intros [<-|[]]. exact (Na2 X). }
  destruct (stacks_kept [a] _ h' opens Tc (fun x X => proj1 (Op x X))) as [E1 E2].
  assert (Len : List.length h' = List.length (h_heap Ctx s)) by apply hput_length.
  split; cbn [h_heap h_events h_stack h_selects h_values h_stream h_out st_events st_stack st_select st_stream st_out]; try assumption.
  - apply (seg_change (h_heap Ctx s)); [exact Sg'| |].
    + intros x X. unfold Model_Heap.content. unfold h'. rewrite hput_other; [reflexivity|]. intros <-. exact (Na1 X).
    + intros x X. apply Op in X. destruct Tc as (_ & Al & _). apply Al. apply X.
  - intros x X. rewrite Len. apply I3. apply in_app_or in X. apply in_or_app. destruct X as [X|X]; [left; exact X|right; right; exact X].
  - rewrite E2. reflexivity.
  - reflexivity.
  - rewrite E1. exact I6.
  - eapply opened_kept; [exact Tc| |exact K2]. intros x X. apply Op. unfold stk in X. apply filter_In in X. apply X.
  - eapply keys_kept; [exact Tc| |exact I8]. intros x X. apply Op. rewrite I6 in X. apply filter_In in X. apply X.
  - eapply views_kept; eassumption.
  - intros k x X. destruct (I11 k x X) as (B & N & M). rewrite Len. split; [exact B|]. split; [exact N|]. intros K Y. apply (M K). right. exact Y.
  - eapply old_kept; eassumption.
  - rewrite Len. exact I13.
Qed.

(** A value goes into the value of the enclosing item. *)
Lemma collecting : forall base h0 opens s p b v, Inv base h0 opens s p ->
  match hcollect Ctx (h_heap Ctx s) (h_values Ctx s) b v, collect Ctx (content (h_heap Ctx s) b) v (st_stack Ctx p) with
  | Raise x, Raise y => x = y
  | Ok h', Ok stk => touched opens (h_heap Ctx s) h' /\ List.length h' = List.length (h_heap Ctx s) /\
      Inv base h0 opens (mkH Ctx h' (h_events Ctx s) (h_stack Ctx s) (h_selects Ctx s) (h_values Ctx s) (h_stream Ctx s) (h_out Ctx s))
        (mkState Ctx (st_events Ctx p) stk (st_select Ctx p) (st_stream Ctx p) (st_out Ctx p))
  | _, _ => False
  end.
Proof.
  intros base h0 opens s p b v I. pose proof I as II. destruct I as [I1 I2 I3 I4 I5 I6 I7 I8 I9 I10 I11 I12 I13].
  assert (Same : touched opens (h_heap Ctx s) (h_heap Ctx s) /\ List.length (h_heap Ctx s) = List.length (h_heap Ctx s) /\
    Inv base h0 opens (mkH Ctx (h_heap Ctx s) (h_events Ctx s) (h_stack Ctx s) (h_selects Ctx s) (h_values Ctx s) (h_stream Ctx s) (h_out Ctx s))
        (mkState Ctx (st_events Ctx p) (st_stack Ctx p) (st_select Ctx p) (st_stream Ctx p) (st_out Ctx p))).
  { split; [eapply touched_more; [apply touched_refl|intros x []]|]. split; [reflexivity|]. split; assumption. }
  rewrite I5 in *. unfold hcollect, collect. destruct (h_stack Ctx s) as [|q stk] eqn:Es.
  { destruct (st_stack Ctx p) as [|jv pstk]; [exact Same|inversion I7]. }
  destruct (st_stack Ctx p) as [|[j w] pstk]; [inversion I7|]. inversion I7 as [|? ? ? ? K1 K2]; subst. cbn [Model_Heap.content fst snd].
  destruct (a_dontcollect Ctx (o_attrs (hget (h_heap Ctx s) b))); [exact Same|].
  destruct K1 as (C1 & C2 & C3 & C4 & C5 & C6). cbn [fst snd] in *.
  assert (Tq : o_ty (hget (h_heap Ctx s) q) = snd j) by (rewrite <- C1; reflexivity).
  assert (Oq : In q opens /\ selb (h_heap Ctx s) q = false).
  { assert (X : In q (filter (fun a => negb (selb (h_heap Ctx s) a)) opens)) by (rewrite <- I4; left; reflexivity).
    apply filter_In in X. destruct X as [X Y]. apply negb_true_iff in Y. split; assumption. }
  destruct Oq as [Oq Sq].
  assert (Ndo : NoDup opens) by (clear - I2; induction (heads (h_events Ctx s)); [exact I2|apply IHl; inversion I2; assumption]).
  assert (Rq : (base <= q < List.length (h_heap Ctx s))%nat) by (apply I3, in_or_app; right; exact Oq).
  assert (Go : forall v', shape (snd j) v' ->
    touched opens (h_heap Ctx s) (hput (h_heap Ctx s) q (put_value Ctx v')) /\
    List.length (hput (h_heap Ctx s) q (put_value Ctx v')) = List.length (h_heap Ctx s) /\
    Inv base h0 opens (mkH Ctx (hput (h_heap Ctx s) q (put_value Ctx v')) (h_events Ctx s) (q :: stk) (h_selects Ctx s) (q :: stk) (h_stream Ctx s) (h_out Ctx s))
        (mkState Ctx (st_events Ctx p) ((j, v') :: pstk) (st_select Ctx p) (st_stream Ctx p) (st_out Ctx p))).
  { intros v' Sh. set (h' := hput (h_heap Ctx s) q (put_value Ctx v')).
    assert (Tc : touched [q] (h_heap Ctx s) h') by (apply touched_put; intros; split; reflexivity).
    assert (Tc' : touched (heads (h_events Ctx s) ++ opens) (h_heap Ctx s) h').
    { eapply touched_more; [exact Tc|]. intros x [<-|[]]. apply in_or_app. right. exact Oq. }
    assert (Op : forall x, In x opens -> (x < List.length (h_heap Ctx s))%nat) by (intros x X; apply I3, in_or_app; right; exact X).
    destruct (stacks_kept [q] _ h' opens Tc Op) as [E1 E2].
    assert (Gq : hget h' q = put_value Ctx v' (hget (h_heap Ctx s) q)) by (apply hput_same; lia).
    assert (Len : List.length h' = List.length (h_heap Ctx s)) by apply hput_length.
    split; [eapply touched_more; [exact Tc|intros x [<-|[]]; exact Oq]|]. split; [exact Len|].
    split; cbn [h_heap h_events h_stack h_selects h_values h_stream h_out st_events st_stack st_select st_stream st_out]; try assumption.
    - apply (seg_change (h_heap Ctx s)); [exact I1| |].
      + intros x X. unfold Model_Heap.content. destruct (Nat.eq_dec q x) as [<-|N]; [rewrite Gq; reflexivity|].
        unfold h'. rewrite hput_other by exact N. reflexivity.
      + intros x X. destruct Tc as (_ & Al & _). apply Al, Op, X.
    - intros x X. rewrite Len. apply I3, X.
    - rewrite E2. exact I4.
    - reflexivity.
    - rewrite E1. exact I6.
    - constructor.
      + unfold opened. cbn [fst snd]. rewrite Gq. cbn. unfold Model_Heap.content. rewrite Gq. repeat split; assumption.
      + eapply opened_kept; [exact Tc| |exact K2]. intros x X.
        assert (Nq : NoDup (q :: stk)) by (rewrite I4; apply NoDup_filter; exact Ndo). inversion Nq; subst.
        assert (In x opens) by (assert (Y : In x (q :: stk)) by (right; exact X); rewrite I4 in Y; apply filter_In in Y; apply Y).
        split; [apply Op; assumption|]. intros [<-|[]]. contradiction.
    - eapply keys_kept; [exact Tc| |exact I8]. intros x X. rewrite I6 in X. apply filter_In in X. destruct X as [X Y].
      split; [apply Op; exact X|]. intros [<-|[]]. congruence.
    - eapply views_kept; eassumption.
    - intros k x X. rewrite Len. exact (I11 k x X).
    - eapply old_kept; eassumption.
    - rewrite Len. exact I13. }
  rewrite Tq, C2. destruct j as [ja jt]. cbn [fst snd] in *.
  destruct jt, w; cbn in C6; try contradiction; cbn [Model_Heap.is_array].
  - destruct (a_name Ctx (o_attrs (hget (h_heap Ctx s) b))); [|reflexivity]. apply Go. exact Logic.I.
  - apply Go. exact Logic.I.
  - apply Go. exact Logic.I.
  - apply Go. exact Logic.I.
Qed.

(** Changing objects that are neither open, nor handed out, nor old. *)
Lemma aside : forall base h0 opens s p h' T evs pevs strm, Inv base h0 opens s p ->
  touched T (h_heap Ctx s) h' ->
  (forall a, In a T -> (base <= a)%nat /\ ~ In a opens /\ ~ In a (map snd (h_out Ctx s))) ->
  seg h' opens evs pevs [] -> NoDup (heads evs ++ opens) ->
  (forall a, In a (heads evs) -> In a (heads (h_events Ctx s)) \/ (List.length (h_heap Ctx s) <= a < List.length h')%nat) ->
  Inv base h0 opens (mkH Ctx h' evs (h_stack Ctx s) (h_selects Ctx s) (h_values Ctx s) strm (h_out Ctx s))
    (mkState Ctx pevs (st_stack Ctx p) (st_select Ctx p) strm (st_out Ctx p)).
Proof.
  intros base h0 opens s p h' T evs pevs strm I Tc Ti Sg Nd Hd.
  assert (Op : forall a, In a opens -> (a < List.length (h_heap Ctx s))%nat /\ ~ In a T).
  { intros a A. split; [apply (range_of _ _ _ _ _ a I); right; exact A|]. intros B. apply Ti in B. destruct B as (_ & B & _). exact (B A). }
  destruct (stacks_kept T _ h' opens Tc (fun a A => proj1 (Op a A))) as [E1 E2].
  destruct Tc as (L & Al & Eq). split; cbn.
  - exact Sg.
  - exact Nd.
  - intros a A. apply in_app_or in A. destruct A as [A|A].
    + destruct (Hd a A) as [B|B]; [|pose proof (iv_base _ _ _ _ _ I); lia]. pose proof (range_of _ _ _ _ _ a I (or_introl B)). lia.
    + pose proof (range_of _ _ _ _ _ a I (or_intror A)). lia.
  - rewrite E2. apply (iv_stack _ _ _ _ _ I).
  - apply (iv_values _ _ _ _ _ I).
  - rewrite E1. apply (iv_selects _ _ _ _ _ I).
  - eapply opened_kept; [exact (conj L (conj Al Eq))| |exact (iv_open _ _ _ _ _ I)].
    intros a A. apply Op. rewrite (iv_stack _ _ _ _ _ I) in A. apply filter_In in A. apply A.
  - eapply keys_kept; [exact (conj L (conj Al Eq))| |exact (iv_keys _ _ _ _ _ I)].
    intros a A. apply Op. rewrite (iv_selects _ _ _ _ _ I) in A. apply filter_In in A. apply A.
  - reflexivity.
  - rewrite <- (iv_out _ _ _ _ _ I). apply map_ext_in. intros [k a] In1. unfold view. cbn [fst snd].
    rewrite Eq; [reflexivity|apply (iv_kept _ _ _ _ _ I k a In1)|].
    intros B. apply Ti in B. destruct B as (_ & _ & B). apply B. apply (in_map snd _ _ In1).
  - intros k a A. destruct (iv_kept _ _ _ _ _ I k a A) as (B & N & M). split; [lia|]. split; [|exact M].
    intros C. destruct (Hd a C) as [D|D]; [exact (N D)|lia].
  - intros a A. rewrite <- (iv_old _ _ _ _ _ I a A). pose proof (iv_base _ _ _ _ _ I). apply Eq; [lia|].
    intros B. apply Ti in B. lia.
  - pose proof (iv_base _ _ _ _ _ I). lia.
Qed.

Definition ended (base : nat) (h0 h : heap) (out : list (ykind * nat)) (out' : list oev) : Prop :=
  map (view Ctx h) out = map Some out' /\ (forall a, (a < base)%nat -> hget h a = hget h0 a) /\ (base <= List.length h)%nat /\
  (forall k a, In (k, a) out -> (base <= a < List.length h)%nat).
Definition matches (base : nat) (h0 : heap) (r : hstep_res Ctx) (r' : step_res Ctx) : Prop :=
  match r, r' with
  | HNext _ s', Next _ p' => exists opens, Inv base h0 opens s' p'
  | HStop _ h out strm o, Stop _ out' strm' o' => strm = strm' /\ o = o' /\ ended base h0 h out out'
  | _, _ => False
  end.

Lemma inv_ended : forall base h0 opens s p, Inv base h0 opens s p -> ended base h0 (h_heap Ctx s) (h_out Ctx s) (st_out Ctx p).
Proof. intros base h0 opens s p [I1 I2 I3 I4 I5 I6 I7 I8 I9 I10 I11 I12 I13]. repeat split; try assumption; intros; eapply I11; eassumption. Qed.
Lemma stops : forall base h0 opens s p e, Inv base h0 opens s p -> matches base h0 (hstop Ctx s e) (stop Ctx p e).
Proof.
  intros base h0 opens s p e I. unfold hstop, stop, matches. rewrite (iv_stream _ _ _ _ _ I). split; [reflexivity|]. split; [reflexivity|]. apply (inv_ended _ _ _ _ _ I).
Qed.

Lemma inv_eta : forall base h0 opens s p, Inv base h0 opens s p ->
  Inv base h0 opens (mkH Ctx (h_heap Ctx s) (h_events Ctx s) (h_stack Ctx s) (h_selects Ctx s) (h_values Ctx s) (h_stream Ctx s) (h_out Ctx s))
    (mkState Ctx (st_events Ctx p) (st_stack Ctx p) (st_select Ctx p) (st_stream Ctx p) (st_out Ctx p)).
Proof. intros base h0 opens s p [I1 I2 I3 I4 I5 I6 I7 I8 I9 I10 I11 I12 I13]. split; assumption. Qed.

(** A leaf is read. *)
Lemma reading : forall base h0 opens s p b (next : heap -> stream -> value -> hstep_res Ctx)
    (pnext : list (item * value) -> stream -> value -> step_res Ctx),
  Inv base h0 opens s p -> (base <= b < List.length (h_heap Ctx s))%nat -> ~ In b (heads (h_events Ctx s)) -> ~ In b opens ->
  ~ In b (map snd (h_out Ctx s)) ->
  (forall h3 stk s' v, Inv base h0 opens
     (mkH Ctx h3 (h_events Ctx s) (h_stack Ctx s) (h_selects Ctx s) (h_values Ctx s) s' (h_out Ctx s ++ [(YLeaf, b)]))
     (mkState Ctx (st_events Ctx p) stk (st_select Ctx p) s'
        (st_out Ctx p ++ [OLeaf Ctx (a_name Ctx (o_attrs (hget (h_heap Ctx s) b))) (o_ty (hget (h_heap Ctx s) b)) (s_pos (st_stream Ctx p)) v])) ->
     collect Ctx (content (h_heap Ctx s) b) v (st_stack Ctx p) = Ok stk ->
     matches base h0 (next h3 s' v) (pnext stk s' v)) ->
  matches base h0 (hleaf Ctx s (h_heap Ctx s) b next)
    (let pos := s_pos (st_stream Ctx p) in
     match read_leaf Ctx (o_ty (hget (h_heap Ctx s) b)) (st_stream Ctx p) with
     | LeafOk v s' =>
         match collect Ctx (content (h_heap Ctx s) b) v (st_stack Ctx p) with
         | Raise x => Stop Ctx (st_out Ctx p) s' (Failed x)
         | Ok stk => pnext stk s' v
         end
     | LeafError s' x => Stop Ctx (st_out Ctx p ++ [OError Ctx (a_name Ctx (o_attrs (hget (h_heap Ctx s) b))) (o_ty (hget (h_heap Ctx s) b)) pos x]) s' (Failed (ParseError x pos))
     | LeafRaise s' x => Stop Ctx (st_out Ctx p) s' (Failed x)
     | LeafFuel => Stop Ctx (st_out Ctx p) (st_stream Ctx p) OutOfFuel
     end).
Proof.
  intros base h0 opens s p b next pnext I Rb Nh No Nt K. unfold hleaf. rewrite (iv_stream _ _ _ _ _ I). cbv zeta.
  set (pos := s_pos (st_stream Ctx p)).
  assert (Chg : forall h' strm, touched [b] (h_heap Ctx s) h' ->
    Inv base h0 opens (mkH Ctx h' (h_events Ctx s) (h_stack Ctx s) (h_selects Ctx s) (h_values Ctx s) strm (h_out Ctx s))
    (mkState Ctx (st_events Ctx p) (st_stack Ctx p) (st_select Ctx p) strm (st_out Ctx p))).
  { intros h' strm Tc. apply (aside _ _ _ _ _ h' [b] (h_events Ctx s) (st_events Ctx p) strm I Tc).
    - intros a [<-|[]]. repeat split; [lia|exact No|exact Nt].
    - apply (seg_change (h_heap Ctx s)); [exact (iv_seg _ _ _ _ _ I)| |].
      + intros a A. unfold Model_Heap.content. destruct Tc as (_ & _ & Eq).
        rewrite Eq; [reflexivity|apply (range_of _ _ _ _ _ a I (or_introl A))|]. intros [<-|[]]. exact (Nh A).
      + intros a A. destruct Tc as (_ & Al & _). apply Al. apply (range_of _ _ _ _ _ a I (or_intror A)).
    - exact (iv_nodup _ _ _ _ _ I).
    - intros a A. left. exact A. }
  assert (T1 : touched [b] (h_heap Ctx s) (hput (h_heap Ctx s) b (put_offset Ctx pos))) by (apply touched_put; intros; split; reflexivity).
  destruct (read_leaf Ctx (o_ty (hget (h_heap Ctx s) b)) (st_stream Ctx p)) as [v s'|s' x|s' x|].
  - set (h2 := hput (hput (h_heap Ctx s) b (put_offset Ctx pos)) b (put_value Ctx v)).
    assert (T2 : touched [b] (h_heap Ctx s) h2).
    { eapply touched_trans; [exact T1|]. apply touched_put. intros; split; reflexivity. }
    assert (G2 : hget h2 b = put_value Ctx v (put_offset Ctx pos (hget (h_heap Ctx s) b))).
    { unfold h2. rewrite hput_same by (rewrite hput_length; lia). rewrite hput_same by lia. reflexivity. }
    assert (Len : List.length h2 = List.length (h_heap Ctx s)) by (unfold h2; rewrite !hput_length; reflexivity).
    pose proof (Chg h2 s' T2) as I2. pose proof (collecting _ _ _ _ _ b v I2) as C. cbn [h_heap h_values st_stack h_events h_stack h_selects h_stream h_out st_events st_select st_stream st_out] in C.
    assert (Cb : content h2 b = content (h_heap Ctx s) b) by (unfold Model_Heap.content; rewrite G2; reflexivity).
    rewrite Cb in C.
    destruct (hcollect Ctx h2 (h_values Ctx s) b v) as [h3|x] eqn:Eh;
      destruct (collect Ctx (content (h_heap Ctx s) b) v (st_stack Ctx p)) as [stk|y] eqn:Ec; try contradiction.
    + destruct C as (T3 & L3 & I3).
      assert (G3 : hget h3 b = hget h2 b) by (destruct T3 as (_ & _ & Eq); apply Eq; [rewrite Len; lia|exact No]).
      apply K; [|exact Ec].
      apply (hand_out _ _ _ _ _ YLeaf b (OLeaf Ctx (a_name Ctx (o_attrs (hget (h_heap Ctx s) b))) (o_ty (hget (h_heap Ctx s) b)) pos v) I3);
        cbn [h_heap h_events].
      * unfold view. cbn [fst snd]. rewrite G3, G2. reflexivity.
      * rewrite L3, Len. exact Rb.
      * exact Nh.
      * intros _. exact No.
    + subst y. cbn [matches]. split; [reflexivity|]. split; [reflexivity|]. exact (inv_ended _ _ _ _ _ I2).
  - set (h2 := hput (hput (h_heap Ctx s) b (put_offset Ctx pos)) b (put_exn Ctx x)).
    assert (T2 : touched [b] (h_heap Ctx s) h2).
    { eapply touched_trans; [exact T1|]. apply touched_put. intros; split; reflexivity. }
    assert (G2 : hget h2 b = put_exn Ctx x (put_offset Ctx pos (hget (h_heap Ctx s) b))).
    { unfold h2. rewrite hput_same by (rewrite hput_length; lia). rewrite hput_same by lia. reflexivity. }
    assert (Len : List.length h2 = List.length (h_heap Ctx s)) by (unfold h2; rewrite !hput_length; reflexivity).
    cbn [matches]. split; [reflexivity|]. split; [reflexivity|].
    pose proof (Chg h2 s' T2) as I2.
    assert (I3 := hand_out _ _ _ _ _ YError b (OError Ctx (a_name Ctx (o_attrs (hget (h_heap Ctx s) b))) (o_ty (hget (h_heap Ctx s) b)) pos x) I2).
    cbn [h_heap h_events h_stack h_selects h_values h_stream h_out st_events st_stack st_select st_stream st_out] in I3.
    assert (I4 : view Ctx h2 (YError, b) = Some (OError Ctx (a_name Ctx (o_attrs (hget (h_heap Ctx s) b))) (o_ty (hget (h_heap Ctx s) b)) pos x)).
    { unfold view. cbn [fst snd]. rewrite G2. reflexivity. }
    specialize (I3 I4 ltac:(rewrite Len; exact Rb) Nh (fun _ => No)). exact (inv_ended _ _ _ _ _ I3).
  - cbn [matches]. split; [reflexivity|]. split; [reflexivity|]. exact (inv_ended _ _ _ _ _ (Chg _ s' T1)).
  - cbn [matches]. split; [reflexivity|]. split; [reflexivity|]. exact (inv_ended _ _ _ _ _ (Chg _ (st_stream Ctx p) T1)).
Qed.

(** The items of an array are repeated. *)
Lemma expanding : forall base h0 opens s p a at0 t rest rest' n, Inv base h0 opens s p ->
  h_events Ctx s = (KStart, a) :: rest -> st_events Ctx p = BStart (at0, t) :: rest' ->
  matches base h0 (hexpand Ctx s (h_heap Ctx s) (h_stream Ctx s) (h_out Ctx s) n a rest)
    (expand_array Ctx n at0 t rest' p (st_stream Ctx p) (st_out Ctx p)).
Proof.
  intros base h0 opens s p a at0 t rest rest' n I Ev Pv.
  pose proof (iv_seg _ _ _ _ _ I) as Sg. rewrite Ev, Pv in Sg. inversion Sg as [| |? ? ? ? ? ? Ci Lf Sg'|]; subst.
  pose proof (iv_nodup _ _ _ _ _ I) as Nd. rewrite Ev in Nd. change (NoDup (a :: heads rest ++ opens)) in Nd. inversion Nd as [|? ? Na Nr]; subst.
  assert (Ha : In a (heads (h_events Ctx s))) by (rewrite Ev; left; reflexivity).
  assert (Hr : forall x, In x (heads rest) -> In x (heads (h_events Ctx s))) by (intros x X; rewrite Ev; right; exact X).
  pose proof (range_of _ _ _ _ _ a I (or_introl Ha)) as Ra.
  destruct (seg_pop _ _ _ _ Sg' [] a opens eq_refl) as (sub & rst & sub' & rst' & i & P1 & P2 & P3 & Ti & S1 & S2).
  cbn [List.length Z.of_nat] in P1, P2. unfold hexpand, expand_array, pop_subevents. rewrite P1, P2. cbn [fst snd]. rewrite !rev_app_distr. cbn [rev app].
  rewrite !rev_involutive.
  set (f := fun o => put_attrs Ctx (with_count Ctx (o_attrs o) n) o). set (h1 := hput (h_heap Ctx s) a f).
  assert (T1 : touched [a] (h_heap Ctx s) h1) by (apply touched_put; intros; split; reflexivity).
  assert (L1 : List.length h1 = List.length (h_heap Ctx s)) by apply hput_length.
  assert (Sub : forall x, In x (heads sub) -> In x (heads rest)) by (intros x X; rewrite P3, heads_app; apply in_or_app; left; exact X).
  assert (Rst : forall x, In x (heads rst) -> In x (heads rest)).
  { intros x X. rewrite P3, heads_app. apply in_or_app. right. exact X. }
  assert (Other : forall x, In x (heads rest) -> hget h1 x = hget (h_heap Ctx s) x).
  { intros x X. unfold h1. apply hput_other. intros <-. apply Na, in_or_app. left. exact X. }
  assert (S1' : seg h1 [] sub sub' []).
  { apply (seg_change (h_heap Ctx s)); [exact S1| |intros x []]. intros x X. unfold Model_Heap.content. rewrite Other by (apply Sub; exact X). reflexivity. }
  destruct (clones_seg h1 sub sub' S1') with (n := Z.to_nat n) (x := @nil obj) as (new & out & C & D & N & B).
  { intros x X. rewrite L1. apply (range_of _ _ _ _ _ x I). left. apply Hr, Sub, X. }
  rewrite app_nil_r in *. rewrite C.
  exists opens. cbn [matches].
  assert (T2 : touched [a] (h_heap Ctx s) (h1 ++ new)).
  { eapply touched_trans; [exact T1|]. eapply touched_more; [apply touched_app|intros x []]. }
  assert (Ga : hget (h1 ++ new) a = f (hget (h_heap Ctx s) a)).
  { rewrite hget_app by (rewrite L1; lia). apply hput_same. lia. }
  assert (Eq : (h_stream Ctx s) = st_stream Ctx p) by apply (iv_stream _ _ _ _ _ I). rewrite Eq.
  apply (rebuild base h0 opens s p (h1 ++ new) [a]); [exact I|exact T2|intros x [<-|[]]; exact Ha| | |].
  - apply seg_start.
    + unfold Model_Heap.content in *. rewrite Ga. injection Ci as <- <-. reflexivity.
    + exact Lf.
    + eapply seg_app; [apply (seg_frame _ _ _ _ _ D (a :: opens))|]. cbn [app]. apply seg_end.
      * rewrite Ga. exact Ti.
      * apply (seg_change (h_heap Ctx s)); [exact S2| |].
        -- intros x X. unfold Model_Heap.content. pose proof (range_of _ _ _ _ _ x I (or_introl (Hr x (Rst x X)))).
           rewrite hget_app by (rewrite L1; lia). rewrite Other by (apply Rst; exact X). reflexivity.
        -- intros x X. destruct T2 as (_ & Al & _). apply Al. apply (range_of _ _ _ _ _ x I (or_intror X)).
  - change (heads ((KStart, a) :: out ++ (KEnd, a) :: rst)) with (a :: heads (out ++ (KEnd, a) :: rst)).
    rewrite heads_app. change (heads ((KEnd, a) :: rst)) with (heads rst).
    assert (Nr2 : NoDup (heads rst ++ opens)).
    { rewrite P3, heads_app in Nr. change (heads ((KEnd, a) :: rst)) with (heads rst) in Nr. rewrite <- app_assoc in Nr. clear - Nr.
      induction (heads sub); [exact Nr|apply IHl; inversion Nr; assumption]. }
    cbn [app]. rewrite <- app_assoc. constructor.
    + intros X. apply in_app_or in X. destruct X as [X|X]; [apply B in X; lia|]. apply Na. apply in_app_or in X. apply in_or_app.
      destruct X as [X|X]; [left; apply Rst, X|right; exact X].
    + assert (Bo : forall x, In x (heads rst ++ opens) -> (x < List.length (h_heap Ctx s))%nat).
      { intros x X. apply in_app_or in X. destruct X as [X|X]; [apply (range_of _ _ _ _ _ x I (or_introl (Hr x (Rst x X))))|apply (range_of _ _ _ _ _ x I (or_intror X))]. }
      clear - N B Nr2 Bo L1. revert N B. generalize (heads out) as m. induction m as [|y m IH]; intros N B; [exact Nr2|].
      inversion N as [|? ? N1 N2]; subst. cbn [app]. constructor; [|apply IH; [exact N2|intros x X; apply B; right; exact X]].
      intros X. apply in_app_or in X. destruct X as [X|X]; [exact (N1 X)|]. apply Bo in X. pose proof (B y (or_introl eq_refl)). lia.
  - intros x X. change (heads ((KStart, a) :: out ++ (KEnd, a) :: rst)) with (a :: heads (out ++ (KEnd, a) :: rst)) in X.
    rewrite heads_app in X. change (heads ((KEnd, a) :: rst)) with (heads rst) in X.
    destruct X as [<-|X]; [left; exact Ha|]. apply in_app_or in X. destruct X as [X|X]; [right; apply B in X; lia|left; apply Hr, Rst, X].
Qed.

(** An event is looked at again with a key removed, or passed over with all
    that belongs to it. *)
Lemma again_or_over : forall base h0 opens s p k a e rest rest' (g : attrs -> attrs) (b : bool), Inv base h0 opens s p ->
  h_events Ctx s = (k, a) :: rest -> st_events Ctx p = e :: rest' -> k <> KEnd -> (forall x, a_name Ctx (g x) = a_name Ctx x) ->
  exists opens', Inv base h0 opens'
    (mkH Ctx (hput (h_heap Ctx s) a (fun o => put_attrs Ctx (g (o_attrs o)) o)) (if b then (k, a) :: rest else hskip k rest)
       (h_stack Ctx s) (h_selects Ctx s) (h_values Ctx s) (h_stream Ctx s) (h_out Ctx s))
    (mkState Ctx (if b then bev_with Ctx e (g (fst (bev_item Ctx e)), snd (bev_item Ctx e)) :: rest' else skip_tree Ctx e rest')
       (st_stack Ctx p) (st_select Ctx p) (st_stream Ctx p) (st_out Ctx p)).
Proof.
  intros base h0 opens s p k a e rest rest' g b I Ev Pv Nk Gn. exists opens.
  pose proof (iv_seg _ _ _ _ _ I) as Sg. rewrite Ev, Pv in Sg.
  assert (Hh : heads (h_events Ctx s) = a :: heads rest) by (rewrite Ev; destruct k; [reflexivity|congruence|reflexivity]).
  pose proof (iv_nodup _ _ _ _ _ I) as Nd. rewrite Hh in Nd. inversion Nd as [|? ? Na Nr]; subst.
  assert (Ra : (base <= a < List.length (h_heap Ctx s))%nat) by (apply (range_of _ _ _ _ _ a I); left; rewrite Hh; left; reflexivity).
  set (f := fun o => put_attrs Ctx (g (o_attrs o)) o). set (h1 := hput (h_heap Ctx s) a f).
  assert (T1 : touched [a] (h_heap Ctx s) h1) by (apply touched_put; intros; split; [reflexivity|apply Gn]).
  assert (Ga : hget h1 a = f (hget (h_heap Ctx s) a)) by (apply hput_same; lia).
  assert (Other : forall x, In x (heads rest) -> hget h1 x = hget (h_heap Ctx s) x).
  { intros x X. unfold h1. apply hput_other. intros <-. apply Na, in_or_app. left. exact X. }
  assert (Ty : forall x, In x (a :: opens) -> o_ty (hget h1 x) = o_ty (hget (h_heap Ctx s) x)).
  { intros x [<-|X]; [rewrite Ga; reflexivity|]. destruct T1 as (_ & Al & _). apply Al. apply (range_of _ _ _ _ _ x I (or_intror X)). }
  rewrite (iv_stream _ _ _ _ _ I).
  assert (Chg : forall o l pl, seg (h_heap Ctx s) o l pl [] -> (forall x, In x (heads l) -> In x (heads rest)) -> incl o (a :: opens) -> seg h1 o l pl []).
  { intros o l pl Q Hl Ho. apply (seg_change (h_heap Ctx s)); [exact Q| |].
    - intros x X. unfold Model_Heap.content. rewrite Other by (apply Hl; exact X). reflexivity.
    - intros x X. apply Ty. apply Ho. exact X. }
  apply (rebuild base h0 opens s p h1 [a]); [exact I|exact T1|intros x [<-|[]]; rewrite Hh; left; reflexivity| | |].
  - destruct b.
    + inversion Sg as [|? ? ? ? ? ? Ci Lf Sg'|? ? ? ? ? ? Ci Lf Sg'|]; subst; cbn [bev_with bev_item].
      * apply seg_leaf; [unfold Model_Heap.content; rewrite Ga; reflexivity|exact Lf|]. apply Chg; [exact Sg'|auto|apply incl_tl, incl_refl].
      * apply seg_start; [unfold Model_Heap.content; rewrite Ga; reflexivity|exact Lf|]. apply Chg; [exact Sg'|auto|apply incl_refl].
      * congruence.
    + inversion Sg as [|? ? ? ? ? ? Ci Lf Sg'|? ? ? ? ? ? Ci Lf Sg'|]; subst; cbn [hskip skip_tree].
      * apply Chg; [exact Sg'|auto|apply incl_tl, incl_refl].
      * destruct (seg_pop _ _ _ _ Sg' [] a opens eq_refl) as (sub & rst & sub' & rst' & i & P1 & P2 & P3 & Ti & S1 & S2).
        cbn [List.length Z.of_nat] in P1, P2. unfold pop_subevents. rewrite P1, P2. cbn [snd].
        apply Chg; [exact S2| |apply incl_tl, incl_refl]. intros x X. rewrite P3, heads_app. apply in_or_app. right. exact X.
      * congruence.
  - destruct b.
    + rewrite Ev in Hh. rewrite Hh. exact Nd.
    + destruct k; [|congruence|exact Nr]. inversion Sg as [| |? ? ? ? ? ? Ci Lf Sg'|]; subst.
      destruct (seg_pop _ _ _ _ Sg' [] a opens eq_refl) as (sub & rst & sub' & rst' & i & P1 & P2 & P3 & Ti & S1 & S2).
      cbn [List.length Z.of_nat] in P1. cbn [hskip]. rewrite P1. cbn [snd].
      rewrite P3, heads_app in Nr. change (heads ((KEnd, a) :: rst)) with (heads rst) in Nr. rewrite <- app_assoc in Nr. clear - Nr.
      induction (heads sub); [exact Nr|apply IHl; inversion Nr; assumption].
  - intros x X. left. rewrite Hh. destruct b.
    + rewrite Ev in Hh. rewrite Hh in X. exact X.
    + right. destruct k; [|congruence|exact X]. inversion Sg as [| |? ? ? ? ? ? Ci Lf Sg'|]; subst.
      destruct (seg_pop _ _ _ _ Sg' [] a opens eq_refl) as (sub & rst & sub' & rst' & i & P1 & P2 & P3 & Ti & S1 & S2).
      cbn [List.length Z.of_nat] in P1. cbn [hskip] in X. rewrite P1 in X. cbn [snd] in X. rewrite P3, heads_app. apply in_or_app. right. exact X.
Qed.

Lemma parent_is : forall base h0 opens s p, Inv base h0 opens s p ->
  parent_value Ctx s = match st_stack Ctx p with [] => Raise IndexError | (_, pv) :: _ => Ok pv end.
Proof.
  intros base h0 opens s p I. pose proof (iv_open _ _ _ _ _ I) as F. unfold parent_value.
  destruct F as [|q [j v] l m O F]; [reflexivity|]. destruct O as (_ & -> & _). reflexivity.
Qed.

Lemma looks_again : forall base h0 opens c s p k a e rest rest' at0 t, Inv base h0 opens s p ->
  h_events Ctx s = (k, a) :: rest -> st_events Ctx p = e :: rest' -> k <> KEnd -> bev_item Ctx e = (at0, t) ->
  (forall i, e <> BEnd i) -> match t with TSel _ _ _ => False | _ => True end ->
  content (h_heap Ctx s) a = (at0, t) -> a_when Ctx at0 <> None \/ a_cond Ctx at0 <> None ->
  matches base h0 (hstep Ctx c s) (step Ctx c p).
Proof.
  intros base h0 opens c s p k a e rest rest' at0 t I Ev Pv Nk Be Ne Nt Ca D.
  assert (Ta : o_ty (hget (h_heap Ctx s) a) = t) by (unfold Model_Heap.content in Ca; congruence).
  assert (Aa : o_attrs (hget (h_heap Ctx s) a) = at0) by (unfold Model_Heap.content in Ca; congruence).
  pose proof (fun g b => again_or_over base h0 opens s p k a e rest rest' g b I Ev Pv Nk) as Go. rewrite Be in Go. cbn [fst snd] in Go.
  assert (E : step Ctx c p =
    match a_when Ctx at0 with
    | Some w =>
        match st_select Ctx p with
        | [] => stop Ctx p IndexError
        | key :: _ =>
            if w =? key
            then Next Ctx (mkState Ctx (bev_with Ctx e (without_when Ctx at0, t) :: rest') (st_stack Ctx p) (st_select Ctx p) (st_stream Ctx p) (st_out Ctx p))
            else Next Ctx (mkState Ctx (skip_tree Ctx e rest') (st_stack Ctx p) (st_select Ctx p) (st_stream Ctx p) (st_out Ctx p))
        end
    | None =>
        match a_cond Ctx at0 with
        | None => step Ctx c p
        | Some cond =>
            match st_stack Ctx p with
            | [] => stop Ctx p IndexError
            | (_, pv) :: _ =>
                match cond c pv with
                | Raise x => stop Ctx p x
                | Ok true => Next Ctx (mkState Ctx (bev_with Ctx e (without_cond Ctx at0, t) :: rest') (st_stack Ctx p) (st_select Ctx p) (st_stream Ctx p) (st_out Ctx p))
                | Ok false => Next Ctx (mkState Ctx (skip_tree Ctx e rest') (st_stack Ctx p) (st_select Ctx p) (st_stream Ctx p) (st_out Ctx p))
                end
            end
        end
    end).
  { destruct (a_when Ctx at0) eqn:W; [|destruct (a_cond Ctx at0) eqn:Q; [|reflexivity]]; unfold step; rewrite Pv, Be; cbn [fst];
      destruct t; try contradiction; destruct e as [j|j|j]; try (exfalso; exact (Ne j eq_refl)); rewrite W; try rewrite Q; reflexivity. }
  rewrite E. clear E.
  assert (E : hstep Ctx c s =
    match a_when Ctx at0 with
    | Some w =>
        match h_selects Ctx s with
        | [] => hstop Ctx s IndexError
        | sel :: _ =>
            match o_select (hget (h_heap Ctx s) sel) with
            | None => hstop Ctx s KeyError
            | Some key => HNext Ctx (mkH Ctx (hput (h_heap Ctx s) a (fun o => put_attrs Ctx (without_when Ctx (o_attrs o)) o))
                   (if w =? key then (k, a) :: rest else hskip k rest)
                   (h_stack Ctx s) (h_selects Ctx s) (h_values Ctx s) (h_stream Ctx s) (h_out Ctx s))
            end
        end
    | None =>
        match a_cond Ctx at0 with
        | None => hstep Ctx c s
        | Some cond =>
            match (let? pv := parent_value Ctx s in cond c pv) with
            | Raise x => hstop Ctx s x
            | Ok b => HNext Ctx (mkH Ctx (hput (h_heap Ctx s) a (fun o => put_attrs Ctx (without_cond Ctx (o_attrs o)) o))
                   (if b then (k, a) :: rest else hskip k rest)
                   (h_stack Ctx s) (h_selects Ctx s) (h_values Ctx s) (h_stream Ctx s) (h_out Ctx s))
            end
        end
    end).
  { destruct (a_when Ctx at0) eqn:W; [|destruct (a_cond Ctx at0) eqn:Q; [|reflexivity]]; unfold hstep; rewrite Ev; cbv zeta; rewrite Ta, Aa, W; try rewrite Q;
      destruct t; try contradiction; destruct k; try congruence; reflexivity. }
  rewrite E. clear E.
  destruct (a_when Ctx at0) as [w|].
  - destruct (iv_keys _ _ _ _ _ I) as [|sel key sels keys Sk _]; [apply (stops _ _ _ _ _ _ I)|]. rewrite Sk.
    destruct (Go (without_when Ctx) (w =? key) (fun _ => eq_refl)) as [opens' I']. destruct (w =? key); exists opens'; exact I'.
  - destruct (a_cond Ctx at0) as [cond|]; [|destruct D; congruence].
    rewrite (parent_is _ _ _ _ _ I). destruct (st_stack Ctx p) as [|[j pv] below] eqn:Es; cbn [bind]; [apply (stops _ _ _ _ _ _ I)|].
    destruct (cond c pv) as [b|x]; [|apply (stops _ _ _ _ _ _ I)].
    destruct (Go (without_cond Ctx) b (fun _ => eq_refl)) as [opens' I']. destruct b; exists opens'; exact I'.
Qed.

Lemma not_out : forall base h0 opens s p a, Inv base h0 opens s p -> In a (heads (h_events Ctx s)) -> ~ In a (map snd (h_out Ctx s)).
Proof.
  intros base h0 opens s p a I Ha Ho. apply in_map_iff in Ho. destruct Ho as ([k x] & <- & X).
  destruct (iv_kept _ _ _ _ _ I k x X) as (_ & N & _). exact (N Ha).
Qed.

Lemma steps : forall base h0 opens c s p, Inv base h0 opens s p -> matches base h0 (hstep Ctx c s) (step Ctx c p).
Proof.
  intros base h0 opens c s p I. pose proof (iv_seg _ _ _ _ _ I) as Sg.
  destruct (h_events Ctx s) as [|[k a] rest] eqn:Ev.
  { inversion Sg as [? E1 E2 E3| | |]; subst. unfold hstep, step. rewrite Ev, <- E3. cbn [matches]. split; [apply (iv_stream _ _ _ _ _ I)|]. split; [reflexivity|].
    apply (inv_ended _ _ _ _ _ I). }
  destruct (st_events Ctx p) as [|e rest'] eqn:Pv; [inversion Sg|].
  inversion Sg as [|? ? ? [at0 t] ? ? Ci Lf Sg' E1 E2|? ? ? [at0 t] ? ? Ci Lf Sg'|o2 ? ? i ? ? Ti Sg']; subst.
  - (* a leaf *)
    assert (Ha : In a (heads (h_events Ctx s))) by (rewrite Ev; left; reflexivity).
    destruct (a_when Ctx at0) eqn:W.
    { eapply looks_again; [exact I|exact Ev|exact Pv|discriminate|reflexivity|discriminate|destruct t; try discriminate; exact Logic.I|exact Ci|left; congruence]. }
    destruct (a_cond Ctx at0) eqn:Q.
    { eapply looks_again; [exact I|exact Ev|exact Pv|discriminate|reflexivity|discriminate|destruct t; try discriminate; exact Logic.I|exact Ci|right; congruence]. }
    assert (Ta : o_ty (hget (h_heap Ctx s) a) = t) by (unfold Model_Heap.content in Ci; congruence).
    assert (Aa : o_attrs (hget (h_heap Ctx s) a) = at0) by (unfold Model_Heap.content in Ci; congruence).
    pose proof (range_of _ _ _ _ _ a I (or_introl Ha)) as Ra.
    pose proof (iv_nodup _ _ _ _ _ I) as Nd. rewrite Ev in Nd. change (NoDup (a :: heads rest ++ opens)) in Nd. inversion Nd as [|? ? Na Nr]; subst x l.
    pose proof (rebuild base h0 opens s p (h_heap Ctx s) [] rest rest' (h_stream Ctx s) I (touched_refl _) ltac:(intros x []) Sg' Nr
      ltac:(intros x X; left; rewrite Ev; right; exact X)) as I1.
    set (s1 := mkH Ctx (h_heap Ctx s) rest (h_stack Ctx s) (h_selects Ctx s) (h_values Ctx s) (h_stream Ctx s) (h_out Ctx s)) in *.
    set (p1 := mkState Ctx rest' (st_stack Ctx p) (st_select Ctx p) (h_stream Ctx s) (st_out Ctx p)) in *.
    pose proof (reading base h0 opens s1 p1 a
      (fun h' s' v => HNext Ctx (mkH Ctx h' rest (h_stack Ctx s) (h_selects Ctx s) (h_values Ctx s) s' (h_out Ctx s ++ [(YLeaf, a)])))
      (fun stk s' v => Next Ctx (mkState Ctx rest' stk (st_select Ctx p) s' (st_out Ctx p ++ [OLeaf Ctx (a_name Ctx at0) t (s_pos (h_stream Ctx s)) v])))
      I1 Ra) as R. unfold s1, p1 in R. cbn [h_events h_out] in R.
    specialize (R ltac:(intros X; apply Na, in_or_app; left; exact X) ltac:(intros X; apply Na, in_or_app; right; exact X) (not_out _ _ _ _ _ a I Ha)).
    cbn [h_heap h_stack h_selects h_values h_stream st_events st_stack st_select st_stream st_out] in R. rewrite Ta, Aa in R. fold s1 in R.
    specialize (R (fun h3 stk s' v X _ => ex_intro _ opens X)).
    rewrite (iv_stream _ _ _ _ _ I) in R. rewrite Ci in R.
    replace (hstep Ctx c s) with (hleaf Ctx s1 (h_heap Ctx s) a (fun h' s' v => HNext Ctx (mkH Ctx h' rest (h_stack Ctx s) (h_selects Ctx s) (h_values Ctx s) s' (h_out Ctx s ++ [(YLeaf, a)])))).
    2: { unfold hstep. rewrite Ev. cbv zeta. rewrite Ta, Aa, W, Q. destruct t; try discriminate; reflexivity. }
    revert R. unfold step. rewrite Pv. cbn [bev_item]. rewrite W, Q. destruct t; try discriminate; intros R; exact R.
  - (* a composite item or a selection begins *)
    assert (Ha : In a (heads (h_events Ctx s))) by (rewrite Ev; left; reflexivity).
    assert (Ta : o_ty (hget (h_heap Ctx s) a) = t) by (unfold Model_Heap.content in Ci; congruence).
    assert (Aa : o_attrs (hget (h_heap Ctx s) a) = at0) by (unfold Model_Heap.content in Ci; congruence).
    pose proof (range_of _ _ _ _ _ a I (or_introl Ha)) as Ra.
    pose proof (iv_nodup _ _ _ _ _ I) as Nd. rewrite Ev in Nd. change (NoDup (a :: heads rest ++ opens)) in Nd. inversion Nd as [|? ? Na Nr]; subst x l.
    destruct (selb (h_heap Ctx s) a) eqn:Sl.
    { unfold selb in Sl. rewrite Ta in Sl. destruct t as [| | | | | |selector l]; try discriminate.
      unfold hstep, step. rewrite Ev, Pv. cbv zeta. rewrite Ta. cbn [bev_item]. rewrite (parent_is _ _ _ _ _ I).
      destruct (st_stack Ctx p) as [|[j pv] below] eqn:Es; cbn [bind]; [apply (stops _ _ _ _ _ _ I)|].
      destruct (selector c pv) as [key|x]; [|apply (stops _ _ _ _ _ _ I)].
      exists (a :: opens). rewrite <- Es. apply (selecting base h0 opens s p a (at0, TSel Ctx selector l) rest rest' key I Ev Pv).
      unfold selb. rewrite Ta. reflexivity. }
    assert (Ns : match t with TSel _ _ _ => False | _ => True end) by (unfold selb in Sl; rewrite Ta in Sl; destruct t; try exact Logic.I; discriminate).
    destruct (a_when Ctx at0) eqn:W.
    { eapply looks_again; [exact I|exact Ev|exact Pv|discriminate|reflexivity|discriminate|exact Ns|exact Ci|left; congruence]. }
    destruct (a_cond Ctx at0) eqn:Q.
    { eapply looks_again; [exact I|exact Ev|exact Pv|discriminate|reflexivity|discriminate|exact Ns|exact Ci|right; congruence]. }
    destruct (is_array t && match a_count Ctx at0 with None => true | _ => false end) eqn:Ar.
    + (* an array whose count is not known yet *)
      apply andb_true_iff in Ar. destruct Ar as [Ar Cn]. destruct (a_count Ctx at0) eqn:Ct; [discriminate|]. clear Cn.
      unfold hstep, step. rewrite Ev, Pv. cbv zeta. rewrite Ta, Aa, W, Q, Ct. cbn [bev_item]. rewrite W, Q, Ct.
      pose proof (fun n => expanding base h0 opens s p a at0 t rest rest' n I Ev Pv) as Ex.
      destruct t as [| | |t' size|counttype t'|count t'|]; try discriminate; cbn [Model_Heap.is_array].
      * apply Ex.
      * (* its count comes first *)
        set (b := List.length (h_heap Ctx s)). set (co := fresh Ctx (mkAttrs Ctx None None None None None true, TPrim Ctx (PFmt counttype))).
        assert (T1 : touched [] (h_heap Ctx s) (h_heap Ctx s ++ [co])) by apply touched_app.
        pose proof (rebuild base h0 opens s p (h_heap Ctx s ++ [co]) [] (h_events Ctx s) (st_events Ctx p) (h_stream Ctx s) I T1 ltac:(intros x [])) as I1.
        assert (S1 : seg (h_heap Ctx s ++ [co]) opens (h_events Ctx s) (st_events Ctx p) []).
        { apply seg_more; [exact (iv_seg _ _ _ _ _ I)|]. intros x X. apply (iv_range _ _ _ _ _ I) in X. lia. }
        specialize (I1 S1 (iv_nodup _ _ _ _ _ I) ltac:(intros x X; left; exact X)).
        set (s1 := mkH Ctx (h_heap Ctx s ++ [co]) (h_events Ctx s) (h_stack Ctx s) (h_selects Ctx s) (h_values Ctx s) (h_stream Ctx s) (h_out Ctx s)) in *.
        set (p1 := mkState Ctx (st_events Ctx p) (st_stack Ctx p) (st_select Ctx p) (h_stream Ctx s) (st_out Ctx p)) in *.
        assert (Gb : hget (h_heap Ctx s ++ [co]) b = co) by apply hget_new.
        pose proof (reading base h0 opens s1 p1 b
          (fun h' s' v => match v with
             | VInt n => hexpand Ctx s h' s' (h_out Ctx s ++ [(YLeaf, b)]) n a rest
             | _ => HStop Ctx h' (h_out Ctx s ++ [(YLeaf, b)]) s' (Failed TypeError) end)
          (fun stk s' v => match v with
             | VInt n => expand_array Ctx n at0 (TVar Ctx counttype t') rest' p s' (st_out Ctx p ++ [OLeaf Ctx None (TPrim Ctx (PFmt counttype)) (s_pos (h_stream Ctx s)) v])
             | _ => Stop Ctx (st_out Ctx p ++ [OLeaf Ctx None (TPrim Ctx (PFmt counttype)) (s_pos (h_stream Ctx s)) v]) s' (Failed TypeError) end)
          I1) as R. unfold s1, p1 in R. cbn [h_events h_out h_heap] in R. rewrite Gb in R.
        assert (Lb : (base <= b < List.length (h_heap Ctx s ++ [co]))%nat).
        { rewrite app_length. cbn [List.length]. pose proof (iv_base _ _ _ _ _ I). subst b. lia. }
        assert (Nb : forall x, In x (heads (h_events Ctx s) ++ opens) -> x <> b).
        { intros x X. apply (iv_range _ _ _ _ _ I) in X. subst b. lia. }
        specialize (R Lb ltac:(intros X; exact (Nb b (in_or_app _ _ _ (or_introl X)) eq_refl)) ltac:(intros X; exact (Nb b (in_or_app _ _ _ (or_intror X)) eq_refl))).
        assert (Nout : ~ In b (map snd (h_out Ctx s))).
        { intros X. apply in_map_iff in X. destruct X as ([k x] & Eb & X). cbn in Eb. subst x. destruct (iv_kept _ _ _ _ _ I k b X) as (B & _). subst b. lia. }
        specialize (R Nout).
        cbn [h_stack h_selects h_values h_stream st_events st_stack st_select st_stream st_out] in R.
        assert (Cl : forall v, collect Ctx (content (h_heap Ctx s ++ [co]) b) v (st_stack Ctx p) = Ok (st_stack Ctx p)).
        { intros v. unfold Model_Heap.content. rewrite Gb. unfold collect, co. cbn. destruct (st_stack Ctx p) as [|[? ?] ?]; reflexivity. }
        rewrite (iv_stream _ _ _ _ _ I) in *.
        assert (R' := R). clear R. 
        match type of R' with ?A -> _ => assert (K : A) end.
        { intros h3 stk s' v X Cv. rewrite Cl in Cv. injection Cv as <-.
          destruct v as [n| | | | | | | |]; try (cbn [matches]; split; [reflexivity|]; split; [reflexivity|]; exact (inv_ended _ _ _ _ _ X)).
          exact (expanding base h0 opens _ _ a at0 (TVar Ctx counttype t') rest rest' n X Ev Pv). }
        specialize (R' K). clear K.
        match type of R' with matches _ _ (hleaf _ ?z _ _ _) _ =>
          replace (hleaf Ctx s (h_heap Ctx s ++ [co]) b) with (hleaf Ctx z (h_heap Ctx s ++ [co]) b) by
            (unfold hleaf; cbn [h_stream h_values h_out]; rewrite (iv_stream _ _ _ _ _ I); reflexivity) end.
        revert R'. cbn [o_ty o_attrs co fresh fst snd a_name].
        destruct (read_leaf Ctx (TPrim Ctx (PFmt counttype)) (st_stream Ctx p)) as [v s'|s' x|s' x|]; try (intros R; exact R).
        rewrite Cl. intros R. exact R.
      * rewrite (parent_is _ _ _ _ _ I). destruct (st_stack Ctx p) as [|[j pv] below] eqn:Es; cbn [bind]; [apply (stops _ _ _ _ _ _ I)|].
        destruct (count c pv) as [n|x]; [|apply (stops _ _ _ _ _ _ I)]. apply Ex.
    + (* ready to be opened *)
      assert (Cnt : is_array t = true -> a_count Ctx at0 <> None).
      { intros A. rewrite A in Ar. destruct (a_count Ctx at0); [discriminate|discriminate]. }
      set (v := match t with TStruct _ _ => VDict [] | _ => VList [] end).
      assert (Sh : shape t v) by (destruct t; try discriminate; try contradiction; exact Logic.I).
      pose proof (opening base h0 opens s p a (at0, t) rest rest' v I Ev Pv Sl W Q Cnt Sh) as O. cbn [fst snd] in O.
      assert (E1 : hstep Ctx c s = HNext Ctx (mkH Ctx (hput (h_heap Ctx s) a (put_value Ctx v)) rest (a :: h_stack Ctx s) (h_selects Ctx s) (a :: h_values Ctx s) (h_stream Ctx s) (h_out Ctx s ++ [(YStart, a)]))).
      { unfold hstep. rewrite Ev. cbv zeta. rewrite Ta, Aa, W, Q.
        destruct t; try discriminate; try contradiction; cbn [Model_Heap.is_array] in *; try (destruct (a_count Ctx at0); [|discriminate]); reflexivity. }
      assert (E2 : step Ctx c p = Next Ctx (mkState Ctx rest' (((at0, t), v) :: st_stack Ctx p) (st_select Ctx p) (st_stream Ctx p) (st_out Ctx p ++ [OStart Ctx (a_name Ctx at0) t]))).
      { unfold step. rewrite Pv. cbn [bev_item]. rewrite W, Q.
        destruct t; try discriminate; try contradiction; cbn [Model_Heap.is_array] in *; try (destruct (a_count Ctx at0); [|discriminate]); reflexivity. }
      rewrite E1, E2. exists (a :: opens). exact O.
  - (* an item ends *)
    destruct (selb (h_heap Ctx s) a) eqn:Sl.
    { pose proof Sl as Sl'. unfold selb in Sl'. destruct (unselecting base h0 o2 s p a i rest rest' I Ev Pv Sl) as (sels & key & keys & E1 & E2 & I').
      unfold hstep, step. rewrite Ev, Pv. cbv zeta. cbn [bev_item]. destruct i as [ia it]. cbn [snd] in Ti. rewrite Ti.
      destruct (o_ty (hget (h_heap Ctx s) a)) as [| | | | | |selector l]; try discriminate. rewrite E1, E2. exists o2. exact I'. }
    destruct (closing_item base h0 o2 s p a i rest rest' (VInt 0) I Ev Pv Sl) as (stk & j & v & pstk & E1 & E2 & E3 & O & Na1 & Na2 & Ra & _).
    destruct O as (C1 & C2 & C3 & C4 & C5 & C6). cbn [fst snd] in *.
    assert (Ta : o_ty (hget (h_heap Ctx s) a) = snd j) by (rewrite <- C1; reflexivity).
    assert (Aa : o_attrs (hget (h_heap Ctx s) a) = fst j) by (rewrite <- C1; reflexivity).
    destruct j as [ja jt]. cbn [fst snd] in *.
    set (v' := match jt, v with TFixed _ _ _, VList l => VTuple l | _, _ => v end).
    destruct (closing_item base h0 o2 s p a i rest rest' v' I Ev Pv Sl) as (stk1 & j1 & w1 & pstk1 & F1 & F2 & F3 & _ & _ & _ & _ & I').
    rewrite E1 in F1. injection F1 as <-. rewrite E3 in F3. injection F3 as _ _ <-. clear j1 w1 F2.
    pose proof (collecting _ _ _ _ _ a v' I') as C. cbn [h_heap h_values st_stack h_events h_stack h_selects h_stream h_out st_events st_select st_stream st_out] in C.
    set (h1 := hput (h_heap Ctx s) a (put_value Ctx v')) in *.
    assert (G1 : hget h1 a = put_value Ctx v' (hget (h_heap Ctx s) a)) by (apply hput_same; lia).
    assert (Cb : content h1 a = (ja, jt)) by (unfold Model_Heap.content; rewrite G1; cbn; rewrite Ta, Aa; reflexivity). rewrite Cb in C.
    assert (E4 : hstep Ctx c s = match hcollect Ctx h1 stk a v' with
       | Raise x => HStop Ctx h1 (h_out Ctx s) (h_stream Ctx s) (Failed x)
       | Ok h2 => HNext Ctx (mkH Ctx h2 rest stk (h_selects Ctx s) stk (h_stream Ctx s) (h_out Ctx s ++ [(YEnd, a)])) end).
    { unfold hstep. rewrite Ev. cbv zeta. rewrite Ta, Aa, C3, C4, E1, E2, C2, Ta. fold v'. fold h1.
      destruct jt; cbn in C6; try contradiction; cbn [Model_Heap.is_array] in *; try (destruct (a_count Ctx ja); [|exfalso; exact (C5 eq_refl eq_refl)]); reflexivity. }
    assert (E5 : step Ctx c p = match collect Ctx (ja, jt) v' pstk with
       | Raise x => stop Ctx p x
       | Ok stk' => Next Ctx (mkState Ctx rest' stk' (st_select Ctx p) (st_stream Ctx p) (st_out Ctx p ++ [OEnd Ctx (a_name Ctx ja) jt v'])) end).
    { unfold step. rewrite Pv. cbn [bev_item]. destruct i as [ia it]. cbn [snd] in Ti. rewrite Ta in Ti. subst it. rewrite E3. cbn [fst snd]. fold v'.
      destruct jt; cbn in C6; try contradiction; reflexivity. }
    rewrite E4, E5. destruct (hcollect Ctx h1 stk a v') as [h2|x]; destruct (collect Ctx (ja, jt) v' pstk) as [stk'|y]; try contradiction.
    + destruct C as (T2 & L2 & I2). exists o2.
      assert (G2 : hget h2 a = hget h1 a) by (destruct T2 as (_ & _ & Eq); apply Eq; [unfold h1; rewrite hput_length; lia|exact Na2]).
      apply (hand_out _ _ _ _ _ YEnd a (OEnd Ctx (a_name Ctx ja) jt v') I2); cbn [h_heap h_events].
      * unfold view. cbn [fst snd]. rewrite G2, G1. cbn. rewrite Ta, Aa. reflexivity.
      * rewrite L2. unfold h1. rewrite hput_length. exact Ra.
      * exact Na1.
      * intros _. exact Na2.
    + subst y. unfold stop. cbn [matches]. split; [apply (iv_stream _ _ _ _ _ I)|]. split; [reflexivity|]. exact (inv_ended _ _ _ _ _ I').
Qed.

Lemma runs : forall fuel base h0 opens c s p, Inv base h0 opens s p ->
  let '(h, out, strm, o) := hrun Ctx fuel c s in
  let '(out', strm', o') := run Ctx fuel c p in
  strm = strm' /\ o = o' /\ ended base h0 h out out'.
Proof.
  induction fuel as [|fuel IH]; intros base h0 opens c s p I; cbn [hrun run].
  - split; [apply (iv_stream _ _ _ _ _ I)|]. split; [reflexivity|]. apply (inv_ended _ _ _ _ _ I).
  - pose proof (steps base h0 opens c s p I) as M. destruct (hstep Ctx c s) as [s'|h out strm o], (step Ctx c p) as [p'|out' strm' o']; try contradiction.
    + destruct M as [opens' I']. apply (IH base h0 opens' c s' p' I').
    + exact M.
Qed.
End P.
