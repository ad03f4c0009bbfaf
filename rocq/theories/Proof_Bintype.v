(** The event engine reads declared layouts. *)
From Coq Require Import ZArith String List Bool Lia.
From Verif Require Import Base BaseFacts Model_Text Model_Dataio Model_ParaText Model_Bintype Spec_Bintype.
Import ListNotations.
Open Scope Z_scope.

Scheme ty_mut := Induction for ty Sort Prop
with members_mut := Induction for members Sort Prop
with alts_mut := Induction for alts Sort Prop.
Combined Scheme ty_members_alts_ind from ty_mut, members_mut, alts_mut.

Section P.
Variable Ctx : Type.
Notation ty := (ty Ctx).
Notation members := (members Ctx).
Notation alts := (alts Ctx).
Notation bev := (bev Ctx).
Notation attrs := (attrs Ctx).
Notation state := (state Ctx).

(** Unfolding equations. *)
Lemma ve_prim : forall v a p, visible_events Ctx v a (TPrim Ctx p) = [BLeaf Ctx (a, TPrim Ctx p)]. Proof. reflexivity. Qed.
Lemma ve_flags : forall v a b g, visible_events Ctx v a (TFlags Ctx b g) = [BLeaf Ctx (a, TFlags Ctx b g)]. Proof. reflexivity. Qed.
Lemma ve_struct : forall v a ms, visible_events Ctx v a (TStruct Ctx ms) = BStart Ctx (a, TStruct Ctx ms) :: visible_members Ctx v ms ++ [BEnd Ctx (a, TStruct Ctx ms)]. Proof. reflexivity. Qed.
Lemma ve_fixed : forall v a t n, visible_events Ctx v a (TFixed Ctx t n) = BStart Ctx (a, TFixed Ctx t n) :: visible_events Ctx v (no_attrs Ctx) t ++ [BEnd Ctx (a, TFixed Ctx t n)]. Proof. reflexivity. Qed.
Lemma ve_var : forall v a c t, visible_events Ctx v a (TVar Ctx c t) = BStart Ctx (a, TVar Ctx c t) :: visible_events Ctx v (no_attrs Ctx) t ++ [BEnd Ctx (a, TVar Ctx c t)]. Proof. reflexivity. Qed.
Lemma ve_x : forall v a c t, visible_events Ctx v a (TX Ctx c t) = BStart Ctx (a, TX Ctx c t) :: visible_events Ctx v (no_attrs Ctx) t ++ [BEnd Ctx (a, TX Ctx c t)]. Proof. reflexivity. Qed.
Lemma ve_sel : forall v a c l, visible_events Ctx v a (TSel Ctx c l) = BStart Ctx (a, TSel Ctx c l) :: visible_alts Ctx v a l ++ [BEnd Ctx (a, TSel Ctx c l)]. Proof. reflexivity. Qed.
Lemma vm_nil : forall v, visible_members Ctx v (MNil Ctx) = []. Proof. reflexivity. Qed.
Lemma vm_cons : forall v name req cond t rest, visible_members Ctx v (MCons Ctx name req cond t rest) = (if visible v req then visible_events Ctx v (member_attrs Ctx name req cond) t else []) ++ visible_members Ctx v rest. Proof. reflexivity. Qed.
Lemma va_nil : forall v a, visible_alts Ctx v a (ANil Ctx) = []. Proof. reflexivity. Qed.
Lemma va_cons : forall v a k t rest, visible_alts Ctx v a (ACons Ctx k t rest) = visible_events Ctx v (with_when Ctx a k) t ++ visible_alts Ctx v a rest. Proof. reflexivity. Qed.
Lemma me_prim : forall a p, map_events Ctx a (TPrim Ctx p) = [BLeaf Ctx (a, TPrim Ctx p)]. Proof. reflexivity. Qed.
Lemma me_flags : forall a b g, map_events Ctx a (TFlags Ctx b g) = [BLeaf Ctx (a, TFlags Ctx b g)]. Proof. reflexivity. Qed.
Lemma me_struct : forall a ms, map_events Ctx a (TStruct Ctx ms) = BStart Ctx (a, TStruct Ctx ms) :: map_members Ctx ms ++ [BEnd Ctx (a, TStruct Ctx ms)]. Proof. reflexivity. Qed.
Lemma me_fixed : forall a t n, map_events Ctx a (TFixed Ctx t n) = BStart Ctx (a, TFixed Ctx t n) :: map_events Ctx (no_attrs Ctx) t ++ [BEnd Ctx (a, TFixed Ctx t n)]. Proof. reflexivity. Qed.
Lemma me_var : forall a c t, map_events Ctx a (TVar Ctx c t) = BStart Ctx (a, TVar Ctx c t) :: map_events Ctx (no_attrs Ctx) t ++ [BEnd Ctx (a, TVar Ctx c t)]. Proof. reflexivity. Qed.
Lemma me_x : forall a c t, map_events Ctx a (TX Ctx c t) = BStart Ctx (a, TX Ctx c t) :: map_events Ctx (no_attrs Ctx) t ++ [BEnd Ctx (a, TX Ctx c t)]. Proof. reflexivity. Qed.
Lemma me_sel : forall a c l, map_events Ctx a (TSel Ctx c l) = BStart Ctx (a, TSel Ctx c l) :: map_alts Ctx a l ++ [BEnd Ctx (a, TSel Ctx c l)]. Proof. reflexivity. Qed.
Lemma mm_nil : map_members Ctx (MNil Ctx) = []. Proof. reflexivity. Qed.
Lemma mm_cons : forall name req cond t rest, map_members Ctx (MCons Ctx name req cond t rest) = map_events Ctx (member_attrs Ctx name req cond) t ++ map_members Ctx rest. Proof. reflexivity. Qed.
Lemma ma_nil : forall a, map_alts Ctx a (ANil Ctx) = []. Proof. reflexivity. Qed.
Lemma ma_cons : forall a k t rest, map_alts Ctx a (ACons Ctx k t rest) = map_events Ctx (with_when Ctx a k) t ++ map_alts Ctx a rest. Proof. reflexivity. Qed.
Hint Rewrite ve_prim ve_flags ve_struct ve_fixed ve_var ve_x ve_sel vm_nil vm_cons va_nil va_cons me_prim me_flags me_struct me_fixed me_var me_x me_sel mm_nil mm_cons ma_nil ma_cons : evs.

(** ** Skipping *)
Definition passes (l : list bev) : Prop := forall n r, 0 <= n ->
  pop_subevents_loop Ctx n (l ++ r) =
  (l ++ fst (pop_subevents_loop Ctx n r), snd (pop_subevents_loop Ctx n r)).

Lemma passes_nil : passes [].
Proof. intros n r Hn. cbn. destruct (pop_subevents_loop Ctx n r); reflexivity. Qed.

Lemma passes_app : forall a b, passes a -> passes b -> passes (a ++ b).
Proof. intros a b Ha Hb n r Hn. rewrite <- app_assoc, (Ha n (b ++ r) Hn), (Hb n r Hn). cbn [fst snd]. now rewrite app_assoc. Qed.

Lemma passes_leaf : forall i, passes [BLeaf Ctx i].
Proof. intros i n r Hn. cbn. destruct (pop_subevents_loop Ctx n r); reflexivity. Qed.

Lemma passes_wrap : forall i j l, passes l -> passes (BStart Ctx i :: l ++ [BEnd Ctx j]).
Proof.
  intros i j l Hl n r Hn. cbn [app pop_subevents_loop]. rewrite <- app_assoc, (Hl (n + 1) _ ltac:(lia)).
  cbn [app pop_subevents_loop]. replace (0 <? n + 1) with true by lia. replace (n + 1 - 1) with n by lia.
  destruct (pop_subevents_loop Ctx n r) as [o x]. cbn [fst snd]. rewrite <- !app_assoc. reflexivity.
Qed.

Lemma visible_pass : forall ver,
  (forall t a, passes (visible_events Ctx ver a t)) /\
  (forall ms, passes (visible_members Ctx ver ms)) /\
  (forall l a, passes (visible_alts Ctx ver a l)).
Proof.
  intros ver. apply ty_members_alts_ind; intros; autorewrite with evs;
    auto using passes_leaf, passes_nil, passes_wrap, passes_app.
  apply passes_app; [|assumption]. destruct (visible ver version); auto using passes_nil.
Qed.

Lemma pop_closed : forall l i r, passes l -> pop_subevents Ctx (l ++ BEnd Ctx i :: r) = (l ++ [BEnd Ctx i], r).
Proof. intros l i r Hl. unfold pop_subevents. rewrite Hl by lia. reflexivity. Qed.

(** ** The version filter, C19 *)
Lemma filter_fuel_mono : forall evs v k k', (List.length evs <= k)%nat -> (List.length evs <= k')%nat ->
  filter_loop Ctx k evs v = filter_loop Ctx k' evs v.
Proof.
  intros evs v. remember (List.length evs) as n eqn:En. revert evs En.
  induction n as [n IH] using lt_wf_ind. intros [|e rest] En k k' Hk Hk'.
  - destruct k, k'; reflexivity.
  - cbn [List.length] in En. destruct k as [|k]; [lia|]. destruct k' as [|k']; [lia|]. cbn [filter_loop].
    assert (E1 : filter_loop Ctx k rest v = filter_loop Ctx k' rest v) by (apply (IH (List.length rest)); lia).
    destruct (a_version Ctx (fst (bev_item Ctx e))) as [req|]; [|now rewrite E1].
    destruct (version_lt v req); [|now rewrite E1].
    destruct e; try exact E1.
    assert (HL : (List.length (snd (pop_subevents Ctx rest)) <= List.length rest)%nat).
    { unfold pop_subevents. generalize 0. clear. induction rest as [|e rest IH]; intros n; [cbn; lia|]. cbn [pop_subevents_loop].
      destruct e.
      - specialize (IH (n + 1)). destruct (pop_subevents_loop Ctx (n + 1) rest). cbn in *. lia.
      - destruct (0 <? n); [|cbn; lia]. specialize (IH (n - 1)). destruct (pop_subevents_loop Ctx (n - 1) rest). cbn in *. lia.
      - specialize (IH n). destruct (pop_subevents_loop Ctx n rest). cbn in *. lia. }
    apply (IH (List.length (snd (pop_subevents Ctx rest)))); lia.
Qed.

Definition filt (v : list Z) (evs : list bev) : gen bev := filter_with_version Ctx evs v.

Lemma filt_cons : forall v e rest,
  filt v (e :: rest) =
  match a_version Ctx (fst (bev_item Ctx e)) with
  | Some req => if version_lt v req then match e with BStart _ _ => filt v (snd (pop_subevents Ctx rest)) | _ => filt v rest end
                else gcons e (filt v rest)
  | None => gcons e (filt v rest)
  end.
Proof.
  intros v e rest. unfold filt, filter_with_version. cbn [List.length filter_loop].
  destruct (a_version Ctx (fst (bev_item Ctx e))) as [req|]; [|reflexivity].
  destruct (version_lt v req); [|reflexivity]. destruct e; try reflexivity.
  apply filter_fuel_mono; [|lia].
  unfold pop_subevents. generalize 0. clear. induction rest as [|e rest IH]; intros n; [cbn; lia|]. cbn [pop_subevents_loop].
  destruct e.
  - specialize (IH (n + 1)). destruct (pop_subevents_loop Ctx (n + 1) rest). cbn in *. lia.
  - destruct (0 <? n); [|cbn; lia]. specialize (IH (n - 1)). destruct (pop_subevents_loop Ctx (n - 1) rest). cbn in *. lia.
  - specialize (IH n). destruct (pop_subevents_loop Ctx n rest). cbn in *. lia.
Qed.

Lemma filt_shown : forall v e rest, visible (Some v) (a_version Ctx (fst (bev_item Ctx e))) = true -> filt v (e :: rest) = gcons e (filt v rest).
Proof.
  intros v e rest H. rewrite filt_cons. destruct (a_version Ctx (fst (bev_item Ctx e))) as [req|]; [|reflexivity].
  cbn in H. destruct (version_lt v req); [discriminate|reflexivity].
Qed.

Lemma gapp_app : forall {X} (a b : list X) g, gapp (a ++ b) g = gapp a (gapp b g).
Proof. intros. unfold gapp. cbn. now rewrite app_assoc. Qed.

Lemma visible_none : (forall t a, visible_events Ctx None a t = map_events Ctx a t) /\
  (forall ms, visible_members Ctx None ms = map_members Ctx ms) /\
  (forall l a, visible_alts Ctx None a l = map_alts Ctx a l).
Proof.
  apply ty_members_alts_ind; intros; autorewrite with evs; try reflexivity.
  all: repeat match goal with H : _ |- _ => rewrite H end; reflexivity.
Qed.

Lemma filt_visible : forall v,
  (forall t a rest, visible (Some v) (a_version Ctx a) = true ->
     filt v (map_events Ctx a t ++ rest) = gapp (visible_events Ctx (Some v) a t) (filt v rest)) /\
  (forall ms rest, filt v (map_members Ctx ms ++ rest) = gapp (visible_members Ctx (Some v) ms) (filt v rest)) /\
  (forall l a rest, visible (Some v) (a_version Ctx a) = true ->
     filt v (map_alts Ctx a l ++ rest) = gapp (visible_alts Ctx (Some v) a l) (filt v rest)).
Proof.
  intros v.
  assert (W : forall a t l l' rest, visible (Some v) (a_version Ctx a) = true ->
     (forall r, filt v (l ++ r) = gapp l' (filt v r)) ->
     filt v ((BStart Ctx (a, t) :: l ++ [BEnd Ctx (a, t)]) ++ rest) = gapp (BStart Ctx (a, t) :: l' ++ [BEnd Ctx (a, t)]) (filt v rest)).
  { intros a t l l' rest HV HL. cbn [app]. rewrite filt_shown by exact HV. rewrite <- app_assoc, HL. cbn [app].
    rewrite filt_shown by exact HV. unfold gcons, gapp. cbn. now rewrite <- app_assoc. }
  apply ty_members_alts_ind; intros; autorewrite with evs.
  - cbn [app]. rewrite filt_shown by assumption. reflexivity.
  - cbn [app]. rewrite filt_shown by assumption. reflexivity.
  - apply W; auto.
  - apply W; auto.
  - apply W; auto.
  - apply W; auto.
  - apply W; auto.
  - unfold gapp. cbn [app]. destruct (filt v rest); reflexivity.
  - rewrite <- app_assoc. destruct (visible (Some v) version) eqn:EV.
    + rewrite H by exact EV. rewrite H0, gapp_app. reflexivity.
    + cbn [app]. rewrite <- H0. 
      assert (HD : map_events Ctx (member_attrs Ctx name version cond) t =
        match t with
        | TPrim _ _ | TFlags _ _ _ => [BLeaf Ctx (member_attrs Ctx name version cond, t)]
        | _ => BStart Ctx (member_attrs Ctx name version cond, t) ::
               removelast (List.tl (map_events Ctx (member_attrs Ctx name version cond) t)) ++ [BEnd Ctx (member_attrs Ctx name version cond, t)]
        end).
      { destruct t; autorewrite with evs; try reflexivity; cbn [List.tl]; now rewrite removelast_last. }
      rewrite HD.
      destruct version as [req|]; [|discriminate]. cbn in EV. destruct (version_lt v req) eqn:EL; [|discriminate].
      assert (PW : forall l, passes l -> filt v ((BStart Ctx (member_attrs Ctx name (Some req) cond, t) :: l ++ [BEnd Ctx (member_attrs Ctx name (Some req) cond, t)]) ++ map_members Ctx rest ++ rest0) = filt v (map_members Ctx rest ++ rest0)).
      { intros l Hl. cbn [app]. rewrite filt_cons. cbn [bev_item fst a_version member_attrs]. rewrite EL.
        rewrite <- app_assoc. cbn [app]. rewrite pop_closed by exact Hl. reflexivity. }
      assert (PM : forall t a, passes (map_events Ctx a t)) by (intros; rewrite <- (proj1 visible_none); apply visible_pass).
      assert (PM2 : forall ms, passes (map_members Ctx ms)) by (intros; rewrite <- (proj1 (proj2 visible_none)); apply visible_pass).
      assert (PM3 : forall l a, passes (map_alts Ctx a l)) by (intros; rewrite <- (proj2 (proj2 visible_none)); apply visible_pass).
      destruct t; autorewrite with evs; cbn [List.tl];
        try (rewrite removelast_last; apply PW; auto; fail).
      * cbn [app]. rewrite filt_cons. cbn [bev_item fst a_version member_attrs]. rewrite EL. reflexivity.
      * cbn [app]. rewrite filt_cons. cbn [bev_item fst a_version member_attrs]. rewrite EL. reflexivity.
  - unfold gapp. cbn [app]. destruct (filt v rest); reflexivity.
  - rewrite <- app_assoc. rewrite H by assumption. rewrite H0 by assumption. now rewrite gapp_app.
Qed.

Theorem filter_is_visible : forall v t, filter_with_version Ctx (map_events Ctx (no_attrs Ctx) t) v = (visible_events Ctx (Some v) (no_attrs Ctx) t, Finished).
Proof.
  intros v t. pose proof (proj1 (filt_visible v) t (no_attrs Ctx) [] eq_refl) as H. rewrite app_nil_r in H.
  unfold filt in H. rewrite H. unfold gapp. cbn. now rewrite app_nil_r.
Qed.

Lemma get_typedef_visible : forall t ver, get_typedef Ctx t ver = visible_events Ctx ver (no_attrs Ctx) t.
Proof.
  intros t [v|]; unfold get_typedef.
  - now rewrite filter_is_visible.
  - symmetry. apply visible_none.
Qed.

(** ** The engine, C16 *)
Definition array_of (c : Ctx) (ver : option (list Z)) (name : option string) (t t' : ty) (n : Z) (s : stream) : sres Ctx (list value) :=
  andthen Ctx (say Ctx (OStart Ctx name t) s)
    (fun _ s => repeated Ctx (Z.to_nat n) (fun sofar s => rd Ctx c ver (Some sofar) None None t' s) [] s).
Definition closing (name : option string) (t : ty) (v : value) (s : stream) : sres Ctx (option value) :=
  andthen Ctx (say Ctx (OEnd Ctx name t v) s) (fun _ s => ret Ctx (Some v) s).

Lemma rd_prim : forall c ver pa name cond p s, rd Ctx c ver pa name cond (TPrim Ctx p) s =
  guarded Ctx c pa cond s (fun s => andthen Ctx (rd_leaf Ctx name (TPrim Ctx p) s) (fun v s => ret Ctx (Some v) s)). Proof. reflexivity. Qed.
Lemma rd_flags : forall c ver pa name cond b g s, rd Ctx c ver pa name cond (TFlags Ctx b g) s =
  guarded Ctx c pa cond s (fun s => andthen Ctx (rd_leaf Ctx name (TFlags Ctx b g) s) (fun v s => ret Ctx (Some v) s)). Proof. reflexivity. Qed.
Lemma rd_struct : forall c ver pa name cond ms s, rd Ctx c ver pa name cond (TStruct Ctx ms) s =
  guarded Ctx c pa cond s (fun s => andthen Ctx (say Ctx (OStart Ctx name (TStruct Ctx ms)) s) (fun _ s =>
    andthen Ctx (rd_members Ctx c ver ms [] s) (fun d s => closing name (TStruct Ctx ms) (VDict d) s))). Proof. reflexivity. Qed.
Lemma rd_fixed : forall c ver pa name cond t n s, rd Ctx c ver pa name cond (TFixed Ctx t n) s =
  guarded Ctx c pa cond s (fun s => andthen Ctx (array_of c ver name (TFixed Ctx t n) t n s) (fun l s => closing name (TFixed Ctx t n) (VTuple l) s)). Proof. reflexivity. Qed.
Lemma rd_var : forall c ver pa name cond f t s, rd Ctx c ver pa name cond (TVar Ctx f t) s =
  guarded Ctx c pa cond s (fun s => andthen Ctx (rd_leaf Ctx None (TPrim Ctx (PFmt f)) s) (fun v s =>
    match v with
    | VInt n => andthen Ctx (array_of c ver name (TVar Ctx f t) t n s) (fun l s => closing name (TVar Ctx f t) (VList l) s)
    | _ => fail Ctx s TypeError
    end)). Proof. reflexivity. Qed.
Lemma rd_x : forall c ver pa name cond f t s, rd Ctx c ver pa name cond (TX Ctx f t) s =
  guarded Ctx c pa cond s (fun s => andthen Ctx (refer Ctx c pa f s) (fun n s =>
    andthen Ctx (array_of c ver name (TX Ctx f t) t n s) (fun l s => closing name (TX Ctx f t) (VList l) s))). Proof. reflexivity. Qed.
Lemma rd_sel : forall c ver pa name cond f l s, rd Ctx c ver pa name cond (TSel Ctx f l) s =
  andthen Ctx (refer Ctx c pa f s) (fun k s => rd_alts Ctx c ver pa name cond k l s). Proof. reflexivity. Qed.
Lemma rdm_nil : forall c ver env s, rd_members Ctx c ver (MNil Ctx) env s = ret Ctx env s. Proof. reflexivity. Qed.
Lemma rdm_cons : forall c ver name req cond t rest env s, rd_members Ctx c ver (MCons Ctx name req cond t rest) env s =
  if visible ver req then
    andthen Ctx (rd Ctx c ver (Some (VDict env)) (Some name) cond t s)
      (fun v s => rd_members Ctx c ver rest (match v with Some x => dict_set name x env | None => env end) s)
  else rd_members Ctx c ver rest env s. Proof. reflexivity. Qed.
Lemma rda_nil : forall c ver pa name cond k s, rd_alts Ctx c ver pa name cond k (ANil Ctx) s = ret Ctx None s. Proof. reflexivity. Qed.
Lemma rda_cons : forall c ver pa name cond k key t rest s, rd_alts Ctx c ver pa name cond k (ACons Ctx key t rest) s =
  if key =? k then rd Ctx c ver pa name cond t s else rd_alts Ctx c ver pa name cond k rest s. Proof. reflexivity. Qed.
Hint Rewrite rd_prim rd_flags rd_struct rd_fixed rd_var rd_x rd_sel rdm_nil rdm_cons rda_nil rda_cons : evs.

Definition Reach (c : Ctx) (s s' : state) : Prop := exists n, forall k, run Ctx (n + k) c s = run Ctx k c s'.
Definition Ends (c : Ctx) (s : state) (out : list (oev Ctx)) (strm : stream) (o : outcome) : Prop :=
  exists n, forall k, run Ctx (n + k) c s = (out, strm, o).

Definition Sim {X} (c : Ctx) (s0 : state) (r : sres Ctx X) (k : X -> stream -> list (oev Ctx) -> state) : Prop :=
  match r with
  | (tr, s', Some (Ok x)) => Reach c s0 (k x s' (st_out Ctx s0 ++ tr))
  | (tr, s', Some (Raise e)) => Ends c s0 (st_out Ctx s0 ++ tr) s' (Failed e)
  | (tr, s', None) => Ends c s0 (st_out Ctx s0 ++ tr) s' OutOfFuel
  end.

Lemma reach_refl : forall c s, Reach c s s.
Proof. intros c s. exists O. reflexivity. Qed.
Lemma reach_trans : forall c a b d, Reach c a b -> Reach c b d -> Reach c a d.
Proof. intros c a b d [n Hn] [m Hm]. exists (n + m)%nat. intros k. rewrite <- Nat.add_assoc, Hn. apply Hm. Qed.
Lemma reach_ends : forall c a b out strm o, Reach c a b -> Ends c b out strm o -> Ends c a out strm o.
Proof. intros c a b out strm o [n Hn] [m Hm]. exists (n + m)%nat. intros k. rewrite <- Nat.add_assoc, Hn. apply Hm. Qed.
Lemma reach_step : forall c a b, step Ctx c a = Next Ctx b -> Reach c a b.
Proof. intros c a b H. exists 1%nat. intros k. cbn [Nat.add run]. now rewrite H. Qed.
Lemma ends_step : forall c a out strm o, step Ctx c a = Stop Ctx out strm o -> Ends c a out strm o.
Proof. intros c a out strm o H. exists 1%nat. intros k. cbn [Nat.add run]. now rewrite H. Qed.

Lemma sim_reach : forall {X} c s0 s1 (r : sres Ctx X) k, Reach c s0 s1 -> st_out Ctx s1 = st_out Ctx s0 -> Sim c s1 r k -> Sim c s0 r k.
Proof.
  intros X c s0 s1 [[tr s'] [[x|e]|]] k HR HO; cbn [Sim]; rewrite HO; intros H.
  - eapply reach_trans; eauto.
  - eapply reach_ends; eauto.
  - eapply reach_ends; eauto.
Qed.
Lemma sim_bind : forall {X Y} c s0 (r : sres Ctx X) (f : X -> stream -> sres Ctx Y) k k',
  Sim c s0 r k -> (forall x s out, st_out Ctx (k x s out) = out) ->
  (forall x s out, Sim c (k x s out) (f x s) k') -> Sim c s0 (andthen Ctx r f) k'.
Proof.
  intros X Y c s0 [[tr s'] [[x|e]|]] f k k' H HO HF; cbn [andthen Sim] in *; [|exact H|exact H].
  specialize (HF x s' (st_out Ctx s0 ++ tr)). destruct (f x s') as [[tr' s''] [[y|e]|]]; cbn [Sim] in *; rewrite HO in HF; rewrite app_assoc.
  - eapply reach_trans; eauto.
  - eapply reach_ends; eauto.
  - eapply reach_ends; eauto.
Qed.
Lemma sim_on : forall {X Y} c s0 s1 tr s' (x : X) (f : X -> stream -> sres Ctx Y) k,
  Reach c s0 s1 -> st_out Ctx s1 = st_out Ctx s0 ++ tr -> Sim c s1 (f x s') k -> Sim c s0 (andthen Ctx (tr, s', Some (Ok x)) f) k.
Proof.
  intros X Y c s0 s1 tr s' x f k HR HO H. cbn [andthen]. destruct (f x s') as [[tr' s''] [[y|e]|]]; cbn [Sim] in *; rewrite HO in H; rewrite app_assoc.
  - eapply reach_trans; eauto.
  - eapply reach_ends; eauto.
  - eapply reach_ends; eauto.
Qed.
Lemma sim_ret : forall {X} c s0 (x : X) s k, k x s (st_out Ctx s0) = s0 -> Sim c s0 (ret Ctx x s) k.
Proof. intros X c s0 x s k H. cbn [Sim ret]. rewrite app_nil_r, H. apply reach_refl. Qed.
Lemma sim_say : forall c s0 o s k, Reach c s0 (k tt s (st_out Ctx s0 ++ [o])) -> Sim c s0 (say Ctx o s) k.
Proof. intros c s0 o s k H. exact H. Qed.

Definition par (stk : list (item Ctx * value)) : option value := match stk with [] => None | (_, v) :: _ => Some v end.
Definition put (name : option string) (v : value) (stk : list (item Ctx * value)) : list (item Ctx * value) :=
  match stk with
  | (pi, VDict d) :: b => match name with Some n => (pi, VDict (dict_set n v d)) :: b | None => stk end
  | (pi, VList l) :: b => (pi, VList (l ++ [v])) :: b
  | _ => stk
  end.
Definition putv (name : option string) (v : option value) (stk : list (item Ctx * value)) :=
  match v with Some x => put name x stk | None => stk end.
Definition good (name : option string) (stk : list (item Ctx * value)) : Prop :=
  match stk with
  | [] => True
  | (_, VDict _) :: _ => name <> None
  | _ => True
  end.

Lemma collect_put : forall a t v stk, a_dontcollect Ctx a = false -> good (a_name Ctx a) stk ->
  collect Ctx (a, t) v stk = Ok (put (a_name Ctx a) v stk).
Proof.
  intros a t v [|[pi pv] b] HD HG; [reflexivity|]. cbn [collect fst]. rewrite HD.
  destruct pv; try reflexivity. cbn in HG. cbn [put]. destruct (a_name Ctx a); [reflexivity|contradiction].
Qed.

Definition is_leaf (t : ty) : bool := match t with TPrim _ _ | TFlags _ _ _ => true | _ => false end.
Definition head (a : attrs) (t : ty) : bev := if is_leaf t then BLeaf Ctx (a, t) else BStart Ctx (a, t).
Definition inner (ver : option (list Z)) (a : attrs) (t : ty) : list bev :=
  match t with
  | TPrim _ _ | TFlags _ _ _ => []
  | TStruct _ ms => visible_members Ctx ver ms
  | TFixed _ t' _ | TVar _ _ t' | TX _ _ t' => visible_events Ctx ver (no_attrs Ctx) t'
  | TSel _ _ l => visible_alts Ctx ver a l
  end.
Definition tail (ver : option (list Z)) (a : attrs) (t : ty) : list bev :=
  if is_leaf t then [] else inner ver a t ++ [BEnd Ctx (a, t)].

Lemma head_tail : forall ver a t, visible_events Ctx ver a t = head a t :: tail ver a t.
Proof. intros ver a t. destruct t; autorewrite with evs; reflexivity. Qed.

Lemma inner_passes : forall ver a t, passes (inner ver a t).
Proof.
  intros ver a t. pose proof (visible_pass ver) as [H1 [H2 H3]]. destruct t; cbn [inner]; auto using passes_nil.
Qed.

Lemma skip_whole : forall ver a a' t rest, skip_tree Ctx (head a t) (tail ver a' t ++ rest) = rest.
Proof.
  intros ver a a' t rest. pose proof (inner_passes ver a' t) as HP. unfold head, tail. destruct (is_leaf t); [reflexivity|].
  cbn [skip_tree]. rewrite <- app_assoc. cbn [app]. rewrite pop_closed by exact HP. reflexivity.
Qed.

Lemma expand_whole : forall n ver a a' t rest s strm out, is_leaf t = false ->
  expand_array Ctx n a t (tail ver a' t ++ rest) s strm out =
  Next Ctx (mkState Ctx (BStart Ctx (with_count Ctx a n, t) :: times n (inner ver a' t) ++ BEnd Ctx (a', t) :: rest)
    (st_stack Ctx s) (st_select Ctx s) strm out).
Proof.
  intros n ver a a' t rest s strm out HL. unfold expand_array, tail. rewrite HL, <- app_assoc. cbn [app].
  rewrite pop_closed by apply inner_passes. cbn [fst snd]. rewrite rev_app_distr. cbn [rev app]. now rewrite rev_involutive.
Qed.

(** Steps of the engine on the forms that occur. *)
Definition not_selb (t : ty) : bool := match t with TSel _ _ _ => false | _ => true end.
Lemma not_selb_of : forall t, not_sel Ctx t -> not_selb t = true.
Proof. intros t H. destruct t; cbn in *; tauto. Qed.

Lemma step_cond : forall c a t f ver a' rest stk ks s o, not_selb t = true -> a_when Ctx a = None -> a_cond Ctx a = Some f ->
  step Ctx c (mkState Ctx (head a t :: tail ver a' t ++ rest) stk ks s o) =
  match par stk with
  | None => Stop Ctx o s (Failed IndexError)
  | Some pv => match f c pv with
               | Raise x => Stop Ctx o s (Failed x)
               | Ok true => Next Ctx (mkState Ctx (head (without_cond Ctx a) t :: tail ver a' t ++ rest) stk ks s o)
               | Ok false => Next Ctx (mkState Ctx rest stk ks s o)
               end
  end.
Proof.
  intros c a t f ver a' rest stk ks s o HS HW HC.
  pose proof (skip_whole ver a a' t rest) as HK.
  unfold step. cbn [st_events].
  destruct t; try discriminate HS; unfold head in *; cbn [is_leaf] in *; cbn [bev_item]; rewrite HW, HC; cbn [st_stack st_select st_stream st_out];
    destruct stk as [|[pi pv] stk]; cbn [par]; try reflexivity; destruct (f c pv) as [[|]|]; try reflexivity; rewrite HK; reflexivity.
Qed.

Lemma sim_guard : forall c a t ver a' rest stk ks s o g k, not_selb t = true -> a_when Ctx a = None ->
  (forall s o, k None s o = mkState Ctx rest stk ks s o) ->
  (Sim c (mkState Ctx (head (without_cond Ctx a) t :: tail ver a' t ++ rest) stk ks s o) (g s) k) ->
  Sim c (mkState Ctx (head a t :: tail ver a' t ++ rest) stk ks s o) (guarded Ctx c (par stk) (a_cond Ctx a) s g) k.
Proof.
  intros c a t ver a' rest stk ks s o g k HS HW HK HG. unfold guarded. destruct (a_cond Ctx a) as [f|] eqn:EC.
  - pose proof (step_cond c a t f ver a' rest stk ks s o HS HW EC) as ST. unfold refer. destruct (par stk) as [pv|].
    + destruct (f c pv) as [[|]|e].
      * cbn [andthen ret]. destruct (g s) as [[tr s'] y] eqn:EG. cbn [app]. eapply sim_reach; [apply reach_step; exact ST|reflexivity|exact HG].
      * cbn [andthen ret app]. cbn [Sim]. rewrite app_nil_r, HK. apply reach_step. exact ST.
      * cbn [fail andthen Sim]. rewrite app_nil_r. apply ends_step. exact ST.
    + cbn [fail andthen Sim]. rewrite app_nil_r. apply ends_step. exact ST.
  - replace (without_cond Ctx a) with a in HG; [exact HG|]. destruct a; cbn in *; subst; reflexivity.
Qed.

(** An item with no condition left. *)
Definition plain (a : attrs) : Prop := a_when Ctx a = None /\ a_cond Ctx a = None /\ a_count Ctx a = None /\ a_dontcollect Ctx a = false.

Lemma sim_leaf : forall c a t ver a' rest stk ks s o, is_leaf t = true -> plain a -> good (a_name Ctx a) stk ->
  Sim c (mkState Ctx (head a t :: tail ver a' t ++ rest) stk ks s o)
    (andthen Ctx (rd_leaf Ctx (a_name Ctx a) t s) (fun v s => ret Ctx (Some v) s))
    (fun v s' o' => mkState Ctx rest (putv (a_name Ctx a) v stk) ks s' o').
Proof.
  intros c a t ver a' rest stk ks s o HL [HW [HC [HN HD]]] HG. unfold head, tail. rewrite HL. cbn [app].
  assert (ST : step Ctx c (mkState Ctx (BLeaf Ctx (a, t) :: rest) stk ks s o) =
    match read_leaf Ctx t s with
    | LeafOk v s' => Next Ctx (mkState Ctx rest (put (a_name Ctx a) v stk) ks s' (o ++ [OLeaf Ctx (a_name Ctx a) t (s_pos s) v]))
    | LeafError s' x => Stop Ctx (o ++ [OError Ctx (a_name Ctx a) t (s_pos s) x]) s' (Failed (ParseError x (s_pos s)))
    | LeafRaise s' x => Stop Ctx o s' (Failed x)
    | LeafFuel => Stop Ctx o s OutOfFuel
    end).
  { unfold step. cbn [st_events bev_item]. destruct t; try discriminate HL; rewrite HW, HC; cbn [st_stack st_select st_stream st_out];
      (match goal with |- context [read_leaf Ctx ?t s] => destruct (read_leaf Ctx t s) as [v s'|s' x|s' x|] end); try reflexivity; rewrite collect_put by assumption; reflexivity. }
  unfold rd_leaf. destruct (read_leaf Ctx t s) as [v s'|s' x|s' x|].
  - apply reach_step. exact ST.
  - apply ends_step. exact ST.
  - cbn [andthen Sim]. rewrite app_nil_r. apply ends_step. exact ST.
  - cbn [andthen Sim]. rewrite app_nil_r. apply ends_step. exact ST.
Qed.

(** Closing a composite. *)
Lemma reach_close : forall c a t a' rest stk ks s o v v', not_selb t = true -> a_dontcollect Ctx a = false -> good (a_name Ctx a) stk ->
  v' = match t, v with TFixed _ _ _, VList l => VTuple l | _, _ => v end ->
  Sim c (mkState Ctx (BEnd Ctx (a', t) :: rest) (((a, t), v) :: stk) ks s o) (closing (a_name Ctx a) t v' s)
    (fun v s' o' => mkState Ctx rest (putv (a_name Ctx a) v stk) ks s' o').
Proof.
  intros c a t a' rest stk ks s o v v' HS HD HG EV. unfold closing, say, andthen, ret. cbn [Sim].
  apply reach_step. cbn [app]. unfold step. cbn [st_events bev_item].
  destruct t; try discriminate HS; cbn [st_stack snd fst]; rewrite <- EV, collect_put by assumption; reflexivity.
Qed.

Definition Q (c : Ctx) (ver : option (list Z)) (t : ty) : Prop := forall a a' rest stk ks s o,
  (a' = a \/ not_sel Ctx t) -> a_when Ctx a = None -> a_count Ctx a = None -> a_dontcollect Ctx a = false ->
  good (a_name Ctx a) stk -> wf Ctx t ->
  Sim c (mkState Ctx (head a t :: tail ver a' t ++ rest) stk ks s o)
    (rd Ctx c ver (par stk) (a_name Ctx a) (a_cond Ctx a) t s)
    (fun v s' o' => mkState Ctx rest (putv (a_name Ctx a) v stk) ks s' o').

Lemma sim_repeated : forall c ver t, Q c ver t -> wf Ctx t -> forall n i rest below ks acc s o,
  Sim c (mkState Ctx (concat (repeat (visible_events Ctx ver (no_attrs Ctx) t) n) ++ rest) ((i, VList acc) :: below) ks s o)
    (repeated Ctx n (fun sofar s => rd Ctx c ver (Some sofar) None None t s) acc s)
    (fun l s' o' => mkState Ctx rest ((i, VList l) :: below) ks s' o').
Proof.
  intros c ver t HQ HW n. induction n as [|n IH]; intros i rest below ks acc s o.
  - apply sim_ret. reflexivity.
  - cbn [repeat concat repeated]. rewrite head_tail, <- app_assoc. cbn [app].
    eapply sim_bind; [apply (HQ (no_attrs Ctx) (no_attrs Ctx)); try reflexivity; auto; exact I|reflexivity|].
    intros x s1 out. rewrite <- head_tail. cbn [no_attrs a_name]. destruct x as [x|]; cbn [putv put]; apply IH.
Qed.

Lemma sim_array : forall c ver t t' n a a' rest stk ks s o v',
  Q c ver t' -> wf Ctx t' -> (forall l, v' l = match t with TFixed _ _ _ => VTuple l | _ => VList l end) ->
  match t with TFixed _ _ _ | TVar _ _ _ | TX _ _ _ => True | _ => False end ->
  inner ver a' t = visible_events Ctx ver (no_attrs Ctx) t' ->
  plain a -> good (a_name Ctx a) stk ->
  Sim c (mkState Ctx (BStart Ctx (with_count Ctx a n, t) :: times n (inner ver a' t) ++ BEnd Ctx (a', t) :: rest) stk ks s o)
    (andthen Ctx (array_of c ver (a_name Ctx a) t t' n s) (fun l s => closing (a_name Ctx a) t (v' l) s))
    (fun v s' o' => mkState Ctx rest (putv (a_name Ctx a) v stk) ks s' o').
Proof.
  intros c ver t t' n a a' rest stk ks s o v' HQ HW HV HT HI [H1 [H2 [H3 H4]]] HG. rewrite HI. unfold array_of, times.
  eapply (sim_bind c _ _ _ (fun l s' o' => mkState Ctx (BEnd Ctx (a', t) :: rest) (((with_count Ctx a n, t), VList l) :: stk) ks s' o')); [|reflexivity|].
  - eapply (sim_bind c _ _ _ (fun _ s' o' => mkState Ctx (concat (repeat (visible_events Ctx ver (no_attrs Ctx) t') (Z.to_nat n)) ++ BEnd Ctx (a', t) :: rest) (((with_count Ctx a n, t), VList []) :: stk) ks s' o')); [|reflexivity|].
    + apply sim_say, reach_step. unfold step. cbn [st_events bev_item].
      destruct t; try contradiction HT; cbn [with_count a_when a_cond a_count]; rewrite H1, H2; reflexivity.
    + intros _ s1 o1. apply sim_repeated; assumption.
  - intros l s1 o1. 
    apply (reach_close c (with_count Ctx a n) t a' rest stk ks s1 o1 (VList l) (v' l)); try assumption.
    + destruct t; try contradiction HT; reflexivity.
    + rewrite HV. destruct t; try contradiction HT; reflexivity.
Qed.

Definition QM (c : Ctx) (ver : option (list Z)) (ms : members) : Prop := forall rest i env below ks s o, wf_members Ctx ms ->
  Sim c (mkState Ctx (visible_members Ctx ver ms ++ rest) ((i, VDict env) :: below) ks s o)
    (rd_members Ctx c ver ms env s)
    (fun d s' o' => mkState Ctx rest ((i, VDict d) :: below) ks s' o').

Lemma has_key_dec : forall k (l : alts), {has_key Ctx k l} + {~ has_key Ctx k l}.
Proof.
  intros k. induction l as [|key t rest IH]; [right; intros []|]. cbn [has_key].
  destruct (Z.eq_dec k key); [left; auto|]. destruct IH as [IH|IH]; [left; auto|right; intros [H|H]; contradiction].
Qed.

Lemma step_when : forall c a t k ver rest stk key ks s o, not_selb t = true -> a_when Ctx a = Some k ->
  step Ctx c (mkState Ctx (visible_events Ctx ver a t ++ rest) stk (key :: ks) s o) =
  if k =? key then Next Ctx (mkState Ctx (head (without_when Ctx a) t :: tail ver a t ++ rest) stk (key :: ks) s o)
  else Next Ctx (mkState Ctx rest stk (key :: ks) s o).
Proof.
  intros c a t k ver rest stk key ks s o HS HW. rewrite head_tail. cbn [app].
  pose proof (skip_whole ver a a t rest) as HK. unfold step. cbn [st_events].
  destruct t; try discriminate HS; unfold head in *; cbn [is_leaf] in *; cbn [bev_item]; rewrite HW; cbn [st_stack st_select st_stream st_out];
    destruct (k =? key); try reflexivity; rewrite HK; reflexivity.
Qed.

Lemma skip_alts : forall c ver l a rest stk key ks s o, wf_alts Ctx l -> ~ has_key Ctx key l ->
  Reach c (mkState Ctx (visible_alts Ctx ver a l ++ rest) stk (key :: ks) s o) (mkState Ctx rest stk (key :: ks) s o).
Proof.
  intros c ver. induction l as [|k t l IH]; intros a rest stk key ks s o HW HK; autorewrite with evs.
  - apply reach_refl.
  - cbn [wf_alts] in HW. destruct HW as [HS [_ [_ HW]]]. cbn [has_key] in HK. rewrite <- app_assoc.
    eapply reach_trans; [|apply IH; tauto].
    apply reach_step. rewrite (step_when c (with_when Ctx a k) t k) by (auto using not_selb_of).
    destruct (k =? key) eqn:EK; [|reflexivity]. exfalso. apply HK. left. lia.
Qed.

Definition QA (c : Ctx) (ver : option (list Z)) (l : alts) : Prop := forall a rest stk key ks s o,
  a_when Ctx a = None -> a_count Ctx a = None -> a_dontcollect Ctx a = false -> good (a_name Ctx a) stk -> wf_alts Ctx l ->
  Sim c (mkState Ctx (visible_alts Ctx ver a l ++ rest) stk (key :: ks) s o)
    (rd_alts Ctx c ver (par stk) (a_name Ctx a) (a_cond Ctx a) key l s)
    (fun v s' o' => mkState Ctx rest (putv (a_name Ctx a) v stk) (key :: ks) s' o').

Lemma sim_mono : forall {X} c s0 (r : sres Ctx X) k k', (forall x s o, Reach c (k x s o) (k' x s o)) -> Sim c s0 r k -> Sim c s0 r k'.
Proof. intros X c s0 [[tr s'] [[x|e]|]] k k' HK H; cbn [Sim] in *; [|exact H|exact H]. eapply reach_trans; eauto. Qed.

Lemma wf_struct : forall ms, wf Ctx (TStruct Ctx ms) = wf_members Ctx ms. Proof. reflexivity. Qed.
Lemma wf_fixed : forall t n, wf Ctx (TFixed Ctx t n) = wf Ctx t. Proof. reflexivity. Qed.
Lemma wf_var : forall f t, wf Ctx (TVar Ctx f t) = wf Ctx t. Proof. reflexivity. Qed.
Lemma wf_x : forall f t, wf Ctx (TX Ctx f t) = wf Ctx t. Proof. reflexivity. Qed.
Lemma wf_selt : forall f l, wf Ctx (TSel Ctx f l) = wf_alts Ctx l. Proof. reflexivity. Qed.
Lemma wfm_cons : forall n r cd t rest, wf_members Ctx (MCons Ctx n r cd t rest) = (wf Ctx t /\ wf_members Ctx rest). Proof. reflexivity. Qed.
Lemma wfa_cons : forall k t rest, wf_alts Ctx (ACons Ctx k t rest) = (not_sel Ctx t /\ ~ has_key Ctx k rest /\ wf Ctx t /\ wf_alts Ctx rest). Proof. reflexivity. Qed.

Lemma engine : forall c ver, (forall t, Q c ver t) /\ (forall ms, QM c ver ms) /\ (forall l, QA c ver l).
Proof.
  intros c ver.
  assert (PL : forall a, a_when Ctx a = None -> a_count Ctx a = None -> a_dontcollect Ctx a = false -> plain (without_cond Ctx a))
    by (intros a; unfold plain; cbn; auto).
  apply ty_members_alts_ind.
  - (* TPrim *) intros p a a' rest stk ks s o HA HW HN HD HG _. autorewrite with evs.
    apply sim_guard; [reflexivity|exact HW|reflexivity|]. apply (sim_leaf c (without_cond Ctx a)); auto.
  - (* TFlags *) intros b g a a' rest stk ks s o HA HW HN HD HG _. autorewrite with evs.
    apply sim_guard; [reflexivity|exact HW|reflexivity|]. apply (sim_leaf c (without_cond Ctx a)); auto.
  - (* TStruct *) intros ms IH a a' rest stk ks s o HA HW HN HD HG HF. rewrite wf_struct in HF. autorewrite with evs.
    apply sim_guard; [reflexivity|exact HW|reflexivity|].
    unfold head, tail. cbn [is_leaf inner]. rewrite <- app_assoc. cbn [app].
    eapply (sim_bind c _ _ _ (fun _ s' o' => mkState Ctx (visible_members Ctx ver ms ++ BEnd Ctx (a', TStruct Ctx ms) :: rest) (((without_cond Ctx a, TStruct Ctx ms), VDict []) :: stk) ks s' o')); [|reflexivity|].
    + apply sim_say, reach_step. unfold step. cbn [st_events bev_item without_cond a_when a_cond a_count]. rewrite HW. reflexivity.
    + intros _ s1 o1. eapply sim_bind; [apply IH; exact HF|reflexivity|]. intros d s2 o2.
      apply (reach_close c (without_cond Ctx a) (TStruct Ctx ms)); auto.
  - (* TFixed *) intros t IH n a a' rest stk ks s o HA HW HN HD HG HF. rewrite wf_fixed in HF. autorewrite with evs.
    apply sim_guard; [reflexivity|exact HW|reflexivity|].
    assert (ST : step Ctx c (mkState Ctx (head (without_cond Ctx a) (TFixed Ctx t n) :: tail ver a' (TFixed Ctx t n) ++ rest) stk ks s o) =
      Next Ctx (mkState Ctx (BStart Ctx (with_count Ctx (without_cond Ctx a) n, TFixed Ctx t n) :: times n (inner ver a' (TFixed Ctx t n)) ++ BEnd Ctx (a', TFixed Ctx t n) :: rest) stk ks s o)).
    { unfold step. cbn [st_events head is_leaf bev_item without_cond a_when a_cond a_count]. rewrite HW, HN.
      apply (expand_whole n ver (without_cond Ctx a) a' (TFixed Ctx t n)). reflexivity. }
    eapply sim_reach; [apply reach_step; exact ST|reflexivity|].
    apply (sim_array c ver (TFixed Ctx t n) t n (without_cond Ctx a)); auto.
  - (* TVar *) intros f t IH a a' rest stk ks s o HA HW HN HD HG HF. rewrite wf_var in HF. autorewrite with evs.
    apply sim_guard; [reflexivity|exact HW|reflexivity|].
    assert (ST : step Ctx c (mkState Ctx (head (without_cond Ctx a) (TVar Ctx f t) :: tail ver a' (TVar Ctx f t) ++ rest) stk ks s o) =
      match read_leaf Ctx (TPrim Ctx (PFmt f)) s with
      | LeafOk v s' => match v with
          | VInt n => Next Ctx (mkState Ctx (BStart Ctx (with_count Ctx (without_cond Ctx a) n, TVar Ctx f t) :: times n (inner ver a' (TVar Ctx f t)) ++ BEnd Ctx (a', TVar Ctx f t) :: rest)
                         stk ks s' (o ++ [OLeaf Ctx None (TPrim Ctx (PFmt f)) (s_pos s) v]))
          | _ => Stop Ctx (o ++ [OLeaf Ctx None (TPrim Ctx (PFmt f)) (s_pos s) v]) s' (Failed TypeError)
          end
      | LeafError s' x => Stop Ctx (o ++ [OError Ctx None (TPrim Ctx (PFmt f)) (s_pos s) x]) s' (Failed (ParseError x (s_pos s)))
      | LeafRaise s' x => Stop Ctx o s' (Failed x)
      | LeafFuel => Stop Ctx o s OutOfFuel
      end).
    { unfold step. cbn [st_events head is_leaf bev_item without_cond a_when a_cond a_count]. rewrite HW, HN. cbn [st_stream st_out].
      destruct (read_leaf Ctx (TPrim Ctx (PFmt f)) s) as [v s'|s' x|s' x|]; try reflexivity. destruct v; try reflexivity.
      apply (expand_whole n ver (without_cond Ctx a) a' (TVar Ctx f t)). reflexivity. }
    unfold rd_leaf. destruct (read_leaf Ctx (TPrim Ctx (PFmt f)) s) as [v s'|s' x|s' x|].
    + destruct v as [n| | | | | | | |]; try (apply ends_step; exact ST).
      eapply sim_on; [apply reach_step; exact ST|reflexivity|].
      apply (sim_array c ver (TVar Ctx f t) t n (without_cond Ctx a)); auto.
    + apply ends_step. exact ST.
    + cbn [andthen Sim]. rewrite app_nil_r. apply ends_step. exact ST.
    + cbn [andthen Sim]. rewrite app_nil_r. apply ends_step. exact ST.
  - (* TX *) intros f t IH a a' rest stk ks s o HA HW HN HD HG HF. rewrite wf_x in HF. autorewrite with evs.
    apply sim_guard; [reflexivity|exact HW|reflexivity|].
    assert (ST : step Ctx c (mkState Ctx (head (without_cond Ctx a) (TX Ctx f t) :: tail ver a' (TX Ctx f t) ++ rest) stk ks s o) =
      match par stk with
      | None => Stop Ctx o s (Failed IndexError)
      | Some pv => match f c pv with
        | Raise x => Stop Ctx o s (Failed x)
        | Ok n => Next Ctx (mkState Ctx (BStart Ctx (with_count Ctx (without_cond Ctx a) n, TX Ctx f t) :: times n (inner ver a' (TX Ctx f t)) ++ BEnd Ctx (a', TX Ctx f t) :: rest) stk ks s o)
        end
      end).
    { unfold step. cbn [st_events head is_leaf bev_item without_cond a_when a_cond a_count]. rewrite HW, HN. cbn [st_stream st_stack st_out].
      destruct stk as [|[pi pv] stk]; [reflexivity|]. cbn [par]. destruct (f c pv) as [n|x]; [|reflexivity].
      apply (expand_whole n ver (without_cond Ctx a) a' (TX Ctx f t)). reflexivity. }
    unfold refer. destruct (par stk) as [pv|] eqn:EP; [destruct (f c pv) as [n|x]|].
    + unfold ret. eapply sim_on; [apply reach_step; exact ST|symmetry; apply app_nil_r|].
      apply (sim_array c ver (TX Ctx f t) t n (without_cond Ctx a)); auto.
    + cbn [fail andthen Sim]. rewrite app_nil_r. apply ends_step. exact ST.
    + cbn [fail andthen Sim]. rewrite app_nil_r. apply ends_step. exact ST.
  - (* TSel *) intros f l IH a a' rest stk ks s o HA HW HN HD HG HF. rewrite wf_selt in HF. autorewrite with evs.
    destruct HA as [->|[]].
    assert (ST : step Ctx c (mkState Ctx (head a (TSel Ctx f l) :: tail ver a (TSel Ctx f l) ++ rest) stk ks s o) =
      match par stk with
      | None => Stop Ctx o s (Failed IndexError)
      | Some pv => match f c pv with
        | Raise x => Stop Ctx o s (Failed x)
        | Ok k => Next Ctx (mkState Ctx (visible_alts Ctx ver a l ++ BEnd Ctx (a, TSel Ctx f l) :: rest) stk (k :: ks) s o)
        end
      end).
    { unfold step. cbn [st_events head is_leaf bev_item tail inner]. cbn [st_stream st_stack st_out]. rewrite <- app_assoc.
      destruct stk as [|[pi pv] stk]; [reflexivity|]. cbn [par]. destruct (f c pv) as [n|x]; reflexivity. }
    unfold refer. destruct (par stk) as [pv|] eqn:EP; [destruct (f c pv) as [k|x]|].
    + unfold ret. eapply sim_on; [apply reach_step; exact ST|symmetry; apply app_nil_r|].
      rewrite <- EP. eapply sim_mono; [|apply IH; assumption].
      intros v s1 o1. apply reach_step. reflexivity.
    + cbn [fail andthen Sim]. rewrite app_nil_r. apply ends_step. exact ST.
    + cbn [fail andthen Sim]. rewrite app_nil_r. apply ends_step. exact ST.
  - (* MNil *) intros rest i env below ks s o _. autorewrite with evs. apply sim_ret. reflexivity.
  - (* MCons *) intros name req cond t IHt ms IHm rest i env below ks s o HF. rewrite wfm_cons in HF. destruct HF as [HF1 HF2].
    autorewrite with evs. destruct (visible ver req).
    + rewrite head_tail, <- app_assoc. cbn [app].
      eapply sim_bind; [apply (IHt (member_attrs Ctx name req cond) (member_attrs Ctx name req cond)); auto; cbn; discriminate|reflexivity|].
      intros x s1 out. cbn [member_attrs a_name]. destruct x as [x|]; cbn [putv put]; apply IHm; exact HF2.
    + cbn [app]. apply IHm. exact HF2.
  - (* ANil *) intros a rest stk key ks s o HW HN HD HG _. autorewrite with evs. apply sim_ret. reflexivity.
  - (* ACons *) intros k t IHt l IHl a rest stk key ks s o HW HN HD HG HF. rewrite wfa_cons in HF. destruct HF as [HS [HK [HF1 HF2]]].
    autorewrite with evs. rewrite <- app_assoc.
    pose proof (step_when c (with_when Ctx a k) t k ver (visible_alts Ctx ver a l ++ rest) stk key ks s o (not_selb_of t HS) eq_refl) as ST.
    destruct (k =? key) eqn:EK.
    + eapply sim_reach; [apply reach_step; exact ST|reflexivity|].
      replace (without_when Ctx (with_when Ctx a k)) with a by (destruct a; cbn in *; subst; reflexivity).
      eapply sim_mono; [|apply (IHt a (with_when Ctx a k)); auto].
      intros x s1 out. cbv beta. apply skip_alts; [exact HF2|]. replace key with k by lia. exact HK.
    + eapply sim_reach; [apply reach_step; exact ST|reflexivity|]. apply IHl; assumption.
Qed.

Theorem engine_reads : forall c ver t s, wf Ctx t -> exists n, forall k,
  read_type_events Ctx (n + k) t c ver s =
  match rd Ctx c ver None None None t s with
  | (tr, s', Some (Ok _)) => (tr, s', Finished)
  | (tr, s', Some (Raise e)) => (tr, s', Failed e)
  | (tr, s', None) => (tr, s', OutOfFuel)
  end.
Proof.
  intros c ver t s HW.
  pose proof (proj1 (engine c ver) t (no_attrs Ctx) (no_attrs Ctx) [] [] [] s [] (or_introl eq_refl) eq_refl eq_refl eq_refl I HW) as H.
  rewrite app_nil_r, <- head_tail in H. unfold read_type_events. rewrite get_typedef_visible.
  cbn [par no_attrs a_name a_cond] in H. destruct (rd Ctx c ver None None None t s) as [[tr s'] [[x|e]|]]; cbn [Sim st_out app] in H.
  - destruct H as [n Hn]. exists (n + 1)%nat. intros k. rewrite <- Nat.add_assoc. rewrite Hn. destruct x; reflexivity.
  - destruct H as [n Hn]. exists n. exact Hn.
  - destruct H as [n Hn]. exists n. exact Hn.
Qed.
End P.
