(** Proofs about treeop. *)
From Coq Require Import ZArith List Bool Lia.
From Verif Require Import Base BaseFacts Model_Tree Spec_Tree.
Import ListNotations.
Open Scope Z_scope.

Lemma gapp_nil : forall A (g : gen A), gapp [] g = g.
Proof. intros A [l o]; reflexivity. Qed.
Lemma gapp_gapp : forall A (a b : list A) g, gapp a (gapp b g) = gapp (a ++ b) g.
Proof. intros A a b [l o]; unfold gapp; cbn; now rewrite app_assoc. Qed.
Lemma gcons_gapp : forall A (x : A) g, gcons x g = gapp [x] g.
Proof. reflexivity. Qed.

Lemma pop_to_split : forall A level (s1 s0 : list A), zlen s0 = level + 1 ->
  pop_to level (s1 ++ s0) = (s1, Ok s0).
Proof.
  intros A level s1 s0 H. induction s1 as [|x s1 IH].
  - cbn [app]. destruct s0 as [|y s0]; cbn [pop_to].
    + replace (level + 1 <? zlen (@nil A)) with false by (rewrite zlen_nil in *; lia). reflexivity.
    + replace (level + 1 <? zlen (y :: s0)) with false by lia. reflexivity.
  - cbn [app pop_to]. rewrite IH. rewrite zlen_cons, zlen_app. pose proof (zlen_nonneg _ s1).
    replace (level + 1 <? 1 + (zlen s1 + zlen s0)) with true by lia. reflexivity.
Qed.

Lemma check_level_ok : forall A level (s : list A), zlen s = level + 1 -> check_level level s = None.
Proof.
  intros. unfold check_level. replace (zlen s <? level + 1) with false by lia.
  replace (zlen s =? level + 1) with true by lia. reflexivity.
Qed.

Lemma close_all_split : forall A (s1 : list A) r, close_all (s1 ++ [r]) = map EEnd s1.
Proof.
  intros A s1 r. induction s1 as [|x s1 IH]; [reflexivity|].
  cbn [app close_all map]. rewrite IH, zlen_cons, zlen_app, zlen_cons, zlen_nil.
  pose proof (zlen_nonneg _ s1). replace (1 <? 1 + (zlen s1 + (1 + 0))) with true by lia. reflexivity.
Qed.

(** Processing the pre-order of a forest: the closing events may still be owed. *)
Lemma loop_forest : forall A (f : forest A) b d (s1 s0 : list A) rest, zlen s0 = d + 1 ->
  exists s1' evs,
    prefix_event_loop (Some b) (s1 ++ s0) (preorder (b + d) f ++ rest) =
      gapp evs (prefix_event_loop (Some b) (s1' ++ s0) rest) /\
    evs ++ map EEnd s1' = map EEnd s1 ++ walk f.
Proof.
  intros A. induction f as [|x kids IHk next IHn]; intros b d s1 s0 rest H0.
  - exists s1, []. cbn. rewrite gapp_nil, app_nil_r. auto.
  - cbn [preorder app]. cbn [prefix_event_loop].
    replace (b + d - b) with d by lia. rewrite pop_to_split by assumption. rewrite check_level_ok by assumption.
    rewrite <- app_assoc. replace (b + d + 1) with (b + (d + 1)) by lia.
    destruct (IHk b (d + 1) [] (x :: s0) (preorder (b + d) next ++ rest)) as (s2 & ev2 & E2 & W2).
    { rewrite zlen_cons. lia. }
    cbn [app] in E2. rewrite E2.
    destruct (IHn b d (s2 ++ [x]) s0 rest H0) as (s3 & ev3 & E3 & W3).
    rewrite <- app_assoc in E3. cbn [app] in E3. rewrite E3.
    exists s3, (map EEnd s1 ++ EStart x :: ev2 ++ ev3). split.
    + rewrite !gapp_gapp. f_equal. rewrite <- !app_assoc. reflexivity.
    + cbn [walk]. rewrite <- app_assoc. cbn [app]. rewrite <- app_assoc. rewrite W3.
      rewrite map_app, <- app_assoc, app_assoc, W2. cbn. reflexivity.
Qed.

(** The first item of a sequence. *)
Lemma loop_start : forall A (f : forest A) b root rest, f <> FNil ->
  exists s1 evs,
    prefix_event root (preorder b f ++ rest) =
      gapp evs (prefix_event_loop (Some b) (s1 ++ [root]) rest) /\
    evs ++ map EEnd s1 = walk f.
Proof.
  intros A f b root rest Hf. destruct f as [|x kids next]; [congruence|].
  unfold prefix_event. cbn [preorder app prefix_event_loop].
  change (pop_to 0 [root]) with (@nil A, Ok [root]). cbn iota beta.
  change (check_level 0 [root]) with (@None exn). cbn iota. cbn [map app].
  destruct (loop_forest A kids b 1 [] [x; root] (preorder b next ++ rest)) as (s2 & ev2 & E2 & W2); [reflexivity|].
  cbn [app] in E2. rewrite <- app_assoc. rewrite E2.
  destruct (loop_forest A next b 0 (s2 ++ [x]) [root] rest) as (s3 & ev3 & E3 & W3); [reflexivity|].
  rewrite Z.add_0_r in E3. rewrite <- app_assoc in E3. cbn [app] in E3. rewrite E3.
  exists s3, (EStart x :: ev2 ++ ev3). split.
  - rewrite !gapp_gapp. reflexivity.
  - cbn [app walk]. rewrite <- app_assoc, W3, map_app, <- app_assoc, app_assoc, W2. reflexivity.
Qed.

Theorem prefix_event_forest : forall A (f : forest A) b root,
  prefix_event root (preorder b f) = (walk f, Finished).
Proof.
  intros A f b root. destruct f as [|x kids next].
  - reflexivity.
  - destruct (loop_start A (FCons x kids next) b root []) as (s1 & evs & E & W); [discriminate|].
    rewrite app_nil_r in E. rewrite E. cbn [prefix_event_loop]. rewrite close_all_split.
    unfold gapp. cbn [fst snd]. now rewrite W.
Qed.

(** Legal level sequences are pre-orders. *)
Lemma legal_span : forall A d (items : list (Z * A)) prev, d <= prev ->
  legal_from d prev (map fst items) ->
  exists sub rest, items = sub ++ rest /\
    Forall (fun p => d + 1 <= fst p) sub /\ legal_from (d + 1) prev (map fst sub) /\
    match rest with
    | [] => True
    | (l, x) :: r => l = d /\ legal_from d d (map fst r)
    end.
Proof.
  intros A d. induction items as [|[l x] items IH]; intros prev Hp H.
  - exists [], []. cbn. repeat split; constructor.
  - cbn [map fst legal_from] in H. destruct H as [Hl H].
    destruct (Z.eq_dec l d) as [->|NE].
    + exists [], ((d, x) :: items). cbn. repeat split; auto.
    + destruct (IH l ltac:(lia) H) as (sub & rest & -> & F & L & R).
      exists ((l, x) :: sub), rest. split; [reflexivity|]. split; [|split].
      * constructor; [cbn; lia|exact F].
      * cbn. split; [lia|exact L].
      * exact R.
Qed.

Lemma legal_forest : forall A n (items : list (Z * A)) d, (List.length items <= n)%nat ->
  match items with
  | [] => True
  | (l, _) :: r => l = d /\ legal_from d d (map fst r)
  end -> exists f, items = preorder d f.
Proof.
  intros A. induction n as [|n IH]; intros items d HL H.
  - destruct items; [exists FNil; reflexivity|cbn in HL; lia].
  - destruct items as [|[l x] items]; [exists FNil; reflexivity|].
    destruct H as [-> H]. cbn in HL.
    destruct (legal_span A d items d ltac:(lia) H) as (sub & rest & -> & F & L & R).
    rewrite app_length in HL.
    destruct (IH sub (d + 1)) as (kids & Ek).
    { lia. }
    { destruct sub as [|[l y] sub]; [trivial|]. cbn in L. inversion F as [|? ? Hl _]; subst. cbn in Hl.
      assert (l = d + 1) by lia. subst l. split; [reflexivity|]. apply L. }
    destruct (IH rest d) as (next & En); [lia|exact R|].
    exists (FCons x kids next). cbn. now rewrite <- Ek, <- En.
Qed.

Lemma legal_exists : forall A (items : list (Z * A)), legal (map fst items) ->
  exists f, items = preorder (match items with [] => 0 | (b, _) :: _ => b end) f.
Proof.
  intros A items H. eapply legal_forest; [reflexivity|].
  destruct items as [|[b x] r]; [trivial|]. cbn in H. auto.
Qed.

(** ... and pre-orders are legal. *)
Lemma preorder_levels : forall A (f : forest A) d, Forall (fun p => d <= fst p) (preorder d f).
Proof.
  intros A. induction f as [|x kids IHk next IHn]; intros d; cbn; [constructor|].
  constructor; [cbn; lia|]. apply Forall_app. split; [|apply IHn].
  eapply Forall_impl; [|apply IHk]. cbn. intros; lia.
Qed.

Definition last_level (prev : Z) (levels : list Z) : Z := last levels prev.

Lemma legal_from_app : forall base l1 l2 prev,
  legal_from base prev (l1 ++ l2) <-> legal_from base prev l1 /\ legal_from base (last l1 prev) l2.
Proof.
  intros base. induction l1 as [|x l1 IH]; intros l2 prev; cbn [app legal_from].
  - cbn. tauto.
  - rewrite IH. destruct l1 as [|y l1].
    + cbn. tauto.
    + assert (forall a b : Z, last (y :: l1) a = last (y :: l1) b) as HL.
      { clear. revert y. induction l1 as [|z l1 IH]; intros y a b; [reflexivity|]. cbn in *. apply IH. }
      change (last (x :: y :: l1) prev) with (last (y :: l1) prev). rewrite (HL prev x). tauto.
Qed.

Lemma last_ge : forall (l : list Z) d prev, Forall (fun x => d <= x) l -> d <= prev -> d <= last l prev.
Proof.
  induction l as [|x l IH]; intros d prev F H; [exact H|]. inversion F; subst.
  destruct l as [|y l]; [cbn; assumption|]. change (last (x :: y :: l) prev) with (last (y :: l) prev). now apply IH.
Qed.

Lemma preorder_legal_from : forall A (f : forest A) d base prev, base <= d <= prev + 1 ->
  legal_from base prev (map fst (preorder d f)).
Proof.
  intros A. induction f as [|x kids IHk next IHn]; intros d base prev H; cbn [preorder map fst legal_from]; [trivial|].
  split; [lia|]. rewrite map_app. apply legal_from_app. split.
  - apply IHk. lia.
  - apply IHn. pose proof (preorder_levels A kids (d + 1)) as F.
    assert (F' : Forall (fun x => d + 1 <= x) (map fst (preorder (d + 1) kids))) by (apply Forall_map; exact F).
    destruct (map fst (preorder (d + 1) kids)) as [|y l] eqn:E; [cbn; lia|].
    assert (d <= last (y :: l) d); [|lia].
    apply last_ge; [|lia]. eapply Forall_impl; [|exact F']. cbn; intros; lia.
Qed.

Lemma preorder_legal : forall A (f : forest A) b, legal (map fst (preorder b f)).
Proof.
  intros A f b. destruct f as [|x kids next]; [exact I|].
  pose proof (preorder_legal_from A (FCons x kids next) b b b ltac:(lia)) as H.
  cbn [preorder map fst legal_from] in H. cbn [preorder map fst legal]. apply H.
Qed.

Lemma preorder_head : forall A (f : forest A) b items l x, preorder b f = (l, x) :: items -> l = b.
Proof. intros A [|y k n] b items l x H; [discriminate|]. cbn in H. congruence. Qed.

(** ** Illegal sequences *)

Lemma first_illegal : forall levels base prev,
  legal_from base prev levels \/
  exists pre l post, levels = pre ++ l :: post /\ legal_from base prev pre /\
                     (l < base \/ l > last pre prev + 1).
Proof.
  induction levels as [|l levels IH]; intros base prev; [left; exact I|].
  destruct (Z_lt_ge_dec l base); [right; exists [], l, levels; cbn; auto|].
  destruct (Z_gt_le_dec l (prev + 1)); [right; exists [], l, levels; cbn; auto|].
  destruct (IH base l) as [H|(pre & l' & post & -> & H & C)].
  - left. cbn. split; [lia|exact H].
  - right. exists (l :: pre), l', post. split; [reflexivity|]. split; [cbn; split; [lia|exact H]|].
    destruct pre as [|p pre]; [exact C|].
    change (last (l :: p :: pre) prev) with (last (p :: pre) prev).
    assert (HL : last (p :: pre) prev = last (p :: pre) l).
    { clear. revert p. induction pre as [|z pre IH]; intros p; [reflexivity|]. cbn in *. apply IH. }
    rewrite HL. exact C.
Qed.


(** The stack after a legal prefix holds, from the root up, one item per level. *)
Definition stack_ok {A} (root : A) (base : Z) (pre : list (Z * A)) (stack : list A) : Prop :=
  exists lv, lv = last (map fst pre) base /\
    rev stack = root :: map (fun k => match last_at (base + Z.of_nat k) pre with Some y => y | None => root end)
                            (seq 0 (Z.to_nat (lv - base + 1))) /\
    (forall k, base <= k <= lv -> last_at k pre <> None).

Lemma last_at_snoc : forall A k (pre : list (Z * A)) l x,
  last_at k (pre ++ [(l, x)]) = if l =? k then Some x else last_at k pre.
Proof.
  intros A k pre l x. induction pre as [|[l' y] pre IH]; cbn.
  - destruct (l =? k); reflexivity.
  - rewrite IH. destruct (l =? k); [reflexivity|]. reflexivity.
Qed.

Lemma last_snoc : forall A (l : list A) x d, last (l ++ [x]) d = x.
Proof. intros A l x d. induction l as [|y l IH]; [reflexivity|]. cbn. destruct (l ++ [x]) eqn:E; [destruct l; discriminate|exact IH]. Qed.

Lemma pop_to_firstn : forall A level (stack : list A), 0 <= level + 1 <= zlen stack ->
  exists out s, pop_to level stack = (out, Ok s) /\ stack = out ++ s /\ zlen s = level + 1.
Proof.
  intros A level stack H.
  exists (ztake (zlen stack - (level + 1)) stack), (zdrop (zlen stack - (level + 1)) stack).
  assert (HS : zlen (zdrop (zlen stack - (level + 1)) stack) = level + 1) by (rewrite zlen_zdrop; lia).
  split; [|split; [now rewrite ztake_zdrop|exact HS]].
  rewrite <- (ztake_zdrop _ (zlen stack - (level + 1)) stack) at 1. now apply pop_to_split.
Qed.

Lemma firstn_seq : forall n m k, (n <= m)%nat -> firstn n (seq k m) = seq k n.
Proof. induction n as [|n IH]; intros [|m] k H; cbn; try lia; auto. f_equal. apply IH. lia. Qed.

Lemma rev_split_firstn : forall A (out s : list A) full n, rev (out ++ s) = full -> List.length s = n ->
  rev s = firstn n full.
Proof.
  intros A out s full n E L. rewrite rev_app_distr in E. subst full.
  rewrite firstn_app, rev_length, L, Nat.sub_diag. cbn. rewrite app_nil_r.
  rewrite firstn_all2; [reflexivity|rewrite rev_length; lia].
Qed.

(** One legal step. *)
Lemma stack_step : forall A root base pre (stack : list A) l x,
  stack_ok root base pre stack -> pre <> [] ->
  base <= l <= last (map fst pre) base + 1 ->
  exists out s, pop_to (l - base) stack = (out, Ok s) /\ check_level (l - base) s = None /\
    stack = out ++ s /\ stack_ok root base (pre ++ [(l, x)]) (x :: s) /\
    rev s = root :: map (fun k => match last_at (base + Z.of_nat k) pre with Some y => y | None => root end)
                        (seq 0 (Z.to_nat (l - base))) /\
    (forall k, base <= k < l -> last_at k pre <> None).
Proof.
  intros A root base pre stack l x (lv & Elv & ER & HN) Hpre Hl. subst lv.
  set (lv := last (map fst pre) base) in *.
  assert (HLs : zlen stack = Z.max 0 (lv - base + 1) + 1).
  { rewrite <- zlen_rev, ER, zlen_cons, zlen_map. unfold zlen. rewrite seq_length. lia. }
  destruct (pop_to_firstn A (l - base) stack ltac:(lia)) as (out & s & EP & ES & HS).
  exists out, s. split; [exact EP|]. split; [now apply check_level_ok|]. split; [exact ES|].
  assert (ERs : rev s = root :: map (fun k => match last_at (base + Z.of_nat k) pre with Some y => y | None => root end)
                        (seq 0 (Z.to_nat (l - base)))).
  { rewrite ES in ER. rewrite (rev_split_firstn _ _ _ _ (S (Z.to_nat (l - base))) ER).
    - cbn [firstn]. f_equal. rewrite firstn_map, firstn_seq by lia. reflexivity.
    - unfold zlen in HS. lia. }
  split; [|split; [exact ERs|intros k Hk; apply HN; lia]].
  exists l. rewrite map_app. cbn [map fst]. rewrite last_snoc. split; [reflexivity|]. split.
  - cbn [rev]. rewrite ERs. cbn [app]. f_equal.
    replace (Z.to_nat (l - base + 1)) with (S (Z.to_nat (l - base))) by lia.
    rewrite seq_S, map_app. cbn [map plus]. f_equal.
    + apply map_ext_in. intros k Hk. apply in_seq in Hk. rewrite last_at_snoc.
      replace (l =? base + Z.of_nat k) with false by lia. reflexivity.
    + rewrite last_at_snoc. replace (l =? base + Z.of_nat (Z.to_nat (l - base))) with true by lia. reflexivity.
  - intros k Hk. rewrite last_at_snoc. destruct (l =? k) eqn:E; [discriminate|]. apply HN. lia.
Qed.

Lemma stack_first : forall A (root : A) b x, stack_ok root b [(b, x)] [x; root].
Proof.
  intros. exists b. split; [reflexivity|]. replace (b - b + 1) with 1 by lia.
  change (Z.to_nat 1) with 1%nat. cbn [seq map rev app last_at fst].
  replace (b =? b + Z.of_nat 0) with true by lia. split; [reflexivity|].
  intros k Hk. replace (b =? k) with true by lia. discriminate.
Qed.

(** Ancestors *)
Lemma ancestors_loop : forall A root base (items : list (Z * A)) pre stack,
  stack_ok root base pre stack -> pre <> [] ->
  legal_from base (last (map fst pre) base) (map fst items) ->
  snd (ancestors_from_level_loop (Some base) stack items) = Finished /\
  forall i l x, nth_error items i = Some (l, x) ->
    (forall k, base <= k < l -> last_at k (pre ++ firstn i items) <> None) /\
    nth_error (fst (ancestors_from_level_loop (Some base) stack items)) i =
    Some (root :: map (fun k => match last_at (base + Z.of_nat k) (pre ++ firstn i items) with Some y => y | None => root end)
                      (seq 0 (Z.to_nat (l - base))), x).
Proof.
  intros A root base. induction items as [|[l x] items IH]; intros pre stack HS Hpre HL.
  - cbn. split; [reflexivity|]. intros [|i] l x H; discriminate.
  - cbn [map fst legal_from] in HL. destruct HL as [Hl HL].
    destruct (stack_step A root base pre stack l x HS Hpre Hl) as (out & s & EP & EC & ES & HS' & ERs & HN).
    cbn [ancestors_from_level_loop]. rewrite EP, EC.
    destruct (IH (pre ++ [(l, x)]) (x :: s) HS') as [HF HI].
    + destruct pre; discriminate.
    + rewrite map_app; cbn [map fst]; rewrite last_snoc; exact HL.
    + split; [exact HF|]. intros [|i] l' x' H.
      * cbn in H. inversion H; subst. cbn [firstn]. rewrite app_nil_r. split; [exact HN|].
        unfold gcons. cbn [fst nth_error]. now rewrite ERs.
      * cbn [nth_error] in H. destruct (HI i l' x' H) as [HN' HI'].
        cbn [firstn]. rewrite <- app_assoc in HN', HI'. cbn [app] in HN', HI'.
        split; [exact HN'|]. unfold gcons. cbn [fst nth_error]. exact HI'.
Qed.

Theorem ancestors_correct : forall A (root : A) items base, legal (map fst items) ->
  (match items with [] => True | (b, _) :: _ => b = base end) ->
  snd (prefix_ancestors_from_level root items) = Finished /\
  List.length (fst (prefix_ancestors_from_level root items)) = List.length items /\
  forall i l x, nth_error items i = Some (l, x) ->
    (forall k, base <= k < l -> last_at k (firstn i items) <> None) /\
    nth_error (fst (prefix_ancestors_from_level root items)) i =
    Some (root :: map (fun k => match last_at (base + Z.of_nat k) (firstn i items) with Some y => y | None => root end)
                      (seq 0 (Z.to_nat (l - base))), x).
Proof.
  intros A root items base HL Hb.
  assert (Hlen : forall base' stack, snd (ancestors_from_level_loop base' stack items) = Finished ->
    List.length (fst (ancestors_from_level_loop base' stack items)) = List.length items).
  { clear. induction items as [|[l x] items IH]; intros base' stack H; [reflexivity|].
    cbn [ancestors_from_level_loop] in *.
    destruct (pop_to _ stack) as [out [s|e]]; [|discriminate].
    destruct (check_level _ s); [discriminate|]. unfold gcons in *. cbn in *. f_equal. now apply IH. }
  destruct items as [|[b x] items].
  - split; [reflexivity|]. split; [reflexivity|]. intros i l x H. destruct i; discriminate.
  - subst b. cbn [map fst legal] in HL. unfold prefix_ancestors_from_level in *.
    assert (HX := ancestors_loop A root base items [(base, x)] [x; root] (stack_first A root base x)).
    destruct HX as [HF HI]; [discriminate|exact HL|].
    split; [exact HF|]. split; [apply Hlen; exact HF|].
    cbn [ancestors_from_level_loop]. change (pop_to 0 [root]) with (@nil A, Ok [root]). cbn iota beta.
    change (check_level 0 [root]) with (@None exn). cbn iota.
    intros [|i] l y H.
    + cbn in H. inversion H; subst. replace (l - l) with 0 by lia. cbn. split; [intros; lia|reflexivity].
    + cbn [nth_error] in H. destruct (HI i l y H) as [A1 A2]. unfold gcons. cbn [fst nth_error firstn]. auto.
Qed.

(** Bad sequences *)
Lemma event_loop_bad : forall A root base (items : list (Z * A)) pre stack l x rest,
  stack_ok root base pre stack -> pre <> [] ->
  legal_from base (last (map fst pre) base) (map fst items) ->
  exists evs s, prefix_event_loop (Some base) stack (items ++ (l, x) :: rest) =
    gapp evs (prefix_event_loop (Some base) s ((l, x) :: rest)) /\
    stack_ok root base (pre ++ items) s /\ pre ++ items <> [] /\
    prefix_event_loop (Some base) stack items = gapp evs (close_all s, Finished).
Proof.
  intros A root base. induction items as [|[l0 x0] items IH]; intros pre stack l x rest HS Hpre HL.
  - exists [], stack. rewrite gapp_nil, app_nil_r. cbn [app]. repeat split; auto.
  - cbn [map fst legal_from] in HL. destruct HL as [Hl HL].
    destruct (stack_step A root base pre stack l0 x0 HS Hpre Hl) as (out & s & EP & EC & ES & HS' & _ & _).
    cbn [app]. cbn [prefix_event_loop] in *. rewrite EP, EC.
    destruct (IH (pre ++ [(l0, x0)]) (x0 :: s) l x rest HS') as (evs & s' & E1 & E2 & E3 & E4).
    + destruct pre; discriminate.
    + rewrite map_app; cbn [map fst]; rewrite last_snoc; exact HL.
    + exists ((map EEnd out ++ [EStart x0]) ++ evs), s'. rewrite <- app_assoc in E2, E3. cbn [app] in E2, E3.
      cbn [prefix_event_loop] in E1. rewrite E1, E4, !gapp_gapp. repeat split; auto.
Qed.

Lemma pop_to_none : forall A level (s : list A), zlen s <= level + 1 -> pop_to level s = ([], Ok s).
Proof. intros A level s H. destruct s; cbn [pop_to]; [rewrite zlen_nil in *|]; (destruct (_ <? _) eqn:E; [lia|reflexivity]). Qed.

Lemma pop_to_empty : forall A level (s : list A), level + 1 < 0 -> pop_to level s = (s, Raise IndexError).
Proof.
  intros A level s H. induction s as [|x s IH]; cbn [pop_to].
  - rewrite zlen_nil. replace (level + 1 <? 0) with true by lia. reflexivity.
  - rewrite IH. pose proof (zlen_nonneg _ (x :: s)). replace (level + 1 <? zlen (x :: s)) with true by lia. reflexivity.
Qed.

Lemma close_all_all : forall A (s : list A) root r, rev s = root :: r -> map EEnd s = close_all s ++ [EEnd root].
Proof.
  intros A s root r H. assert (HS : s = rev r ++ [root]).
  { rewrite <- (rev_involutive s), H. reflexivity. }
  subst s. rewrite close_all_split, map_app. reflexivity.
Qed.

Lemma stack_ok_len : forall A root base pre (s : list A), stack_ok root base pre s ->
  zlen s = Z.max 0 (last (map fst pre) base - base + 1) + 1.
Proof.
  intros A root base pre s (lv & -> & ER & _).
  rewrite <- zlen_rev, ER, zlen_cons, zlen_map. unfold zlen. rewrite seq_length. lia.
Qed.

(** All sequences, in terms of the first illegal item. *)
Theorem prefix_event_cases : forall A (root : A) items,
  (legal (map fst items) /\
   exists f b, items = preorder b f /\ prefix_event root items = (walk f, Finished)) \/
  (exists pre l x rest f b, items = pre ++ (l, x) :: rest /\ pre <> [] /\ legal (map fst pre) /\ pre = preorder b f /\
    ( (* a jump of more than one level *)
      (l > last (map fst pre) b + 1 /\
       exists evs closing, prefix_event root items = (evs, Failed InvalidLevel) /\
                           evs ++ closing = walk f /\ Forall is_end closing) \/
      (* one below the first level *)
      (l = b - 1 /\ exists more o, prefix_event root items = (walk f ++ [EEnd root; EStart x] ++ more, o)) \/
      (* two or more below *)
      (l < b - 1 /\ prefix_event root items = (walk f ++ [EEnd root], Failed IndexError)))).
Proof.
  intros A root items.
  destruct items as [|[b x0] items].
  { left. split; [exact I|]. exists FNil, 0. split; reflexivity. }
  destruct (first_illegal (map fst items) b b) as [HL|(prel & l & postl & E & HL & C)].
  - left. assert (Hleg : legal (map fst ((b, x0) :: items))) by exact HL.
    split; [exact Hleg|].
    destruct (legal_exists A _ Hleg) as (f & Ef). exists f, b. split; [exact Ef|].
    rewrite Ef. apply prefix_event_forest.
  - right.
    assert (exists pre x rest, items = pre ++ (l, x) :: rest /\ map fst pre = prel) as (pre & x & rest & -> & <-).
    { clear - E. revert items E. induction prel as [|p prel IH]; intros [|[l' y] items] E; try discriminate.
      - cbn in E. inversion E; subst. exists [], y, items. auto.
      - cbn in E. inversion E; subst. destruct (IH items H1) as (pre & x & rest & -> & E2).
        exists ((p, y) :: pre), x, rest. split; [reflexivity|]. cbn. now rewrite E2. }
    clear E. assert (Hleg : legal (map fst ((b, x0) :: pre))) by exact HL.
    destruct (legal_exists A _ Hleg) as (f & Ef).
    exists ((b, x0) :: pre), l, x, rest, f, b.
    split; [reflexivity|]. split; [discriminate|]. split; [exact Hleg|]. split; [exact Ef|].
    destruct (event_loop_bad A root b pre [(b, x0)] [x0; root] l x rest (stack_first A root b x0)) as (evs & s & E1 & E2 & E3 & E4);
      [discriminate|exact HL|].
    assert (EW : EStart x0 :: evs ++ close_all s = walk f).
    { pose proof (prefix_event_forest A f b root) as PF. rewrite <- Ef in PF.
      unfold prefix_event in PF. cbn [prefix_event_loop] in PF.
      change (pop_to 0 [root]) with (@nil A, Ok [root]) in PF. cbn iota beta in PF.
      change (check_level 0 [root]) with (@None exn) in PF. cbn iota in PF. rewrite E4 in PF.
      unfold gapp in PF. cbn [fst snd map app] in PF. congruence. }
    assert (EP : prefix_event root ((b, x0) :: pre ++ (l, x) :: rest) =
                 gapp (EStart x0 :: evs) (prefix_event_loop (Some b) s ((l, x) :: rest))).
    { unfold prefix_event. cbn [prefix_event_loop] in *.
      change (pop_to 0 [root]) with (@nil A, Ok [root]). cbn iota beta.
      change (check_level 0 [root]) with (@None exn). cbn iota. rewrite E1, gapp_gapp. reflexivity. }
    cbn [app] in *. rewrite EP.
    pose proof (stack_ok_len _ _ _ _ _ E2) as HSL.
    assert (ELast : last (map fst ((b, x0) :: pre)) b = last (map fst pre) b).
    { cbn. destruct (map fst pre); [reflexivity|]. reflexivity. }
    assert (HGE : b <= last (map fst pre) b).
    { assert (HF : Forall (fun y => b <= y) (map fst pre)).
      { clear - HL. revert HL. generalize b at 2. induction (map fst pre) as [|y t IH]; intros z HL; constructor; cbn in HL; [lia|].
        apply (IH y). apply HL. }
      apply last_ge; [exact HF|lia]. }
    cbn [app] in HSL. rewrite ELast in HSL. rewrite ELast.
    cbn [prefix_event_loop].
    destruct C as [C|C].
    + destruct (Z.eq_dec l (b - 1)) as [->|NE].
      * right. left. split; [reflexivity|].
        replace (b - 1 - b) with (-1) by lia.
        assert (EPop : pop_to (-1) s = (s, Ok [])).
        { rewrite <- (app_nil_r s) at 1. apply pop_to_split. reflexivity. }
        rewrite EPop. change (check_level (-1) (@nil A)) with (@None exn). cbn iota.
        destruct (prefix_event_loop (Some b) [x] rest) as [more o] eqn:EM.
        exists more, o. unfold gapp. cbn [fst snd].
        f_equal. destruct E2 as (lv & _ & ER & _). rewrite (close_all_all A s root _ ER).
        rewrite <- EW. cbn [app]. rewrite <- !app_assoc. reflexivity.
      * right. right. split; [lia|]. rewrite pop_to_empty by lia. unfold gapp. cbn [fst snd].
        f_equal. destruct E2 as (lv & _ & ER & _). rewrite (close_all_all A s root _ ER).
        rewrite <- EW. cbn [app]. rewrite <- !app_assoc. reflexivity.
    + left. split; [lia|]. rewrite pop_to_none by lia. unfold check_level.
      replace (zlen s <? l - b + 1) with true by lia. unfold gapp. cbn [fst snd map].
      exists (EStart x0 :: evs), (close_all s). rewrite app_nil_r.
      split; [reflexivity|]. split; [exact EW|].
      clear. induction s as [|y s IH]; cbn [close_all]; destruct (1 <? _); constructor; auto; exact I.
Qed.

(** ** Nesting facts *)

(** Depth bookkeeping: in a walk every proper prefix has no more ends than starts. *)
Fixpoint depth_ok {A} (d : Z) (evs : list (event A)) : bool :=
  match evs with
  | [] => d =? 0
  | EStart _ :: rest => depth_ok (d + 1) rest
  | EEnd _ :: rest => (0 <? d) && depth_ok (d - 1) rest
  end.

Lemma depth_walk_app : forall A (f : forest A) d rest, 0 <= d -> depth_ok d (walk f ++ rest) = depth_ok d rest.
Proof.
  intros A. induction f as [|x k IHk n IHn]; intros d rest Hd; [reflexivity|].
  cbn [walk app depth_ok]. rewrite <- app_assoc, IHk by lia. cbn [app depth_ok].
  replace (0 <? d + 1) with true by lia. replace (d + 1 - 1) with d by lia. cbn [andb]. now apply IHn.
Qed.

Lemma depth_walk : forall A (f : forest A), depth_ok 0 (walk f) = true.
Proof. intros A f. rewrite <- (app_nil_r (walk f)), depth_walk_app by lia. reflexivity. Qed.

Theorem below_first_not_nested : forall A (f : forest A) root x more,
  ~ well_nested (walk f ++ [EEnd root; EStart x] ++ more).
Proof.
  intros A f root x more (g & E). pose proof (depth_walk A g) as H. rewrite <- E in H.
  rewrite depth_walk_app in H by lia. cbn in H. discriminate.
Qed.

Theorem prefix_event_iff : forall A (root : A) items,
  (exists f, prefix_event root items = (walk f, Finished)) <-> legal (map fst items).
Proof.
  intros A root items. destruct (prefix_event_cases A root items) as
    [(HL & f & b & E & EP)|(pre & l & x & rest & f & b & E & Hpre & HLp & Ef & C)].
  - split; [auto|]. intros _. eauto.
  - assert (HN : ~ legal (map fst items)).
    { intros HL. subst items. destruct pre as [|[b' y] pre]; [congruence|].
      assert (b' = b) by (symmetry in Ef; apply preorder_head in Ef; exact Ef). subst b'.
      rewrite map_app in HL. cbn [map fst app legal] in HL. apply legal_from_app in HL as [HL1 HL2].
      cbn [map fst legal_from] in HL2.
      assert (EL : last (map fst ((b, y) :: pre)) b = last (map fst pre) b) by (cbn; destruct (map fst pre); reflexivity).
      rewrite EL in C. destruct C as [(C & _)|[(C & _)|(C & _)]]; lia. }
    split; [|tauto]. intros (g & EG). exfalso.
    destruct C as [(_ & evs & cl & EP & _)|[(_ & more & o & EP)|(_ & EP)]]; rewrite EP in EG; try discriminate.
    inversion EG as [[E1 E2]]. apply (below_first_not_nested A f root x more). exists g. exact E1.
Qed.

(** ** Forests and levels determine each other *)
Lemma preorder_inj_aux : forall A n (f g : forest A) d r1 r2,
  (List.length (preorder d f ++ r1) <= n)%nat ->
  (match r1 with [] => True | (l, _) :: _ => l < d end) ->
  (match r2 with [] => True | (l, _) :: _ => l < d end) ->
  preorder d f ++ r1 = preorder d g ++ r2 -> f = g /\ r1 = r2.
Proof.
  intros A. induction n as [|n IH]; intros f g d r1 r2 HL H1 H2 E.
  - destruct f; [|cbn in HL; lia]. destruct r1; [|cbn in HL; lia]. destruct g; [|discriminate]. destruct r2; [auto|discriminate].
  - destruct f as [|x kf nf]; destruct g as [|y kg ng]; cbn [preorder app] in E.
    + auto.
    + exfalso. subst r1. cbn in H1. lia.
    + exfalso. subst r2. cbn in H2. lia.
    + inversion E as [[Exy E']]. subst y. rewrite <- !app_assoc in E'.
      cbn [preorder app List.length] in HL.
      assert (HH : forall (f : forest A) r, match r with [] => True | (l, _) :: _ => l < d end ->
                match preorder d f ++ r with [] => True | (l, _) :: _ => l < d + 1 end).
      { intros [|z kz nz] r Hr; cbn; [destruct r as [|[l w] r]; [trivial|lia]|lia]. }
      rewrite <- app_assoc in HL.
      destruct (IH kf kg (d + 1) (preorder d nf ++ r1) (preorder d ng ++ r2)) as [-> E2];
        [lia|now apply HH|now apply HH|exact E'|].
      rewrite app_length in HL.
      destruct (IH nf ng d r1 r2) as [-> ->]; [lia|exact H1|exact H2|exact E2|]. auto.
Qed.

Theorem preorder_inj : forall A (f g : forest A) d, preorder d f = preorder d g -> f = g.
Proof.
  intros A f g d E. apply (preorder_inj_aux A (List.length (preorder d f ++ [])) f g d [] []); auto.
  rewrite E. reflexivity.
Qed.

(** ** Walks determine their forests *)
Lemma walk_inj_aux : forall A n (f g : forest A) r1 r2,
  (List.length (walk f ++ r1) <= n)%nat ->
  (match r1 with EStart _ :: _ => False | _ => True end) ->
  (match r2 with EStart _ :: _ => False | _ => True end) ->
  walk f ++ r1 = walk g ++ r2 -> f = g /\ r1 = r2.
Proof.
  intros A. induction n as [|n IH]; intros f g r1 r2 HL H1 H2 E.
  - destruct f; [|cbn in HL; lia]. destruct r1; [|cbn in HL; lia]. destruct g; [|discriminate]. destruct r2; [auto|discriminate].
  - destruct f as [|x kf nf]; destruct g as [|y kg ng]; cbn [walk app] in E.
    + auto.
    + subst r1. destruct H1.
    + subst r2. destruct H2.
    + inversion E as [[Exy E']]. subst y. rewrite <- !app_assoc in E'. cbn [app] in E'.
      cbn [walk app List.length] in HL. rewrite <- app_assoc in HL. cbn [app] in HL.
      destruct (IH kf kg (EEnd x :: walk nf ++ r1) (EEnd x :: walk ng ++ r2)) as [-> E2];
        [lia|exact I|exact I|exact E'|].
      inversion E2 as [E3]. rewrite app_length in HL. cbn [List.length] in HL.
      destruct (IH nf ng r1 r2) as [-> ->]; [lia|exact H1|exact H2|exact E3|]. auto.
Qed.

Theorem walk_inj : forall A (f g : forest A), walk f = walk g -> f = g.
Proof.
  intros A f g E. apply (walk_inj_aux A (List.length (walk f ++ [])) f g [] []); auto; try exact I.
  rewrite E. reflexivity.
Qed.

(** ** Trees *)


Lemma append_tree_fapp : forall A (f : forest A) x k, append_tree f x k = fapp f (FCons x k FNil).
Proof. induction f; intros; cbn; [reflexivity|]. now rewrite IHf2. Qed.

Lemma fapp_assoc : forall A (f g h : forest A), fapp (fapp f g) h = fapp f (fapp g h).
Proof. induction f; intros; cbn; [reflexivity|]. now rewrite IHf2. Qed.
Lemma fapp_nil_r : forall A (f : forest A), fapp f FNil = f.
Proof. induction f; cbn; [reflexivity|]. now rewrite IHf2. Qed.
Lemma walk_fapp : forall A (f g : forest A), walk (fapp f g) = walk f ++ walk g.
Proof. induction f; intros; cbn; [reflexivity|]. rewrite IHf2, <- app_assoc. reflexivity. Qed.

Lemma build_loop : forall A (f : forest A) fuel acc x rest,
  (List.length (walk f ++ EEnd x :: rest) <= fuel)%nat ->
  build_subtree_loop fuel acc (walk f ++ EEnd x :: rest) = Some (Some (x, fapp acc f), rest).
Proof.
  intros A. 
  assert (H : forall n (f : forest A) fuel acc x rest, (List.length (walk f) <= n)%nat ->
    (List.length (walk f ++ EEnd x :: rest) <= fuel)%nat ->
    build_subtree_loop fuel acc (walk f ++ EEnd x :: rest) = Some (Some (x, fapp acc f), rest)).
  { induction n as [|n IH]; intros f fuel acc x rest Hn HL.
    - destruct f; [|cbn in Hn; lia]. cbn in HL. destruct fuel; [lia|]. cbn. now rewrite fapp_nil_r.
    - destruct f as [|y k nx]; cbn [walk app] in *.
      + destruct fuel; [cbn in HL; lia|]. cbn. now rewrite fapp_nil_r.
      + cbn [List.length] in *. destruct fuel as [|fuel]; [lia|]. cbn [build_subtree_loop].
        rewrite !app_length in HL. cbn [List.length] in HL. rewrite app_length in Hn. cbn [List.length] in Hn.
        rewrite <- app_assoc. cbn [app].
        rewrite IH; [|lia|rewrite !app_length; cbn [List.length]; rewrite app_length; cbn; lia].
        cbn [fapp]. rewrite append_tree_fapp. rewrite IH; [|lia|rewrite !app_length; cbn; lia].
        rewrite fapp_assoc. reflexivity. }
  intros f fuel acc x rest HL. apply (H (List.length (walk f))); auto.
Qed.

Theorem build_subtree_walk : forall A (childs : forest A) x rest,
  build_subtree (walk childs ++ EEnd x :: rest) = Some (Some (x, childs), rest).
Proof. intros. unfold build_subtree. rewrite build_loop by lia. reflexivity. Qed.

Lemma build_walk_exhausted : forall A (f : forest A) fuel acc,
  (List.length (walk f) < fuel)%nat ->
  build_subtree_loop fuel acc (walk f) = Some (None, []).
Proof.
  intros A f. induction f as [|y k _ nx IHn]; intros fuel acc HL; (destruct fuel as [|fuel]; [lia|]).
  - reflexivity.
  - cbn [walk build_subtree_loop]. cbn [walk List.length] in HL. rewrite app_length in HL. cbn in HL.
    rewrite build_loop by (rewrite app_length; cbn; lia). cbn [fapp]. apply IHn. lia.
Qed.

Theorem build_subtree_exhausted : forall A (f : forest A), build_subtree (walk f) = Some (None, []).
Proof. intros. unfold build_subtree. apply build_walk_exhausted. lia. Qed.

Theorem tree_events_multi_walk : forall A (f : forest A), tree_events_multi f = walk f.
Proof.
  induction f as [|x k IHk n IHn]; [reflexivity|]. cbn [tree_events_multi walk]. rewrite IHk, IHn.
  cbn [app]. rewrite <- app_assoc. reflexivity.
Qed.

Theorem tree_events_walk : forall A (x : A) k, tree_events x k = walk (FCons x k FNil).
Proof. intros. unfold tree_events. rewrite tree_events_multi_walk. reflexivity. Qed.

(** build then flatten *)
Theorem build_then_events : forall A (x : A) childs rest x' childs' rest',
  build_subtree (walk childs ++ EEnd x :: rest) = Some (Some (x', childs'), rest') ->
  tree_events x' childs' ++ rest' = EStart x :: walk childs ++ EEnd x :: rest.
Proof.
  intros A x childs rest x' childs' rest' E. rewrite build_subtree_walk in E. inversion E; subst.
  rewrite tree_events_walk. cbn [walk app]. rewrite <- app_assoc. reflexivity.
Qed.

(** ** Sub-events *)
Lemma iter_loop : forall A (f : forest A) level rest, 0 <= level ->
  iter_subevents_loop level (walk f ++ rest) =
  (walk f ++ fst (iter_subevents_loop level rest), snd (iter_subevents_loop level rest)).
Proof.
  intros A. induction f as [|x k IHk n IHn]; intros level rest HL.
  - cbn. destruct (iter_subevents_loop level rest); reflexivity.
  - cbn [walk app iter_subevents_loop]. rewrite <- app_assoc. cbn [app]. rewrite IHk by lia.
    cbn [iter_subevents_loop]. replace (0 <? level + 1) with true by lia.
    replace (level + 1 - 1) with level by lia. rewrite IHn by lia.
    destruct (iter_subevents_loop level rest) as [o l]. cbn [fst snd]. rewrite <- app_assoc. reflexivity.
Qed.

Theorem iter_subevents_matching : forall A (f : forest A) x rest,
  iter_subevents (walk f ++ EEnd x :: rest) = (walk f ++ [EEnd x], rest).
Proof. intros. unfold iter_subevents. rewrite iter_loop by lia. reflexivity. Qed.

Theorem iter_subevents_unclosed : forall A (f : forest A), iter_subevents (walk f) = (walk f, []).
Proof. intros. unfold iter_subevents. rewrite <- (app_nil_r (walk f)) at 1. rewrite iter_loop by lia. cbn. now rewrite app_nil_r. Qed.

(** ** Ancestors from events *)
Lemma ancestors_events : forall A (f : forest A) stack rest,
  prefix_ancestors_loop stack (walk f ++ rest) = gapp (paths (rev stack) f) (prefix_ancestors_loop stack rest).
Proof.
  intros A. induction f as [|x k IHk n IHn]; intros stack rest.
  - cbn. now rewrite gapp_nil.
  - cbn [walk app prefix_ancestors_loop paths]. rewrite <- app_assoc. cbn [app]. rewrite IHk.
    cbn [prefix_ancestors_loop rev]. rewrite IHn, gcons_gapp, !gapp_gapp. reflexivity.
Qed.

Theorem prefix_ancestors_paths : forall A (root : A) f,
  prefix_ancestors root (walk f) = (paths [root] f, Finished).
Proof.
  intros. unfold prefix_ancestors. rewrite <- (app_nil_r (walk f)), ancestors_events.
  unfold gapp. cbn. now rewrite app_nil_r.
Qed.

Lemma ancestors_level_forest : forall A (f : forest A) b d s1 s0 rest, zlen s0 = d + 1 ->
  exists s1', ancestors_from_level_loop (Some b) (s1 ++ s0) (preorder (b + d) f ++ rest) =
    gapp (paths (rev s0) f) (ancestors_from_level_loop (Some b) (s1' ++ s0) rest).
Proof.
  intros A. induction f as [|x k IHk n IHn]; intros b d s1 s0 rest H0.
  - exists s1. cbn. now rewrite gapp_nil.
  - cbn [preorder app ancestors_from_level_loop]. replace (b + d - b) with d by lia.
    rewrite pop_to_split by assumption. rewrite check_level_ok by assumption. rewrite <- app_assoc.
    replace (b + d + 1) with (b + (d + 1)) by lia.
    destruct (IHk b (d + 1) [] (x :: s0) (preorder (b + d) n ++ rest)) as (s2 & E2); [rewrite zlen_cons; lia|].
    cbn [app] in E2. rewrite E2.
    destruct (IHn b d (s2 ++ [x]) s0 rest H0) as (s3 & E3). rewrite <- app_assoc in E3. cbn [app] in E3. rewrite E3.
    exists s3. cbn [paths rev]. rewrite gcons_gapp, !gapp_gapp. reflexivity.
Qed.

Theorem ancestors_from_level_paths : forall A (root : A) f b,
  prefix_ancestors_from_level root (preorder b f) = (paths [root] f, Finished).
Proof.
  intros A root f b. destruct f as [|x k n]; [reflexivity|].
  unfold prefix_ancestors_from_level. cbn [preorder ancestors_from_level_loop].
  change (pop_to 0 [root]) with (@nil A, Ok [root]). cbn iota beta.
  change (check_level 0 [root]) with (@None exn). cbn iota.
  destruct (ancestors_level_forest A k b 1 [] [x; root] (preorder b n)) as (s2 & E2); [reflexivity|].
  cbn [app] in E2. rewrite E2.
  destruct (ancestors_level_forest A n b 0 (s2 ++ [x]) [root] []) as (s3 & E3); [reflexivity|].
  rewrite Z.add_0_r, app_nil_r, <- app_assoc in E3. cbn [app] in E3. rewrite E3.
  cbn [ancestors_from_level_loop paths rev app]. rewrite gcons_gapp, !gapp_gapp. unfold gapp. cbn. now rewrite app_nil_r.
Qed.

(** ** Order of items *)
Lemma starts_preorder : forall A (f : forest A) d, starts (walk f) = map snd (preorder d f).
Proof.
  intros A. assert (HA : forall (a b : list (event A)), starts (a ++ b) = starts a ++ starts b).
  { induction a as [|[x|x] a IH]; intros b; cbn; [reflexivity|now rewrite IH|apply IH]. }
  induction f as [|x k IHk n IHn]; intros d; [reflexivity|].
  cbn [walk starts preorder map snd]. rewrite HA, map_app, (IHk (d + 1)). cbn [starts]. now rewrite (IHn d).
Qed.

Theorem from_zero_level : forall A (root : A) items,
  (match items with [] => True | (b, _) :: _ => b = 0 end) -> Forall (fun p => 0 <= fst p) items ->
  (exists f, items = preorder 0 f /\ prefix_event root items = (walk f, Finished)) \/
  (exists evs, prefix_event root items = (evs, Failed InvalidLevel)).
Proof.
  intros A root items Hb HF.
  destruct (prefix_event_cases A root items) as
    [(HL & f & b & E & EP)|(pre & l & x & rest & f & b & E & Hpre & HLp & Ef & C)].
  - left. exists f. destruct f as [|y k n].
    + split; [subst; reflexivity|assumption].
    + assert (b = 0) by (subst items; exact Hb). subst b. auto.
  - right. destruct pre as [|[b' y] pre]; [congruence|].
    assert (b' = b) by (symmetry in Ef; apply preorder_head in Ef; exact Ef). subst b'.
    assert (b = 0) by (subst items; exact Hb). subst b.
    assert (0 <= l). { subst items. apply Forall_app in HF as [_ HF]. inversion HF; subst. assumption. }
    destruct C as [(_ & evs & cl & EP & _)|[(C & _)|(C & _)]]; [eauto|lia|lia].
Qed.

Lemma below_cases : forall A (f : forest A) (root : A) b l x rest, f <> FNil -> l < b ->
  exists s r, rev s = root :: r /\ exists evs,
    prefix_event root (preorder b f ++ (l, x) :: rest) =
      gapp evs (prefix_event_loop (Some b) s ((l, x) :: rest)) /\
    evs ++ map EEnd s = walk f ++ [EEnd root].
Proof.
  intros A f root b l x rest Hf Hl.
  destruct (loop_start A f b root ((l, x) :: rest) Hf) as (s1 & evs & E & W).
  exists (s1 ++ [root]), (rev s1). split; [rewrite rev_app_distr; reflexivity|].
  exists evs. split; [exact E|]. rewrite map_app, app_assoc, W. reflexivity.
Qed.

Theorem below_first : forall A (f : forest A) (root : A) b x rest, f <> FNil ->
  exists more o,
    prefix_event root (preorder b f ++ (b - 1, x) :: rest) = (walk f ++ [EEnd root; EStart x] ++ more, o) /\
    ~ well_nested (walk f ++ [EEnd root; EStart x] ++ more).
Proof.
  intros A f root b x rest Hf.
  destruct (below_cases A f root b (b - 1) x rest Hf ltac:(lia)) as (s & r & ER & evs & E & W).
  rewrite E. cbn [prefix_event_loop]. replace (b - 1 - b) with (-1) by lia.
  assert (EPop : pop_to (-1) s = (s, Ok [])).
  { rewrite <- (app_nil_r s) at 1. apply pop_to_split. reflexivity. }
  rewrite EPop. change (check_level (-1) (@nil A)) with (@None exn). cbn iota.
  destruct (prefix_event_loop (Some b) [x] rest) as [more o] eqn:EM.
  exists more, o. split; [|apply below_first_not_nested].
  unfold gapp. cbn [fst snd]. f_equal. rewrite !app_assoc, W, <- !app_assoc. reflexivity.
Qed.

Theorem two_below_first : forall A (f : forest A) (root : A) b l x rest, f <> FNil -> l < b - 1 ->
  prefix_event root (preorder b f ++ (l, x) :: rest) = (walk f ++ [EEnd root], Failed IndexError).
Proof.
  intros A f root b l x rest Hf Hl.
  destruct (below_cases A f root b l x rest Hf ltac:(lia)) as (s & r & ER & evs & E & W).
  rewrite E. cbn [prefix_event_loop]. rewrite pop_to_empty by lia. unfold gapp. cbn [fst snd]. now rewrite W.
Qed.
