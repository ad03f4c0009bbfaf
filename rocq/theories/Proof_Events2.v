(** The events of record models come to an end. *)
From Coq Require Import ZArith String List Bool Lia.
From Verif Require Import Base BaseFacts Model_Text Model_Dataio Model_Record Model_Tree Model_Bintype Model_Classes Model_Layouts Model_Models Model_Events.
From Verif Require Import Spec_Bintype Spec_Models Proof_Bintype Proof_Bintype2 Proof_Models Spec_Record Proof_Record Proof_Proc Spec_Events Proof_Events.
Import ListNotations.
Open Scope list_scope.
Open Scope Z_scope.

Section Engine.
  Variable Ctx : Type.
  Variable c : Ctx.
  Notation run_on := (run_on Ctx).
  Notation state := (state Ctx).
  Notation bev := (bev Ctx).

  Definition halts (s : state) : Prop := exists n out strm o, o <> OutOfFuel /\ forall k, run_on (n + k) c s = (out, strm, o).
  Lemma halts_step : forall s, match step_on Ctx c s with Next _ s' => halts s' | Stop _ _ _ o => o <> OutOfFuel end -> halts s.
  Proof.
    intros s H. destruct (step_on Ctx c s) as [s'|out strm o] eqn:E.
    - destruct H as (n & out & strm & o & N & H). exists (S n), out, strm, o. split; [exact N|]. intros k. cbn [Nat.add Model_Events.run_on]. rewrite E. apply H.
    - exists 1%nat, out, strm, o. split; [exact H|]. intros k. cbn [Nat.add Model_Events.run_on]. rewrite E. reflexivity.
  Qed.
  Definition K (evs : list bev) : Prop := forall stk sel s o, all_bytes (s_rest s) -> halts (mkState Ctx evs stk sel s o).
  Lemma K_nil : K [].
  Proof. intros stk sel s o B. apply halts_step. cbn. discriminate. Qed.

  Definition well (r : step_res Ctx) : Prop := match r with Next _ s' => halts s' | Stop _ _ _ o => o <> OutOfFuel end.
  (** What [step_on] makes of a step on an event that is no variable array. *)
  Lemma well_on : forall e rest stk sel s o, K rest -> all_bytes (s_rest s) ->
    (forall r, step Ctx c (mkState Ctx (e :: rest) stk sel s o) = r -> well r) -> well (step_on Ctx c (mkState Ctx (e :: rest) stk sel s o)).
  Proof.
    intros e rest stk sel s o R B H. pose proof (step_onward Ctx c (mkState Ctx (e :: rest) stk sel s o)) as G.
    specialize (H _ eq_refl). unfold step_on. destruct (step Ctx c (mkState Ctx (e :: rest) stk sel s o)) as [s'|out strm oo] eqn:E; [exact H|].
    destruct oo as [|x|]; try exact H. destruct x; try exact H. cbn [st_events]. destruct G as [_ C]. cbn [st_stream] in C.
    pose proof (all_bytes_consumes _ _ C B) as B'. destruct (snd (bev_item Ctx e)); cbn [st_stack st_select]; try (apply R; exact B'); discriminate.
  Qed.
  Lemma leaf_fuel : forall t s, all_bytes (s_rest s) -> read_leaf Ctx t s <> LeafFuel.
  Proof.
    intros t s B. destruct t; cbn [read_leaf]; try discriminate.
    - pose proof (prim_value_answers p s B) as H. destruct (prim_value p s) as [[[v|e]|] s']; try discriminate. cbn in H. congruence.
    - pose proof (prim_value_answers (PFmt base) s B) as H. destruct (prim_value (PFmt base) s) as [[[v|e]|] s']; [destruct v| |]; try discriminate. cbn in H. congruence.
  Qed.

  Lemma K_end : forall i rest, K rest -> K (BEnd Ctx i :: rest).
  Proof.
    intros i rest R stk sel s o B. apply halts_step. apply well_on; [exact R|exact B|]. intros r <-.
    unfold step, stop. cbn [st_events bev_item]. destruct i as [a t]. destruct t; unfold well;
    repeat match goal with |- match (match ?x with _ => _ end) with _ => _ end => destruct x end; try discriminate; cbn [st_stack st_select st_stream st_out]; apply R; exact B.
  Qed.

  Notation tail := (tail Ctx).
  Notation head := (head Ctx).
  Notation inner := (inner Ctx).
  Definition array (t : ty Ctx) : bool := match t with TFixed _ _ _ | TVar _ _ _ | TX _ _ _ => true | _ => false end.

  (** An event without conditions that is not expanded any more. *)
  Lemma K_push : forall a t X, not_selb Ctx t = true -> a_when Ctx a = None -> a_cond Ctx a = None -> (array t = true -> a_count Ctx a <> None) -> K X ->
    K (BStart Ctx (a, t) :: X).
  Proof.
    intros a t X T W C N R stk sel s o B. apply halts_step. apply well_on; [exact R|exact B|]. intros r <-.
    unfold step. cbn [st_events bev_item]. destruct t; try discriminate T; rewrite W, C; cbn [array] in N; try (destruct (a_count Ctx a) as [n|]; [|exfalso; apply N; reflexivity]);
    try (destruct (a_count Ctx a)); apply R; exact B.
  Qed.
  Lemma K_leaf : forall a t rest, is_leaf Ctx t = true -> a_when Ctx a = None -> a_cond Ctx a = None -> K rest -> K (BLeaf Ctx (a, t) :: rest).
  Proof.
    intros a t rest T W C R stk sel s o B. apply halts_step. apply well_on; [exact R|exact B|]. intros r <-.
    unfold step. cbn [st_events bev_item]. pose proof (read_leaf_consumes Ctx t s) as G. pose proof (leaf_fuel t s B) as F.
    destruct t; try discriminate T; rewrite W, C; cbn [st_stream st_stack]; destruct (a_count Ctx a);
    (destruct (read_leaf Ctx _ s) as [v s'|s' x|s' x|]; [|discriminate..|congruence]);
    (destruct (collect Ctx _ v stk) as [stk'|x]; [apply R; exact (all_bytes_consumes _ _ G B)|discriminate]).
  Qed.

  (** An event without conditions. *)
  Definition repeated (ver : option (list Z)) (a : attrs Ctx) (t : ty Ctx) (rest : list bev) : Prop :=
    forall n, K (times n (inner ver a t) ++ BEnd Ctx (a, t) :: rest).
  Lemma K_plain : forall ver a a' t rest, not_selb Ctx t = true -> a_when Ctx a' = None -> a_cond Ctx a' = None -> K rest ->
    (is_leaf Ctx t = false -> K (tail ver a t ++ rest)) -> (array t = true -> repeated ver a t rest) ->
    K (head a' t :: tail ver a t ++ rest).
  Proof.
    intros ver a a' t rest T W C R I A. unfold Proof_Bintype.head. destruct (is_leaf Ctx t) eqn:L.
    - unfold Proof_Bintype.tail. rewrite L. apply K_leaf; assumption.
    - destruct (array t) eqn:AR.
      + destruct (a_count Ctx a') as [n|] eqn:N; [apply K_push; auto; intros _; rewrite N; discriminate|].
        intros stk sel s o B. apply halts_step. apply well_on; [apply I; reflexivity|exact B|]. intros r <-.
        assert (EX : forall n strm out, all_bytes (s_rest strm) ->
          well (expand_array Ctx n a' t (tail ver a t ++ rest) (mkState Ctx (BStart Ctx (a', t) :: tail ver a t ++ rest) stk sel s o) strm out)).
        { intros n strm out BS. rewrite expand_whole by exact L. cbn [well st_stack st_select].
          apply K_push; [exact T|exact W|exact C|intros _; discriminate|apply A; reflexivity|exact BS]. }
        unfold step. cbn [st_events bev_item st_stream st_stack st_out].
        destruct t; try discriminate AR; rewrite W, C, N.
        * apply EX. exact B.
        * pose proof (read_leaf_consumes Ctx (TPrim Ctx (PFmt counttype)) s) as G. pose proof (leaf_fuel (TPrim Ctx (PFmt counttype)) s B) as F.
          destruct (read_leaf Ctx (TPrim Ctx (PFmt counttype)) s) as [v s'|s' x|s' x|]; [|discriminate..|congruence].
          destruct v; try discriminate. apply EX. exact (all_bytes_consumes _ _ G B).
        * destruct stk as [|[i pv] below]; [discriminate|]. destruct (count c pv); [apply EX; exact B|discriminate].
      + apply K_push; auto. congruence.
  Qed.
  Lemma K_cond : forall ver a a' t rest, not_selb Ctx t = true -> a_when Ctx a' = None -> K rest ->
    (is_leaf Ctx t = false -> K (tail ver a t ++ rest)) -> (array t = true -> repeated ver a t rest) ->
    K (head a' t :: tail ver a t ++ rest).
  Proof.
    intros ver a a' t rest T W R I A. destruct (a_cond Ctx a') as [f|] eqn:C; [|apply K_plain; assumption].
    assert (TR : K (tail ver a t ++ rest)).
    { destruct (is_leaf Ctx t) eqn:L; [unfold Proof_Bintype.tail; rewrite L; exact R|apply I; reflexivity]. }
    assert (P : K (head (without_cond Ctx a') t :: tail ver a t ++ rest)) by (apply K_plain; try assumption; reflexivity).
    pose proof (skip_whole Ctx ver a' a t rest) as SK.
    intros stk sel s o B. apply halts_step. apply well_on; [exact TR|exact B|]. intros r <-.
    unfold step. cbn [st_events st_stream st_stack st_out st_select]. rewrite SK.
    unfold Proof_Bintype.head in *. destruct (is_leaf Ctx t) eqn:L; cbn [bev_item bev_with]; destruct t; try discriminate T; try discriminate L; rewrite W, C;
    (destruct stk as [|[i pv] below]; [discriminate|]; destruct (f c pv) as [[|]|x]; [apply P; exact B|apply R; exact B|discriminate]).
  Qed.
  Lemma K_any : forall ver a a' t rest, not_selb Ctx t = true -> K rest ->
    (is_leaf Ctx t = false -> K (tail ver a t ++ rest)) -> (array t = true -> repeated ver a t rest) ->
    K (head a' t :: tail ver a t ++ rest).
  Proof.
    intros ver a a' t rest T R I A. destruct (a_when Ctx a') as [f|] eqn:W; [|apply K_cond; assumption].
    assert (TR : K (tail ver a t ++ rest)).
    { destruct (is_leaf Ctx t) eqn:L; [unfold Proof_Bintype.tail; rewrite L; exact R|apply I; reflexivity]. }
    assert (P : K (head (without_when Ctx a') t :: tail ver a t ++ rest)) by (apply K_cond; try assumption; reflexivity).
    pose proof (skip_whole Ctx ver a' a t rest) as SK.
    intros stk sel s o B. apply halts_step. apply well_on; [exact TR|exact B|]. intros r <-.
    unfold step. cbn [st_events st_stream st_stack st_out st_select]. rewrite SK.
    unfold Proof_Bintype.head in *. destruct (is_leaf Ctx t) eqn:L; cbn [bev_item bev_with]; destruct t; try discriminate T; try discriminate L; rewrite W;
    (destruct sel as [|key ks]; [discriminate|]; destruct (f =? key); [apply P; exact B|apply R; exact B]).
  Qed.
  Lemma K_sel : forall a f l X, K X -> K (BStart Ctx (a, TSel Ctx f l) :: X).
  Proof.
    intros a f l X R stk sel s o B. apply halts_step. apply well_on; [exact R|exact B|]. intros r <-.
    unfold step. cbn [st_events bev_item st_stack]. destruct stk as [|[i pv] below]; [discriminate|]. destruct (f c pv); [apply R; exact B|discriminate].
  Qed.

  Lemma K_times : forall sub, (forall rest, K rest -> K (sub ++ rest)) -> forall n rest, K rest -> K (times n sub ++ rest).
  Proof.
    intros sub H n rest R. unfold times. induction (Z.to_nat n) as [|m IH]; [exact R|]. cbn [repeat concat]. rewrite <- app_assoc. apply H, IH.
  Qed.

  Lemma K_all : forall ver,
    (forall t a rest, K rest -> K (visible_events Ctx ver a t ++ rest)) /\
    (forall ms rest, K rest -> K (visible_members Ctx ver ms ++ rest)) /\
    (forall l a rest, K rest -> K (visible_alts Ctx ver a l ++ rest)).
  Proof.
    intros ver. apply ty_members_alts_ind.
    - intros p a rest R. rewrite head_tail. cbn [app]. apply K_any; try assumption; try reflexivity; discriminate.
    - intros b g a rest R. rewrite head_tail. cbn [app]. apply K_any; try assumption; try reflexivity; discriminate.
    - intros ms IH a rest R. rewrite head_tail. cbn [app]. apply K_any; try assumption; try reflexivity; [|discriminate].
      intros _. cbn [Proof_Bintype.tail is_leaf Proof_Bintype.inner]. rewrite <- app_assoc. apply IH. apply K_end, R.
    - intros t IH n a rest R. rewrite head_tail. cbn [app]. apply K_any; try assumption; try reflexivity.
      + intros _. cbn [Proof_Bintype.tail is_leaf Proof_Bintype.inner]. rewrite <- app_assoc. apply IH. apply K_end, R.
      + intros _ m. apply K_times; [apply IH|apply K_end, R].
    - intros f t IH a rest R. rewrite head_tail. cbn [app]. apply K_any; try assumption; try reflexivity.
      + intros _. cbn [Proof_Bintype.tail is_leaf Proof_Bintype.inner]. rewrite <- app_assoc. apply IH. apply K_end, R.
      + intros _ m. apply K_times; [apply IH|apply K_end, R].
    - intros f t IH a rest R. rewrite head_tail. cbn [app]. apply K_any; try assumption; try reflexivity.
      + intros _. cbn [Proof_Bintype.tail is_leaf Proof_Bintype.inner]. rewrite <- app_assoc. apply IH. apply K_end, R.
      + intros _ m. apply K_times; [apply IH|apply K_end, R].
    - intros f l IH a rest R. rewrite ve_sel. cbn [app]. apply K_sel. rewrite <- app_assoc. apply IH, K_end, R.
    - intros rest R. exact R.
    - intros name req cond t IHt ms IHm rest R. rewrite vm_cons, <- app_assoc. destruct (visible ver req); [apply IHt|]; apply IHm, R.
    - intros a rest R. exact R.
    - intros k t IHt l IHl a rest R. rewrite va_cons, <- app_assoc. apply IHt, IHl, R.
  Qed.
End Engine.

Lemma type_events_halt : forall Ctx (t : ty Ctx) c v s, all_bytes (s_rest s) ->
  exists n out strm o, o <> OutOfFuel /\ forall k, type_events Ctx (n + k) t c v s = (out, strm, o).
Proof.
  intros Ctx t c v s B. pose proof (proj1 (K_all Ctx c (Some v)) t (no_attrs Ctx) [] (K_nil Ctx c)) as H. rewrite app_nil_r in H.
  unfold type_events. rewrite get_typedef_visible. apply H. exact B.
Qed.

Lemma class_halts : forall c parent v s, all_bytes (s_rest s) ->
  exists n out strm r, forall k, class_events (n + k) c parent v s = (out, strm, Some r).
Proof.
  intros c parent v s B. destruct (type_events_halt node (class_type c) parent v s B) as (n & out & strm & o & N & H).
  exists n, out, strm. unfold class_events. destruct o as [|e|]; [eexists|exists (Raise e)|congruence]; intros k; rewrite H; reflexivity.
Qed.
Lemma extension_halts : forall cs parent v content evs s, all_bytes (s_rest s) ->
  exists n out strm r, forall k, extension_events (n + k) cs parent v content evs s = (out, strm, Some r).
Proof.
  induction cs as [|c cs IH]; intros parent v content evs s B; [exists O, evs, s, (Ok content); reflexivity|].
  destruct (class_halts c parent v s B) as (n & out & strm & r & H). destruct r as [d|e].
  - pose proof (class_onward _ _ _ _ _ _ _ _ (H O)) as C.
    destruct (IH parent v (dict_update content d) (evs ++ out) strm (all_bytes_consumes _ _ C B)) as (n2 & out2 & strm2 & r2 & H2).
    exists (n + n2)%nat, out2, strm2, r2. intros k. cbn [extension_events]. rewrite <- Nat.add_assoc, H.
    replace (n + (n2 + k))%nat with (n2 + (n + k))%nat by lia. apply H2.
  - exists n, (evs ++ out), strm, (Raise e). intros k. cbn [extension_events]. rewrite H. reflexivity.
Qed.
Lemma model_halts : forall v parent tagid payload, all_bytes payload ->
  exists n evs s r, forall k, model_events (n + k) v parent tagid payload = (evs, s, Some r).
Proof.
  intros v parent tagid payload B. destruct (class_halts (model_type tagid) parent v (open_bytes payload) B) as (n & out & strm & r & H). destruct r as [d|e].
  - destruct (extension_of (model_type tagid) parent d) as [[ext|]|e] eqn:E.
    + pose proof (class_onward _ _ _ _ _ _ _ _ (H O)) as C.
      destruct (extension_halts (get_extension_mro ext (model_type tagid)) parent v d out strm (all_bytes_consumes _ _ C (B : all_bytes (s_rest (open_bytes payload))))) as (n2 & out2 & strm2 & r2 & H2).
      exists (n + n2)%nat, out2, strm2. destruct r2 as [d2|e]; eexists; intros k; unfold model_events; rewrite <- Nat.add_assoc, H, E;
        replace (n + (n2 + k))%nat with (n2 + (n + k))%nat by lia; rewrite H2; reflexivity.
    + exists n, out, strm. eexists. intros k. unfold model_events. rewrite H, E. reflexivity.
    + exists n, out, strm. eexists. intros k. unfold model_events. rewrite H, E. reflexivity.
  - exists n, out, strm, (Raise e). intros k. unfold model_events. rewrite H. reflexivity.
Qed.
Lemma loop_halts : forall v o records base stack, o <> OutOfFuel -> Forall (fun r => all_bytes (r_payload r)) records ->
  exists n l o', o' <> OutOfFuel /\ forall k, events_loop (n + k) v base stack records o = (l, o').
Proof.
  intros v o records. induction records as [|r rest IH]; intros base stack N B; [exists O, [], o; split; [exact N|reflexivity]|].
  inversion B; subst. cbn [events_loop].
  destruct (pop_to _ stack) as [popped [stack'|e]]; [|exists O, [], (Failed e); split; [discriminate|reflexivity]].
  destruct (check_level _ stack') as [e|]; [exists O, [], (Failed e); split; [discriminate|reflexivity]|].
  destruct stack' as [|parent above]; [exists O, [], (Failed IndexError); split; [discriminate|reflexivity]|].
  destruct (model_halts v parent (r_tagid r) (r_payload r) H1) as (n & evs & s & rr & H). destruct rr as [m|e].
  - destruct (IH (Some (match base with None => r_level r | Some b0 => b0 end)) (model_node m :: on_child parent m :: above) N H2) as (n2 & l & o' & N' & L).
    exists (n + n2)%nat. eexists _, o'. split; [exact N'|]. intros k. rewrite <- Nat.add_assoc, H.
    replace (n + (n2 + k))%nat with (n2 + (n + k))%nat by lia. rewrite L. reflexivity.
  - exists n. eexists _, (Failed e). split; [discriminate|]. intros k. rewrite H. reflexivity.
Qed.
Lemma chain_halts : forall v o gs, o <> OutOfFuel -> Forall (Forall (fun r => all_bytes (r_payload r))) gs ->
  exists n l o', o' <> OutOfFuel /\ forall k, chain_events (n + k) v gs o = (l, o').
Proof.
  intros v o gs N. induction gs as [|g gs IH]; intros B; [exists O, [], o; split; [exact N|reflexivity]|]. inversion B; subst.
  destruct (loop_halts v Finished g None [root_node] ltac:(discriminate) H1) as (n & l & o1 & N1 & H). destruct (IH H2) as (n2 & l2 & o2 & N2 & L).
  exists (n + n2)%nat. destruct o1 as [|e|]; [|exists l, (Failed e)|congruence].
  - exists (l ++ l2), o2. split; [exact N2|]. intros k. cbn [chain_events]. rewrite <- Nat.add_assoc, H. replace (n + (n2 + k))%nat with (n2 + (n + k))%nat by lia. rewrite L. reflexivity.
  - split; [discriminate|]. intros k. cbn [chain_events]. rewrite <- Nat.add_assoc, H. reflexivity.
Qed.
Lemma groups_outcome : forall (rs : list record) o, o <> OutOfFuel -> snd (group_by_toplevel r_level (rs, o)) = o.
Proof.
  intros rs o N. assert (G : exists gs, is_grouping r_level rs gs).
  { destruct rs as [|r t]; [exists []; repeat split; constructor|]. destruct (group_loop_spec _ r_level (S (List.length t)) r t ltac:(lia)) as (gs & _ & G & _). exists gs. exact G. }
  destruct G as [gs G]. destruct o as [|e|]; [| |congruence].
  - rewrite (proj2 (grouping_correct _ r_level rs gs) G). reflexivity.
  - rewrite (grouping_failed _ r_level rs e gs G). reflexivity.
Qed.
Theorem events_end : forall version rs o, o <> OutOfFuel -> Forall (fun r => all_bytes (r_payload r)) rs ->
  exists n l o', o' <> OutOfFuel /\ forall k, stream_events (n + k) version (rs, o) = (l, o').
Proof.
  intros v rs o N B. unfold stream_events. rewrite (groups_outcome rs o N). apply chain_halts; [exact N|]. apply groups_bytes; assumption.
Qed.
