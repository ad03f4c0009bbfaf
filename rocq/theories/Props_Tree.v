(** Property theorems about level sequences, events and trees: C07-C11. *)
From Coq Require Import ZArith List Bool Lia.
From Verif Require Import Base Model_Tree Spec_Tree Proof_Tree.
Import ListNotations.
Open Scope Z_scope.

(** C07.  The conversion of (level, item) pairs succeeds with a well-nested walk
    exactly when no level is below the first and none is more than one above
    its predecessor. *)
Theorem C07_accepts_exactly_legal_levels : forall A (root : A) items,
  (exists f, prefix_event root items = (walk f, Finished)) <-> legal (map fst items).
Proof. exact prefix_event_iff. Qed.
Print Assumptions C07_accepts_exactly_legal_levels.

(** The walk is that of the forest whose pre-order has the given levels, and
    there is only one such forest. *)
Theorem C07_events_are_the_walk : forall A (root : A) f b,
  prefix_event root (preorder b f) = (walk f, Finished).
Proof. intros A root f b. exact (prefix_event_forest A f b root). Qed.
Print Assumptions C07_events_are_the_walk.

Theorem C07_legal_levels_are_a_forest : forall A (items : list (Z * A)), legal (map fst items) ->
  exists f, items = preorder (match items with [] => 0 | (b, _) :: _ => b end) f.
Proof. exact legal_exists. Qed.
Print Assumptions C07_legal_levels_are_a_forest.

Theorem C07_forest_unique : forall A (f g : forest A) d, preorder d f = preorder d g -> f = g.
Proof. exact preorder_inj. Qed.
Print Assumptions C07_forest_unique.

Theorem C07_order_unchanged : forall A (f : forest A) d, starts (walk f) = map snd (preorder d f).
Proof. exact starts_preorder. Qed.
Print Assumptions C07_order_unchanged.

(** Every sequence falls into one of four cases, by its first illegal item. *)
Theorem C07_all_sequences : forall A (root : A) items,
  (legal (map fst items) /\
   exists f b, items = preorder b f /\ prefix_event root items = (walk f, Finished)) \/
  (exists pre l x rest f b, items = pre ++ (l, x) :: rest /\ pre <> [] /\ legal (map fst pre) /\ pre = preorder b f /\
    ( (l > last (map fst pre) b + 1 /\
       exists evs closing, prefix_event root items = (evs, Failed InvalidLevel) /\
                           evs ++ closing = walk f /\ Forall is_end closing) \/
      (l = b - 1 /\ exists more o, prefix_event root items = (walk f ++ [EEnd root; EStart x] ++ more, o)) \/
      (l < b - 1 /\ prefix_event root items = (walk f ++ [EEnd root], Failed IndexError)))).
Proof. exact prefix_event_cases. Qed.
Print Assumptions C07_all_sequences.

Example C07_case :
  legal (map fst [(2, 10); (3, 11); (4, 12); (3, 13); (2, 14)]) /\
  prefix_event 0 [(2, 10); (3, 11); (4, 12); (3, 13); (2, 14)] =
  ([EStart 10; EStart 11; EStart 12; EEnd 12; EEnd 11; EStart 13; EEnd 13; EEnd 10; EStart 14; EEnd 14], Finished) /\
  prefix_event 0 [(0, 10); (2, 11)] = ([EStart 10], Failed InvalidLevel).
Proof. cbn. repeat split; lia. Qed.

(** C08.  A level one below the first closes the synthetic root. *)
Theorem C08_below_first_closes_root : forall A (f : forest A) (root : A) b x rest, f <> FNil ->
  exists more o,
    prefix_event root (preorder b f ++ (b - 1, x) :: rest) = (walk f ++ [EEnd root; EStart x] ++ more, o) /\
    ~ well_nested (walk f ++ [EEnd root; EStart x] ++ more).
Proof. exact below_first. Qed.
Print Assumptions C08_below_first_closes_root.

Theorem C08_two_below_raises : forall A (f : forest A) (root : A) b l x rest, f <> FNil -> l < b - 1 ->
  prefix_event root (preorder b f ++ (l, x) :: rest) = (walk f ++ [EEnd root], Failed IndexError).
Proof. exact two_below_first. Qed.
Print Assumptions C08_two_below_raises.

(** With the first level 0 (and record levels are never negative) neither
    happens. *)
Theorem C08_first_level_zero_is_safe : forall A (root : A) items,
  (match items with [] => True | (b, _) :: _ => b = 0 end) -> Forall (fun p => 0 <= fst p) items ->
  (exists f, items = preorder 0 f /\ prefix_event root items = (walk f, Finished)) \/
  (exists evs, prefix_event root items = (evs, Failed InvalidLevel)).
Proof. exact from_zero_level. Qed.
Print Assumptions C08_first_level_zero_is_safe.

Example C08_case :
  prefix_event 0 [(1, 10); (2, 11); (0, 12); (1, 13)] =
    ([EStart 10; EStart 11; EEnd 11; EEnd 10; EEnd 0; EStart 12; EStart 13; EEnd 13], Finished) /\
  prefix_event 0 [(2, 10); (0, 12)] = ([EStart 10; EEnd 10; EEnd 0], Failed IndexError).
Proof. split; reflexivity. Qed.

(** C09.  Trees and events. *)
Theorem C09_build_returns_the_tree : forall A (childs : forest A) x rest,
  build_subtree (walk childs ++ EEnd x :: rest) = Some (Some (x, childs), rest).
Proof. exact build_subtree_walk. Qed.
Print Assumptions C09_build_returns_the_tree.

Theorem C09_build_unclosed : forall A (f : forest A), build_subtree (walk f) = Some (None, []).
Proof. exact build_subtree_exhausted. Qed.
Print Assumptions C09_build_unclosed.

Theorem C09_build_then_walk : forall A (x : A) childs rest x' childs' rest',
  build_subtree (walk childs ++ EEnd x :: rest) = Some (Some (x', childs'), rest') ->
  tree_events x' childs' ++ rest' = EStart x :: walk childs ++ EEnd x :: rest.
Proof. exact build_then_events. Qed.
Print Assumptions C09_build_then_walk.

Theorem C09_events_are_the_walk : forall A (f : forest A), tree_events_multi f = walk f.
Proof. exact tree_events_multi_walk. Qed.
Print Assumptions C09_events_are_the_walk.

Theorem C09_walk_determines_tree : forall A (f g : forest A), walk f = walk g -> f = g.
Proof. exact walk_inj. Qed.
Print Assumptions C09_walk_determines_tree.

Theorem C09_concatenation : forall A (f g : forest A),
  tree_events_multi (fapp f g) = tree_events_multi f ++ tree_events_multi g.
Proof. intros A f g. rewrite !tree_events_multi_walk. exact (walk_fapp A f g). Qed.
Print Assumptions C09_concatenation.

Example C09_case :
  build_subtree [EStart 1; EStart 2; EEnd 2; EEnd 1; EStart 3; EEnd 3; EEnd 0; EStart 9] =
  Some (Some (0, FCons 1 (FCons 2 FNil FNil) (FCons 3 FNil FNil)), [EStart 9]).
Proof. reflexivity. Qed.

(** C10.  The ancestors of the i-th item are the root and, for every level
    between the first and its own, the nearest preceding item of that level. *)
Theorem C10_ancestors_are_nearest_preceding : forall A (root : A) items base, legal (map fst items) ->
  (match items with [] => True | (b, _) :: _ => b = base end) ->
  snd (prefix_ancestors_from_level root items) = Finished /\
  List.length (fst (prefix_ancestors_from_level root items)) = List.length items /\
  forall i l x, nth_error items i = Some (l, x) ->
    (forall k, base <= k < l -> last_at k (firstn i items) <> None) /\
    nth_error (fst (prefix_ancestors_from_level root items)) i =
    Some (root :: map (fun k => match last_at (base + Z.of_nat k) (firstn i items) with Some y => y | None => root end)
                      (seq 0 (Z.to_nat (l - base))), x).
Proof. exact ancestors_correct. Qed.
Print Assumptions C10_ancestors_are_nearest_preceding.

Theorem C10_ancestors_are_the_path : forall A (root : A) f b,
  prefix_ancestors_from_level root (preorder b f) = (paths [root] f, Finished) /\
  prefix_ancestors root (walk f) = (paths [root] f, Finished).
Proof. exact (fun A root f b => conj (ancestors_from_level_paths A root f b) (prefix_ancestors_paths A root f)). Qed.
Print Assumptions C10_ancestors_are_the_path.

Example C10_case :
  prefix_ancestors_from_level 0 [(2, 10); (3, 11); (4, 12); (3, 13); (2, 14)] =
  ([([0], 10); ([0; 10], 11); ([0; 10; 11], 12); ([0; 10], 13); ([0], 14)], Finished).
Proof. reflexivity. Qed.

(** C11.  Iterating the sub-events stops right after the matching end. *)
Theorem C11_subevents_stop_at_matching_end : forall A (f : forest A) x rest,
  iter_subevents (walk f ++ EEnd x :: rest) = (walk f ++ [EEnd x], rest).
Proof. exact iter_subevents_matching. Qed.
Print Assumptions C11_subevents_stop_at_matching_end.

Theorem C11_subevents_unclosed : forall A (f : forest A), iter_subevents (walk f) = (walk f, []).
Proof. exact iter_subevents_unclosed. Qed.
Print Assumptions C11_subevents_unclosed.

Example C11_case :
  iter_subevents [EStart 1; EStart 2; EEnd 2; EEnd 1; EEnd 0; EStart 9] =
  ([EStart 1; EStart 2; EEnd 2; EEnd 1; EEnd 0], [EStart 9]).
Proof. reflexivity. Qed.
