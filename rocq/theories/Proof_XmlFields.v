(** Fields are closed at the end of each line and opened again in the next. *)
From Coq Require Import ZArith String List Bool Lia.
From Verif Require Import Base BaseFacts Model_Tree Spec_Tree Proof_Tree Model_ParaText Model_Shape Model_Lang Model_Classes Model_XmlModel Spec_XmlModel Proof_XmlModel.
Import ListNotations.
Open Scope string_scope.
Open Scope list_scope.
Open Scope Z_scope.

Fixpoint open_walk (cur : forest item) (fr : list (item * forest item)) : list (event item) :=
  match fr with [] => walk cur | (x, outer) :: fr' => open_walk outer fr' ++ EStart x :: walk cur end.
Definition zwalk (z : line_state) : list (event item) := open_walk (fst z) (snd z).

Lemma walk_leaf_after : forall f x k, walk (leaf_after f x k) = walk f ++ EStart x :: walk k ++ [EEnd x].
Proof. intros. unfold leaf_after. rewrite walk_fapp. reflexivity. Qed.
Lemma zwalk_put : forall x k z, zwalk (put x k z) = zwalk z ++ EStart x :: walk k ++ [EEnd x].
Proof.
  intros x k [cur fr]. unfold zwalk, put. cbn [fst snd]. destruct fr as [|[y outer] fr]; cbn [open_walk]; rewrite walk_leaf_after; [reflexivity|]. rewrite <- app_assoc. reflexivity.
Qed.
Lemma zwalk_open : forall x k z, zwalk (open_field x k z) = zwalk z ++ EStart x :: walk k.
Proof. reflexivity. Qed.
Lemma zwalk_close : forall z x outer fr, snd z = (x, outer) :: fr -> zwalk (close_field z) = zwalk z ++ [EEnd x] /\ open_fields (close_field z) = map fst fr.
Proof.
  intros [cur fr0] x outer fr H. cbn [snd] in H. subst fr0. unfold close_field, zwalk, open_fields. cbn [fst snd]. split; [|reflexivity].
  destruct fr as [|[y o2] fr]; cbn [open_walk]; rewrite walk_leaf_after, <- ?app_assoc; cbn [app]; rewrite <- ?app_assoc; reflexivity.
Qed.
Lemma zwalk_reopen : forall st, zwalk (reopen st) = map EStart (rev st) /\ open_fields (reopen st) = st.
Proof.
  intros st. unfold zwalk, reopen, open_fields. cbn [fst snd]. split.
  - induction st as [|x st IH]; [reflexivity|]. cbn [map open_walk rev]. rewrite map_app, <- IH. reflexivity.
  - rewrite map_map. cbn. apply map_id.
Qed.
Lemma walk_finish : forall fr cur, walk (finish_line cur fr) = open_walk cur fr ++ map EEnd (map fst fr).
Proof.
  induction fr as [|[x outer] fr IH]; intros cur; cbn [finish_line open_walk map fst].
  - now rewrite app_nil_r.
  - rewrite IH. pose proof (zwalk_close (cur, (x, outer) :: fr) x outer fr eq_refl) as [H _]. unfold zwalk, close_field in H. cbn [fst snd] in H. rewrite H.
    cbn [open_walk]. rewrite <- !app_assoc. cbn [app]. rewrite <- ?app_assoc. reflexivity.
Qed.

(** ** Steps *)
Lemma field_not_lineseg : forall x, is_field x = true -> is_lineseg x = false.
Proof. intros x H. unfold is_field, is_lineseg, model_is, model_sub in *. destruct (String.eqb (i_model x) "LineSeg") eqn:E; [|reflexivity]. apply String.eqb_eq in E. rewrite E in H. discriminate. Qed.
Lemma field_not_char : forall x, is_field x = true -> is_char x = false.
Proof. intros x H. unfold is_field, is_char, model_is, model_sub in *. destruct (String.eqb (i_model x) "ControlChar") eqn:E; [|reflexivity]. apply String.eqb_eq in E. rewrite E in H. discriminate. Qed.
Lemma char_not_lineseg : forall x, is_char x = true -> is_lineseg x = false.
Proof. intros x H. unfold is_char, is_lineseg, model_is in *. apply String.eqb_eq in H. now rewrite H. Qed.

Section Steps.
  Variables (st : list item) (rest : list (event item)) (o : outcome).

  Lemma is_field_end_of : forall x, named x -> is_char x = true -> is_field_end x = Ok (field_end_char x).
  Proof.
    intros x HN HC. destruct (HN HC) as [a HA]. unfold is_field_end, field_end_char, FIELD_END. rewrite HC, HA. cbn [andb]. destruct a; reflexivity.
  Qed.

  Lemma other_start : forall x, named x -> is_field x = false -> field_end_char x = false -> is_lineseg x = false ->
    field_loop st (EStart x :: rest) o = gcons (EStart x) (field_loop st rest o).
  Proof.
    intros x HN HF HE HL. cbn [field_loop]. unfold is_field in HF. unfold is_lineseg in HL. rewrite HF, HL. destruct (model_is "ControlChar" x) eqn:EC; [|reflexivity].
    rewrite (is_field_end_of x HN EC), HE. reflexivity.
  Qed.
  Lemma other_end : forall x, named x -> is_field x = false -> field_end_char x = false -> is_lineseg x = false ->
    field_loop st (EEnd x :: rest) o = gcons (EEnd x) (field_loop st rest o).
  Proof.
    intros x HN HF HE HL. cbn [field_loop]. unfold is_field in HF. unfold is_lineseg in HL. rewrite HF, HL. destruct (model_is "ControlChar" x) eqn:EC; [|reflexivity].
    rewrite (is_field_end_of x HN EC), HE. reflexivity.
  Qed.
  Lemma line_start : forall x, is_field x = false -> is_lineseg x = true ->
    field_loop st (EStart x :: rest) o = gapp (EStart x :: map EStart (rev st)) (field_loop st rest o).
  Proof. intros x HF HL. cbn [field_loop]. unfold is_field in HF. unfold is_lineseg in HL. rewrite HF, HL. reflexivity. Qed.
  Lemma line_end : forall x, is_field x = false -> is_lineseg x = true ->
    field_loop st (EEnd x :: rest) o = gapp (map EEnd st ++ [EEnd x]) (field_loop st rest o).
  Proof. intros x HF HL. cbn [field_loop]. unfold is_field in HF. unfold is_lineseg in HL. rewrite HF, HL. reflexivity. Qed.
  Lemma field_start : forall x, is_field x = true -> field_loop st (EStart x :: rest) o = gcons (EStart x) (field_loop (x :: st) rest o).
  Proof. intros x HF. cbn [field_loop]. unfold is_field in HF. rewrite HF. reflexivity. Qed.
  Lemma field_end : forall x, is_field x = true -> field_loop st (EEnd x :: rest) o = field_loop st rest o.
  Proof. intros x HF. cbn [field_loop]. unfold is_field in HF. rewrite HF. reflexivity. Qed.
  Lemma field_end_events : forall x, named x -> field_end_char x = true ->
    field_loop st (EStart x :: EEnd x :: rest) o = match st with f :: st' => gcons (EEnd f) (field_loop st' rest o) | [] => field_loop st rest o end.
  Proof.
    intros x HN HE. assert (HC : is_char x = true) by (unfold field_end_char in HE; now apply andb_true_iff in HE).
    pose proof (char_not_lineseg x HC) as HL. assert (HF : is_field x = false) by (destruct (is_field x) eqn:E; [apply field_not_char in E; congruence|reflexivity]).
    pose proof (is_field_end_of x HN HC) as HFE. rewrite HE in HFE. cbn [field_loop]. unfold is_field in HF. unfold is_lineseg in HL. unfold is_char in HC. rewrite HF, HL, HC, HFE. destruct st; reflexivity.
  Qed.
End Steps.

Lemma gapp_app : forall A (a b : list A) g, gapp (a ++ b) g = gapp a (gapp b g).
Proof. intros. now rewrite gapp_gapp. Qed.
Lemma gcons_is : forall A (x : A) g, gcons x g = gapp [x] g.
Proof. reflexivity. Qed.

(** The result of a line: the state at its end. *)
Definition line_result (z : line_state) (f : forest item) (p : forest item * list item) : Prop :=
  exists z', p = (finish_line (fst z') (snd z'), open_fields z') /\
  forall rest o, gapp (zwalk z) (field_loop (open_fields z) (walk f ++ rest) o) = gapp (zwalk z') (field_loop (open_fields z') rest o).

Lemma fields_walk : forall f st z, fields_ok st z f ->
  match z with
  | None => forall rest o, field_loop st (walk f ++ rest) o = gapp (walk (fst (regroup st None f))) (field_loop (snd (regroup st None f)) rest o)
  | Some z => line_result z f (regroup st (Some z) f)
  end.
Proof.
  induction f as [|x k IHk n IHn]; intros st z HO.
  - destruct z as [z|]; cbn [regroup fst snd].
    + exists z. split; [reflexivity|]. intros. reflexivity.
    + intros rest o. cbn [walk app]. now rewrite gapp_nil.
  - cbn [fields_ok] in HO. destruct HO as [HN HO].
    (* the events of the children *)
    assert (KIDS : forall cur, is_field x = false -> field_end_char x = false ->
      fields_ok cur (if is_lineseg x then Some (reopen cur) else None) k -> forall rest o,
      let p := regroup cur (if is_lineseg x then Some (reopen cur) else None) k in
      field_loop cur (EStart x :: walk k ++ EEnd x :: rest) o = gapp (EStart x :: walk (fst p) ++ [EEnd x]) (field_loop (snd p) rest o)).
    { intros cur HF HE HK rest o p. subst p. specialize (IHk _ _ HK). destruct (is_lineseg x) eqn:EL.
      - rewrite (line_start cur _ o x HF EL). destruct IHk as (z' & -> & HZ). cbn [fst snd]. destruct (zwalk_reopen cur) as [R1 R2]. rewrite R1, R2 in HZ.
        change (EStart x :: map EStart (rev cur)) with ([EStart x] ++ map EStart (rev cur)). rewrite gapp_app, HZ. rewrite (line_end _ rest o x HF EL).
        rewrite walk_finish. unfold zwalk, open_fields. rewrite !gapp_gapp. f_equal. cbn [app]. rewrite <- !app_assoc. reflexivity.
      - rewrite (other_start cur _ o x HN HF HE EL). rewrite IHk. rewrite (other_end _ rest o x HN HF HE EL). rewrite !gcons_is, !gapp_gapp. f_equal. }
    destruct z as [z|].
    + destruct (is_field x) eqn:EF.
      * destruct HO as [[HK HNE] HO]. rewrite (field_not_lineseg x EF) in *. cbn [regroup]. rewrite EF, (field_not_lineseg x EF).
        specialize (IHn _ _ HO). specialize (IHk _ _ HK). cbn beta iota in IHk.
        destruct IHn as (z' & E & HZ). exists z'. split; [exact E|]. intros rest o. rewrite walk_app_cons, (field_start _ _ o x EF), IHk, HNE, (field_end _ _ o x EF).
        rewrite <- HZ. rewrite zwalk_open. rewrite gcons_is, !gapp_gapp. f_equal. rewrite <- app_assoc. reflexivity.
      * destruct (field_end_char x) eqn:EE.
        -- destruct HO as [-> HO]. cbn [regroup]. rewrite EF, EE. specialize (IHn _ _ HO). destruct IHn as (z' & E & HZ). exists z'. split; [exact E|]. intros rest o.
           rewrite walk_app_cons. cbn [walk app]. rewrite (field_end_events _ _ o x HN EE). rewrite <- HZ.
           destruct (snd z) as [|[y outer] fr] eqn:EZ.
           ++ assert (HZZ : close_field z = z) by (unfold close_field; now rewrite EZ). rewrite HZZ. unfold open_fields. rewrite EZ. reflexivity.
           ++ destruct (zwalk_close z y outer fr EZ) as [Z1 Z2]. rewrite Z1, Z2. unfold open_fields. rewrite EZ. cbn [map fst]. rewrite gcons_is, gapp_gapp. reflexivity.
        -- destruct HO as [[HK HNE] HO]. cbn [regroup]. rewrite EF, EE. specialize (IHn _ _ HO). destruct IHn as (z' & E & HZ). exists z'. split; [exact E|]. intros rest o.
           rewrite walk_app_cons, (KIDS (open_fields z) eq_refl eq_refl HK). rewrite HNE. rewrite <- HZ. rewrite zwalk_put.
           change (open_fields (put x _ z)) with (open_fields z). rewrite !gapp_gapp. reflexivity.
    + destruct HO as (HF & HE & HK & HNX). intros rest o. rewrite walk_app_cons, (KIDS st HF HE HK). cbn [regroup].
      specialize (IHn _ _ HNX). cbn beta iota in IHn. rewrite IHn. cbn [fst snd walk]. rewrite gapp_gapp. f_equal. cbn [app]. rewrite <- app_assoc. reflexivity.
Qed.

Theorem fields_pass : forall f, fields_ok [] None f ->
  match_field_start_end (walk f, Finished) = (walk (fst (regroup [] None f)), Finished).
Proof.
  intros f H. unfold match_field_start_end. cbn [fst snd]. rewrite <- (app_nil_r (walk f)). rewrite (fields_walk f [] None H). cbn [field_loop]. apply gapp_end.
Qed.

Lemma nfe_field : forall x, is_field x = true -> not_field_event (EStart x) = false /\ not_field_event (EEnd x) = false.
Proof. intros x H. unfold not_field_event. cbn [item_of]. rewrite H. now split. Qed.
Lemma nfe_field_end : forall x, field_end_char x = true -> not_field_event (EStart x) = false /\ not_field_event (EEnd x) = false.
Proof. intros x H. unfold not_field_event. cbn [item_of]. rewrite H, andb_false_r. now split. Qed.

(** Whatever the events, nothing but fields and field ends changes. *)
Theorem fields_keep_others : forall evs st o, Forall (fun e => named (item_of e)) evs -> Forall (fun x => is_field x = true) st ->
  filter not_field_event (fst (field_loop st evs o)) = filter not_field_event evs /\ snd (field_loop st evs o) = o.
Proof.
  assert (FS : forall st, Forall (fun x => is_field x = true) st -> filter not_field_event (map EStart st) = [] /\ filter not_field_event (map (@EEnd item) st) = []).
  { intros st H. induction H as [|x st HX _ IH]; [now split|]. cbn [map filter]. destruct (nfe_field x HX) as [-> ->]. exact IH. }
  induction evs as [|e evs IH]; intros st o HN HS; [split; reflexivity|]. inversion HN as [|? ? HN1 HN2]; subst.
  assert (HS' : Forall (fun x => is_field x = true) (rev st)) by (apply Forall_rev; exact HS).
  assert (GA : forall (a : list (event item)) g, filter not_field_event (fst (gapp a g)) = filter not_field_event a ++ filter not_field_event (fst g) /\ snd (gapp a g) = snd g).
  { intros a [l p]. unfold gapp. cbn. now rewrite filter_app. }
  destruct e as [x|x]; cbn [item_of] in HN1.
  - destruct (is_field x) eqn:EF.
    + rewrite (field_start _ _ _ x EF), gcons_is. destruct (GA [EStart x] (field_loop (x :: st) evs o)) as [-> ->]. cbn [filter]. destruct (nfe_field x EF) as [-> _]. cbn [app]. apply IH; [exact HN2|]. now constructor.
    + destruct (is_lineseg x) eqn:EL.
      * rewrite (line_start _ _ _ x EF EL). destruct (GA (EStart x :: map EStart (rev st)) (field_loop st evs o)) as [-> ->]. destruct (IH st o HN2 HS) as [-> ->]. cbn [filter]. destruct (FS (rev st) HS') as [-> _].
        destruct (not_field_event (EStart x)); now split.
      * destruct (field_end_char x) eqn:EE.
        -- assert (HC : is_char x = true) by (unfold field_end_char in EE; now apply andb_true_iff in EE). pose proof (is_field_end_of x HN1 HC) as HFE. rewrite EE in HFE.
           cbn [field_loop]. unfold is_field in EF. unfold is_lineseg in EL. unfold is_char in HC. rewrite EF, EL, HC, HFE. cbn [filter]. destruct (nfe_field_end x EE) as [-> _]. apply IH; assumption.
        -- rewrite (other_start _ _ _ x HN1 EF EE EL), gcons_is. destruct (GA [EStart x] (field_loop st evs o)) as [-> ->]. destruct (IH st o HN2 HS) as [-> ->]. cbn [filter]. destruct (not_field_event (EStart x)); now split.
  - destruct (is_field x) eqn:EF.
    + rewrite (field_end _ _ _ x EF). cbn [filter]. destruct (nfe_field x EF) as [_ ->]. apply IH; assumption.
    + destruct (is_lineseg x) eqn:EL.
      * rewrite (line_end _ _ _ x EF EL). destruct (GA (map EEnd st ++ [EEnd x]) (field_loop st evs o)) as [-> ->]. destruct (IH st o HN2 HS) as [-> ->]. rewrite filter_app. destruct (FS st HS) as (_ & ->).
        cbn [app filter]. destruct (not_field_event (EEnd x)); now split.
      * destruct (field_end_char x) eqn:EE.
        -- assert (HC : is_char x = true) by (unfold field_end_char in EE; now apply andb_true_iff in EE). pose proof (is_field_end_of x HN1 HC) as HFE. rewrite EE in HFE.
           cbn [field_loop]. assert (EF' := EF). unfold is_field in EF'. unfold is_lineseg in EL. unfold is_char in HC. rewrite EF', EL, HC, HFE. cbn [filter]. destruct (nfe_field_end x EE) as [_ ->].
           destruct st as [|f st]; [apply IH; assumption|]. inversion HS as [|? ? HF1 HF2]; subst. rewrite gcons_is. destruct (GA [EEnd f] (field_loop st evs o)) as [-> ->]. cbn [filter]. destruct (nfe_field f HF1) as [_ ->]. cbn [app]. now apply IH.
        -- rewrite (other_end _ _ _ x HN1 EF EE EL), gcons_is. destruct (GA [EEnd x] (field_loop st evs o)) as [-> ->]. destruct (IH st o HN2 HS) as [-> ->]. cbn [filter]. destruct (not_field_event (EEnd x)); now split.
Qed.
