(** Proofs about the events of record models. *)
From Coq Require Import ZArith String List Bool Lia.
From Verif Require Import Base BaseFacts Model_Text Model_Dataio Model_Record Model_Tree Model_Bintype Model_Classes Model_Layouts Model_Models Model_Events.
From Verif Require Import Spec_Bintype Spec_Models Proof_Bintype Proof_Bintype2 Proof_Models Spec_Record Proof_Record Proof_Proc Spec_Events.
Import ListNotations.
Open Scope list_scope.
Open Scope Z_scope.

Section Engine.
  Variable Ctx : Type.
  Notation step := (step Ctx).
  Notation run := (run Ctx).
  Notation run_on := (run_on Ctx).

  Lemma read_leaf_consumes : forall t s, match read_leaf Ctx t s with
    | LeafOk _ s' | LeafError s' _ | LeafRaise s' _ => consumes s s' | LeafFuel => True end.
  Proof.
    intros t s. destruct t; cbn [read_leaf]; try apply consumes_refl.
    - destruct (prim_value p s) as [r s'] eqn:E. apply prim_value_consumes in E. destruct r as [[v|e]|]; exact E || exact I.
    - destruct (prim_value (PFmt base) s) as [r s'] eqn:E. apply prim_value_consumes in E. destruct r as [[v|e]|]; [destruct v| |]; exact E || exact I.
  Qed.

  Definition onward (out out' : list (oev Ctx)) (s s' : stream) : Prop := (exists l, out' = out ++ l) /\ consumes s s'.
  Lemma onward_same : forall out s, onward out out s s.
  Proof. intros out s. split; [exists []; rewrite app_nil_r; reflexivity|apply consumes_refl]. Qed.
  Lemma onward_trans : forall a b c s t u, onward a b s t -> onward b c t u -> onward a c s u.
  Proof. intros a b c s t u [[l ->] H] [[l' ->] H']. split; [exists (l ++ l'); rewrite app_assoc; reflexivity|eapply consumes_trans; eassumption]. Qed.

  Definition goes_onward (s : state Ctx) (r : step_res Ctx) : Prop :=
    match r with
    | Next _ s' => onward (st_out Ctx s) (st_out Ctx s') (st_stream Ctx s) (st_stream Ctx s')
    | Stop _ out strm _ => onward (st_out Ctx s) out (st_stream Ctx s) strm
    end.
  Lemma step_onward : forall c s, goes_onward s (step c s).
  Proof.
    intros c s. unfold Model_Bintype.step, stop, expand_array.
    repeat match goal with
    | |- goes_onward _ (match ?x with _ => _ end) =>
        match x with
        | read_leaf _ ?t ?u => pose proof (read_leaf_consumes t u); destruct x
        | _ => destruct x
        end
    end; unfold goes_onward; cbn [st_out st_stream]; try apply onward_same; split; try (eexists; reflexivity); try assumption; try apply consumes_refl.
    all: exists []; rewrite app_nil_r; reflexivity.
  Qed.

  Lemma step_on_onward : forall c s, goes_onward s (step_on Ctx c s).
  Proof.
    intros c s. pose proof (step_onward c s) as H. unfold step_on. destruct (step c s) as [s'|out strm o]; [exact H|].
    destruct o as [|e|]; try exact H. destruct e; try exact H. destruct (st_events Ctx s) as [|ev rest]; [exact H|].
    destruct (snd (bev_item Ctx ev)); exact H.
  Qed.

  Lemma run_on_onward : forall n c s out strm o, run_on n c s = (out, strm, o) -> onward (st_out Ctx s) out (st_stream Ctx s) strm.
  Proof.
    induction n as [|n IH]; intros c s out strm o H; cbn [Model_Events.run_on] in H.
    - inversion H; subst. apply onward_same.
    - pose proof (step_on_onward c s) as S. destruct (step_on Ctx c s) as [s'|out' strm' o'].
      + eapply onward_trans; [exact S|eapply IH; exact H].
      + inversion H; subst. exact S.
  Qed.

  (** As long as nothing fails, the events go the way of the models. *)
  Lemma run_on_finished : forall n c s out strm, run n c s = (out, strm, Finished) -> run_on n c s = (out, strm, Finished).
  Proof.
    induction n as [|n IH]; intros c s out strm H; cbn [Model_Bintype.run Model_Events.run_on] in *; [discriminate|].
    unfold step_on. destruct (step c s) as [s'|out' strm' o'] eqn:E.
    - apply IH. exact H.
    - inversion H; subst. reflexivity.
  Qed.
  (** Where the models fail, the events have come as far. *)
  Lemma run_on_failed : forall n c s out strm e, run n c s = (out, strm, Failed e) ->
    exists more strm' o, run_on n c s = (out ++ more, strm', o) /\ consumes strm strm' /\
      ((forall x p, e <> ParseError x p) -> more = [] /\ strm' = strm /\ o = Failed e).
  Proof.
    induction n as [|n IH]; intros c s out strm e H; cbn [Model_Bintype.run Model_Events.run_on] in *; [discriminate|].
    unfold step_on. destruct (step c s) as [s'|out' strm' o'] eqn:E.
    - apply IH. exact H.
    - inversion H; subst. clear H.
      assert (D : (exists x p, e = ParseError x p) \/ (forall x p, e <> ParseError x p)) by (destruct e; eauto; right; intros; discriminate).
      destruct D as [[x [p ->]]|D].
      + destruct (st_events Ctx s) as [|ev rest] eqn:EE; [exists [], strm, (Failed (ParseError x p)); rewrite app_nil_r; repeat split; try apply consumes_refl|].
        destruct (snd (bev_item Ctx ev)); try (exists [], strm, (Failed KeyError); rewrite app_nil_r; split; [reflexivity|split; [apply consumes_refl|intros K; exfalso; exact (K x p eq_refl)]]; fail).
        all: match goal with |- context [Model_Events.run_on ?X1 ?X2 ?X3 ?X4] => destruct (Model_Events.run_on X1 X2 X3 X4) as [[o1 s1] oo] eqn:R; pose proof (run_on_onward _ _ _ _ _ _ R) as [[l L] C];
          cbn [st_out st_stream] in L, C; exists l, s1, oo; subst; split; [reflexivity|split; [exact C|intros K; exfalso; exact (K _ _ eq_refl)]] end.
      + exists [], strm, (Failed e). rewrite app_nil_r. destruct e; try (repeat split; try apply consumes_refl; fail).
        exfalso. eapply D. reflexivity.
  Qed.

  Lemma run_on_fuel : forall n c s out strm, run n c s = (out, strm, OutOfFuel) -> run_on n c s = (out, strm, OutOfFuel).
  Proof.
    induction n as [|n IH]; intros c s out strm H; cbn [Model_Bintype.run Model_Events.run_on] in *; [exact H|].
    unfold step_on. destruct (step c s) as [s'|out' strm' o'] eqn:E.
    - apply IH. exact H.
    - inversion H; subst. reflexivity.
  Qed.

  Definition err (e : oev Ctx) : bool := match e with OError _ _ _ _ _ => true | _ => false end.
  Definition goes_clean (s : state Ctx) (r : step_res Ctx) : Prop :=
    match r with
    | Next _ s' => existsb err (st_out Ctx s) = false -> existsb err (st_out Ctx s') = false
    | Stop _ out strm Finished => existsb err (st_out Ctx s) = false -> existsb err out = false
    | Stop _ _ _ _ => True
    end.
  Lemma step_clean : forall c s, goes_clean s (step c s).
  Proof.
    intros c s. unfold Model_Bintype.step, stop, expand_array.
    repeat match goal with
    | |- goes_clean _ (match ?x with _ => _ end) => destruct x
    end; unfold goes_clean; cbn [st_out st_stream]; try exact I; try (intros H; exact H);
    intros H; rewrite ?existsb_app, ?H; reflexivity.
  Qed.
  Lemma run_clean : forall n c s out strm, run n c s = (out, strm, Finished) -> existsb err (st_out Ctx s) = false -> existsb err out = false.
  Proof.
    induction n as [|n IH]; intros c s out strm H; cbn [Model_Bintype.run] in H; [discriminate|].
    pose proof (step_clean c s) as S. destruct (step c s) as [s'|out' strm' o'].
    - intros K. eapply IH; [exact H|]. apply S, K.
    - inversion H; subst. exact S.
  Qed.
End Engine.

(** ** The declared references raise no ParseError *)
Definition calm {A} (f : ref node A) : Prop := forall c pv x p, f c pv <> Raise (ParseError x p).
Lemma calm_member : forall name, calm (@ref_member node name).
Proof. intros name c pv x p H. unfold ref_member in H. destruct pv; try discriminate. match type of H with context [dict_get name ?d] => destruct (dict_get name d) end; discriminate. Qed.
Lemma calm_int : forall name, calm (@ref_member_int node name).
Proof.
  intros name c pv x p H. unfold ref_member_int in H. destruct (ref_member name c pv) as [v|e] eqn:E.
  - destruct v; discriminate.
  - inversion H; subst. exact (calm_member _ _ _ _ _ E).
Qed.
Lemma calm_flag : forall name field, calm (@ref_member_flag node name field).
Proof.
  intros name field c pv x p H. unfold ref_member_flag in H. destruct (ref_member name c pv) as [v|e] eqn:E.
  - destruct v; cbn in H; try discriminate. match type of H with context [dict_get field ?d] => destruct (dict_get field d) as [[[? ?] ?]|] end; discriminate.
  - inversion H; subst. exact (calm_member _ _ _ _ _ E).
Qed.
Lemma calm_parent : forall name, calm (ref_parent_member name).
Proof.
  intros name c pv x p H. unfold ref_parent_member in H. destruct (n_content c) as [v|]; [|discriminate].
  destruct v; cbn in H; try discriminate. match type of H with context [dict_get name ?d] => destruct (dict_get name d) as [v|] end; [destruct v|]; discriminate.
Qed.
Lemma calm_set : forall name field, calm (flag_set name field).
Proof.
  intros name field c pv x p H. unfold flag_set in H. destruct (ref_member_flag name field c pv) as [v|e] eqn:E; [discriminate|].
  inversion H; subst. exact (calm_flag _ _ _ _ _ _ E).
Qed.
Lemma calm_gso : calm parent_must_be_gso.
Proof. intros c pv x p H. unfold parent_must_be_gso in H. destruct (n_type c); discriminate. Qed.
Lemma calm_chid : forall name, calm (chid_is name).
Proof.
  intros name c pv x p H. unfold chid_is in H. destruct (ref_member "chid" c pv) as [v|e] eqn:E.
  - destruct v; discriminate.
  - inversion H; subst. exact (calm_member _ _ _ _ _ E).
Qed.
Lemma calm_both : forall a b, calm a -> calm b -> calm (both a b).
Proof.
  intros a b A B c pv x p H. unfold both in H. destruct (a c pv) as [v|e] eqn:E.
  - destruct v; [exact (B _ _ _ _ H)|discriminate].
  - inversion H; subst. exact (A _ _ _ _ E).
Qed.
Lemma calm_widths : calm not_same_widths.
Proof.
  intros c pv x p H. unfold not_same_widths in H. destruct (ref_member_flag "flags" "same_widths" c pv) as [v|e] eqn:E; [discriminate|].
  inversion H; subst. exact (calm_flag _ _ _ _ _ _ E).
Qed.
Lemma calm_entries : forall f, calm f -> calm (n_entries f).
Proof.
  intros f F c pv x p H. unfold n_entries in H. destruct (f c pv) as [v|e] eqn:E; [discriminate|]. inversion H; subst. exact (F _ _ _ _ E).
Qed.

Lemma own_calm : Forall (fun cl => forall c x p, ~ ref_raises node c (ParseError x p) (struct_type (snd cl))) own_members.
Proof.
  unfold own_members.
  repeat (apply Forall_cons; [intros c x p H;
    cbv -[ref_member ref_member_int ref_member_flag ref_parent_member flag_set parent_must_be_gso chid_is both not_same_widths n_entries not] in H;
    repeat match goal with
    | H : _ \/ _ |- _ => destruct H as [H|H]
    | H : False |- _ => contradiction H
    | H : exists pv, _ |- _ => destruct H as [pv H]; revert H;
        first [apply calm_member|apply calm_int|apply calm_flag|apply calm_parent|apply calm_set|apply calm_gso|apply calm_chid|apply calm_widths
              |apply calm_entries; first [apply calm_member|apply calm_int|apply calm_flag]|apply calm_both; [apply calm_chid|apply calm_set]]
    end|]).
  apply Forall_nil.
Qed.
Lemma class_calm : forall c parent x p, ~ ref_raises node parent (ParseError x p) (class_type c).
Proof.
  intros c. unfold class_type, class_fields. destruct (dict_get c own_members) as [l|] eqn:E; [|intros parent x p H; exact H].
  apply dict_get_in in E. exact (proj1 (Forall_forall _ _) own_calm _ E).
Qed.

(** ** Classes, extensions, models *)
Lemma not_parsing : forall e, ~ parsing e -> forall x p, e <> ParseError x p.
Proof. intros e N x p H. apply N. exists x, p. exact H. Qed.
Lemma reports_app : forall e a b, reports e a -> reports e (a ++ b).
Proof. intros e a b H. destruct e; try exact I. destruct H as (n & t & H). exists n, t. apply in_or_app. left. exact H. Qed.
Lemma reports_app_r : forall e a b, reports e b -> reports e (a ++ b).
Proof. intros e a b H. destruct e; try exact I. destruct H as (n & t & H). exists n, t. apply in_or_app. right. exact H. Qed.

Lemma class_onward : forall fuel c parent v s out s' r, class_events fuel c parent v s = (out, s', r) -> consumes s s'.
Proof.
  intros fuel c parent v s out s' r H. unfold class_events, type_events in H.
  destruct (run_on node fuel parent _) as [[o1 s1] oo] eqn:R. apply run_on_onward in R as [_ C]. cbn [st_stream] in C.
  destruct oo; inversion H; subst; exact C.
Qed.
Lemma extension_onward : forall fuel cs parent v content evs s out s' r, extension_events fuel cs parent v content evs s = (out, s', r) -> consumes s s'.
Proof.
  induction cs as [|c cs IH]; intros parent v content evs s out s' r H; cbn [extension_events] in H; [inversion H; subst; apply consumes_refl|].
  destruct (class_events fuel c parent v s) as [[o1 s1] rr] eqn:E. apply class_onward in E.
  destruct rr as [[d|e]|]; [apply IH in H; eapply consumes_trans; eassumption| |]; inversion H; subst; exact E.
Qed.
Lemma model_onward : forall fuel v parent tagid payload evs s r, model_events fuel v parent tagid payload = (evs, s, r) ->
  exists b, payload = b ++ s_rest s /\ s_pos s = zlen b.
Proof.
  intros fuel v parent tagid payload evs s r H.
  enough (consumes (open_bytes payload) s) as (b & B & P) by (exists b; cbn in B, P; split; assumption).
  unfold model_events in H. destruct (class_events fuel (model_type tagid) parent v (open_bytes payload)) as [[o1 s1] rr] eqn:E. apply class_onward in E.
  destruct rr as [[d|e]|]; [|inversion H; subst; exact E..].
  destruct (extension_of (model_type tagid) parent d) as [[ext|]|e]; [|inversion H; subst; exact E..].
  destruct (extension_events fuel _ parent v d o1 s1) as [[o2 s2] r2] eqn:E2. apply extension_onward in E2.
  destruct r2 as [[d2|e]|]; inversion H; subst; eapply consumes_trans; eassumption.
Qed.

Lemma class_agrees : forall fuel c parent v s out s' r, all_bytes (s_rest s) -> read_class fuel c parent v s = (out, s', r) ->
  match r with
  | Some (Ok d) => class_events fuel c parent v s = (out, s', Some (Ok d)) /\ existsb (err node) out = false
  | None => class_events fuel c parent v s = (out, s', None)
  | Some (Raise e) => exists more s'' r', class_events fuel c parent v s = (out ++ more, s'', r') /\ reports e out /\
      (~ parsing e -> more = [] /\ r' = Some (Raise e))
  end.
Proof.
  intros fuel c parent v s out s' r B H. unfold read_class in H. unfold class_events, type_events.
  destruct (read_type_events node fuel (class_type c) parent (Some v) s) as [[o1 s1] oo] eqn:R.
  destruct oo as [|e|].
  - pose proof (run_clean _ _ _ _ _ _ R eq_refl) as C. unfold read_type_events in R. apply run_on_finished in R. rewrite R. inversion H; subst.
    destruct (rev out) as [|ev l].
    + exists [], s', (Some (Raise UnboundLocalError)). rewrite app_nil_r. repeat split.
    + destruct (oev_value node ev) as [vv|]; [destruct vv|]; try (eexists [], s', _; rewrite app_nil_r; repeat split; fail). split; [reflexivity|exact C].
  - inversion H; subst. pose proof (failure_located _ _ _ _ _ _ _ _ _ (proj1 (class_fine c)) (proj2 (class_fine c)) B R) as F.
    unfold read_type_events in R. apply run_on_failed in R as (more & s2 & o2 & R & _ & N). rewrite R.
    assert (P : reports e out).
    { destruct F as [(tr0 & n & p & s1 & x & -> & _ & _ & ->)|[(s1 & f & x & _ & _ & ->)|(s1 & _ & [-> |F])]]; try exact I.
      - exists n, (TPrim node p). apply in_or_app. right. left. reflexivity.
      - destruct e; try exact I. exfalso. eapply class_calm. exact F. }
    destruct o2 as [|e2|].
    + eexists more, s2, _. split; [reflexivity|]. split; [exact P|]. intros K. destruct (N (not_parsing _ K)) as (_ & _ & ?). discriminate.
    + exists more, s2, (Some (Raise e2)). split; [reflexivity|]. split; [exact P|]. intros K. destruct (N (not_parsing _ K)) as (-> & _ & E). inversion E; subst. split; reflexivity.
    + exists more, s2, None. split; [reflexivity|]. split; [exact P|]. intros K. destruct (N (not_parsing _ K)) as (_ & _ & ?). discriminate.
  - inversion H; subst. unfold read_type_events in R. apply run_on_fuel in R. rewrite R. reflexivity.
Qed.

Lemma extension_extends : forall fuel cs parent v d a s o3 s3 r3, extension_events fuel cs parent v d a s = (o3, s3, r3) -> exists l, o3 = a ++ l.
Proof.
  induction cs as [|c' cs IH]; intros parent v d a s o3 s3 r3 X; cbn [extension_events] in X; [inversion X; subst; exists []; rewrite app_nil_r; reflexivity|].
  destruct (class_events fuel c' parent v s) as [[o4 s4] r4]. destruct r4 as [[d4|e4]|].
  - apply IH in X as [l ->]. exists (o4 ++ l). rewrite <- !app_assoc. reflexivity.
  - inversion X; subst. exists o4. reflexivity.
  - inversion X; subst. exists o4. reflexivity.
Qed.

Lemma extension_agrees : forall fuel cs parent v content evs s out s' r, all_bytes (s_rest s) ->
  read_extension fuel cs parent v content evs s = (out, s', r) ->
  match r with
  | Some (Ok d) => extension_events fuel cs parent v content evs s = (out, s', Some (Ok d)) /\ (existsb (err node) evs = false -> existsb (err node) out = false)
  | None => extension_events fuel cs parent v content evs s = (out, s', None)
  | Some (Raise e) => exists out' s'' r', extension_events fuel cs parent v content evs s = (out', s'', r') /\ reports e out' /\
      (~ parsing e -> r' = Some (Raise e))
  end.
Proof.
  induction cs as [|c cs IH]; intros parent v content evs s out s' r B H; cbn [read_extension extension_events] in *.
  - inversion H; subst. split; [reflexivity|intros K; exact K].
  - destruct (read_class fuel c parent v s) as [[o1 s1] r1] eqn:E. pose proof (class_agrees _ _ _ _ _ _ _ _ B E) as A.
    destruct r1 as [[d|e]|].
    + destruct A as [A C]. rewrite A. pose proof (class_onward _ _ _ _ _ _ _ _ A) as K.
      specialize (IH _ _ _ _ _ _ _ _ (all_bytes_consumes _ _ K B) H). destruct r as [[d'|e]|]; [|exact IH..].
      destruct IH as [I1 I2]. split; [exact I1|]. intros Z. apply I2. rewrite existsb_app, Z, C. reflexivity.
    + inversion H; subst. destruct A as (more & s2 & r2 & A & P & N). rewrite A.
      destruct r2 as [[d2|e2]|].
      * destruct (extension_events fuel cs parent v (dict_update content d2) (evs ++ o1 ++ more) s2) as [[o3 s3] r3] eqn:X.
        exists o3, s3, r3. split; [reflexivity|]. split.
        -- enough (exists l, o3 = (evs ++ o1 ++ more) ++ l) as [l ->] by (apply reports_app, reports_app_r, reports_app, P).
           eapply extension_extends. exact X.
        -- intros K. destruct (N K) as [_ ?]. discriminate.
      * exists (evs ++ o1 ++ more), s2, (Some (Raise e2)). split; [reflexivity|]. split; [apply reports_app_r, reports_app, P|]. intros K. exact (proj2 (N K)).
      * exists (evs ++ o1 ++ more), s2, None. split; [reflexivity|]. split; [apply reports_app_r, reports_app, P|]. intros K. exact (proj2 (N K)).
    + rewrite A. inversion H; subst. reflexivity.
Qed.
Lemma extension_calm : forall base parent d e, extension_of base parent d = Raise e -> e = KeyError.
Proof.
  intros base parent d e H. unfold extension_of in H.
  repeat match type of H with context [match ?x with _ => _ end] => destruct x end; inversion H; reflexivity.
Qed.
Lemma model_agrees : forall fuel v parent tagid payload, all_bytes payload ->
  match parse_model fuel v parent tagid payload with
  | Some (Ok m) => exists s, model_events fuel v parent tagid payload = (m_binevents m, s, Some (Ok m)) /\ s_rest s = m_unparsed m /\
      s_pos s = zlen payload - zlen (m_unparsed m) /\ existsb (err node) (m_binevents m) = false
  | Some (Raise e) => exists evs s r, model_events fuel v parent tagid payload = (evs, s, r) /\ reports e evs /\ (~ parsing e -> r = Some (Raise e))
  | None => exists evs s, model_events fuel v parent tagid payload = (evs, s, None)
  end.
Proof.
  intros fuel v parent tagid payload B.
  assert (POS : forall m s, model_events fuel v parent tagid payload = (m_binevents m, s, Some (Ok m)) -> s_rest s = m_unparsed m -> s_pos s = zlen payload - zlen (m_unparsed m)).
  { intros m s E R. apply model_onward in E as (b & E & P). rewrite <- R, P, E, zlen_app. lia. }
  unfold parse_model. unfold model_events in *.
  destruct (read_class fuel (model_type tagid) parent v (open_bytes payload)) as [[o1 s1] r1] eqn:E.
  pose proof (class_agrees _ _ _ _ _ _ _ _ (B : all_bytes (s_rest (open_bytes payload))) E) as A. destruct r1 as [[d|e]|].
  - destruct A as [A C]. rewrite A in *. destruct (extension_of (model_type tagid) parent d) as [[ext|]|e] eqn:EX.
    + pose proof (class_onward _ _ _ _ _ _ _ _ A) as K.
      destruct (read_extension fuel (get_extension_mro ext (model_type tagid)) parent v d o1 s1) as [[o2 s2] r2] eqn:E2.
      pose proof (extension_agrees _ _ _ _ _ _ _ _ _ _ (all_bytes_consumes _ _ K (B : all_bytes (s_rest (open_bytes payload)))) E2) as X. destruct r2 as [[d2|e]|].
      * destruct X as [X Y]. rewrite X in *. exists s2. cbn [m_binevents m_unparsed] in *. split; [reflexivity|]. split; [reflexivity|]. split; [|exact (Y C)].
        exact (POS (mkModel ext d2 o2 (s_rest s2)) s2 eq_refl eq_refl).
      * destruct X as (out' & s'' & r' & X & P & N). rewrite X. destruct r' as [[d'|e']|].
        -- eexists out', s'', _. split; [reflexivity|]. split; [exact P|]. intros K'. discriminate (N K').
        -- eexists out', s'', _. split; [reflexivity|]. split; [exact P|]. intros K'. specialize (N K'). inversion N; reflexivity.
        -- eexists out', s'', _. split; [reflexivity|]. split; [exact P|]. intros K'. discriminate (N K').
      * rewrite X. exists o2, s2. reflexivity.
    + exists s1. cbn [m_binevents m_unparsed]. split; [reflexivity|]. split; [reflexivity|]. split; [|exact C].
      exact (POS (mkModel (model_type tagid) d o1 (s_rest s1)) s1 eq_refl eq_refl).
    + exists o1, s1, (Some (Raise e)). split; [reflexivity|]. split; [|intros _; reflexivity].
      apply extension_calm in EX. subst. exact I.
  - destruct A as (more & s2 & r2 & A & P & N). rewrite A. destruct r2 as [[d2|e2]|].
    + destruct (extension_of (model_type tagid) parent d2) as [[ext|]|e3].
      * destruct (extension_events fuel (get_extension_mro ext (model_type tagid)) parent v d2 (o1 ++ more) s2) as [[o3 s3] r3] eqn:X.
        pose proof (extension_extends _ _ _ _ _ _ _ _ _ _ X) as [l ->].
        destruct r3 as [[d3|e3]|]; (eexists _, s3, _; split; [reflexivity|]; split; [apply reports_app, reports_app, P|]; intros K; destruct (N K) as [_ ?]; discriminate).
      * eexists _, s2, _. split; [reflexivity|]. split; [apply reports_app, P|]. intros K; destruct (N K) as [_ ?]; discriminate.
      * eexists _, s2, _. split; [reflexivity|]. split; [apply reports_app, P|]. intros K; destruct (N K) as [_ ?]; discriminate.
    + eexists _, s2, _. split; [reflexivity|]. split; [apply reports_app, P|]. intros K; pose proof (proj2 (N K)) as Q; inversion Q; reflexivity.
    + eexists _, s2, _. split; [reflexivity|]. split; [apply reports_app, P|]. intros K; pose proof (proj2 (N K)) as Q; inversion Q; reflexivity.
  - rewrite A. exists o1, s1. reflexivity.
Qed.

(** ** Streams *)
Lemma blocks_app : forall a b, blocks (a ++ b) = blocks a ++ blocks b.
Proof. intros a b. unfold blocks. rewrite map_app, concat_app. reflexivity. Qed.
Lemma fails_after : forall pre records ms0 ms e l o, map fst ms0 = pre -> fails_too records ms e l o -> fails_too (pre ++ records) (ms0 ++ ms) e (blocks ms0 ++ l) o.
Proof.
  intros pre records ms0 ms e l o <- [[-> ->]|(r & rest & inner & more & -> & -> & P & N)].
  - left. rewrite blocks_app. split; reflexivity.
  - right. exists r, rest, inner, more. rewrite map_app, blocks_app, <- !app_assoc. repeat split; try assumption; apply N; assumption.
Qed.
Lemma clean_block : forall rm, existsb (err node) (m_binevents (snd rm)) = false -> ~ has_error (block rm).
Proof.
  intros rm C (e & I & E). unfold block in I. destruct I as [I|I]; [discriminate|]. apply in_app_or in I as [I|[I|[]]]; [|discriminate].
  apply in_map_iff in I as (e' & K & I). inversion K; subst. assert (existsb (err node) (m_binevents (snd rm)) = true) by (apply existsb_exists; exists e; split; [exact I|exact E]). congruence.
Qed.
Lemma clean_app : forall a b, ~ has_error a -> ~ has_error b -> ~ has_error (a ++ b).
Proof. intros a b A B (e & I & E). apply in_app_or in I as [I|I]; [apply A|apply B]; exists e; split; assumption. Qed.
Lemma gapp_pair : forall A (a b : list A) o, gapp a (b, o) = (a ++ b, o). Proof. reflexivity. Qed.

Lemma loop_agrees : forall fuel v o records base stack ms o', Forall (fun r => all_bytes (r_payload r)) records ->
  parse_models_loop fuel v base stack records o = (ms, o') ->
  match o' with
  | Finished => events_loop fuel v base stack records o = (blocks ms, Finished) /\ ~ has_error (blocks ms) /\ map fst ms = records
  | Failed e => exists l o2, events_loop fuel v base stack records o = (l, o2) /\ fails_too records ms e l o2
  | OutOfFuel => snd (events_loop fuel v base stack records o) = OutOfFuel
  end.
Proof.
  intros fuel v o records. induction records as [|r rest IH]; intros base stack ms o' B H.
  - cbn [parse_models_loop events_loop] in *. inversion H; subst. destruct o' as [|e|]; [|exists [], (Failed e); split; [reflexivity|left; split; reflexivity]|reflexivity].
    split; [reflexivity|]. split; [|reflexivity]. intros (e & [] & _).
  - inversion B; subst. cbn [parse_models_loop events_loop] in *.
    destruct (pop_to _ stack) as [popped [stack'|e]]; [|inversion H; subst; exists [], (Failed e); split; [reflexivity|left; split; reflexivity]].
    destruct (check_level _ stack') as [e|]; [inversion H; subst; exists [], (Failed e); split; [reflexivity|left; split; reflexivity]|].
    destruct stack' as [|parent above]; [inversion H; subst; exists [], (Failed IndexError); split; [reflexivity|left; split; reflexivity]|].
    pose proof (model_agrees fuel v parent (r_tagid r) (r_payload r) H2) as A.
    destruct (parse_model fuel v parent (r_tagid r) (r_payload r)) as [[m|e]|].
    + destruct A as (s & A & R & P & C). rewrite A.
      destruct (parse_models_loop fuel v _ (model_node m :: on_child parent m :: above) rest o) as [ms1 o1] eqn:L.
      cbn [gcons] in H. inversion H; subst. apply IH in L; [|assumption].
      assert (BL : MStart r :: map MEvent (m_binevents m) ++ [MEnd r (s_pos s) (s_rest s)] = blocks [(r, m)]).
      { unfold blocks. cbn [map concat]. rewrite app_nil_r. unfold block. cbn [fst snd]. rewrite R, P. reflexivity. }
      rewrite BL. change ((r, m) :: ms1) with ([(r, m)] ++ ms1).
      destruct o' as [|e|].
      * destruct L as (L & N & M). rewrite L, gapp_pair, blocks_app. split; [reflexivity|]. split; [|cbn; rewrite M; reflexivity].
        apply clean_app; [|exact N]. unfold blocks. cbn [map concat]. rewrite app_nil_r. apply clean_block. exact C.
      * destruct L as (l & o2 & L & F). rewrite L, gapp_pair. eexists _, o2. split; [reflexivity|].
        change (r :: rest) with ([r] ++ rest). apply fails_after; [reflexivity|exact F].
      * destruct (events_loop fuel v _ (model_node m :: on_child parent m :: above) rest o) as [l o2]. cbn in L. subst. reflexivity.
    + inversion H; subst. destruct A as (evs & s & rr & A & P & N). rewrite A.
      destruct rr as [[m2|e2]|].
      * destruct (events_loop fuel v _ (model_node m2 :: on_child parent m2 :: above) rest o) as [l o2].
        eexists _, o2. split; [reflexivity|]. right. exists r, rest, evs, ([MEnd r (s_pos s) (s_rest s)] ++ l).
        split; [reflexivity|]. split; [cbn; rewrite <- app_assoc; reflexivity|]. split; [exact P|]. intros K. discriminate (N K).
      * eexists _, _. split; [reflexivity|]. right. exists r, rest, evs, []. rewrite app_nil_r. repeat split; try assumption. specialize (N H0). inversion N; reflexivity.
      * eexists _, _. split; [reflexivity|]. right. exists r, rest, evs, []. rewrite app_nil_r. repeat split; try assumption. discriminate (N H0).
    + inversion H; subst. destruct A as (evs & s & A). rewrite A. reflexivity.
Qed.

Lemma chain_agrees : forall fuel v o gs ms o', Forall (Forall (fun r => all_bytes (r_payload r))) gs ->
  chain_models fuel v gs o = (ms, o') ->
  match o' with
  | Finished => chain_events fuel v gs o = (blocks ms, Finished) /\ ~ has_error (blocks ms) /\ map fst ms = concat gs
  | Failed e => exists l o2, chain_events fuel v gs o = (l, o2) /\ fails_too (concat gs) ms e l o2
  | OutOfFuel => snd (chain_events fuel v gs o) = OutOfFuel
  end.
Proof.
  intros fuel v o gs. induction gs as [|g gs IH]; intros ms o' B H.
  - cbn [chain_models chain_events] in *. inversion H; subst. destruct o' as [|e|]; [|exists [], (Failed e); split; [reflexivity|left; split; reflexivity]|reflexivity].
    split; [reflexivity|]. split; [|reflexivity]. intros (e & [] & _).
  - inversion B; subst. cbn [chain_models chain_events concat] in *. unfold parse_models in H. cbn [fst snd] in H.
    destruct (parse_models_loop fuel v None [root_node] g Finished) as [ms1 o1] eqn:L. apply loop_agrees in L; [|assumption]. destruct o1 as [|e|].
    + destruct L as (L & N & M). rewrite L. destruct (chain_models fuel v gs o) as [ms2 o2] eqn:C. cbn [gapp] in H. inversion H; subst.
      specialize (IH _ _ H3 eq_refl). destruct o' as [|e|].
      * destruct IH as (I1 & I2 & I3). rewrite I1, gapp_pair, blocks_app. split; [reflexivity|]. split; [apply clean_app; assumption|]. rewrite map_app, I3. reflexivity.
      * destruct IH as (l & o2 & I1 & F). rewrite I1, gapp_pair. eexists _, o2. split; [reflexivity|]. apply fails_after; [reflexivity|exact F].
      * destruct (chain_events fuel v gs o) as [l o2]. cbn in IH. subst. reflexivity.
    + inversion H; subst. destruct L as (l & o2 & L & F). rewrite L. destruct F as [[-> ->]|(r & rest & inner & more & G & E & P & N)].
      * eexists _, _. split; [reflexivity|]. left. split; reflexivity.
      * assert (D : o2 = Finished \/ o2 <> Finished) by (destruct o2; auto; right; discriminate). destruct D as [-> |D].
        -- destruct (chain_events fuel v gs o) as [l3 o3]. rewrite gapp_pair. eexists _, o3. split; [reflexivity|]. right.
           exists r, (rest ++ concat gs), inner, (more ++ l3). split; [rewrite G, <- app_assoc; reflexivity|].
           split; [rewrite E, <- !app_assoc; cbn; rewrite <- app_assoc; reflexivity|]. split; [exact P|]. intros K. destruct (N K) as [_ ?]. discriminate.
        -- exists l, o2. split; [destruct o2; congruence|]. right. exists r, (rest ++ concat gs), inner, more. split; [rewrite G, <- app_assoc; reflexivity|]. repeat split; try assumption; apply N; assumption.
    + inversion H; subst. destruct (events_loop fuel v None [root_node] g Finished) as [l o2]. cbn in L. subst. reflexivity.
Qed.

Lemma groups_bytes : forall (rs : list record) o (P : record -> Prop), o <> OutOfFuel -> Forall P rs -> Forall (Forall P) (fst (group_by_toplevel r_level (rs, o))).
Proof.
  intros rs o P N B. destruct (groups_prefix rs o N) as [rest E]. rewrite E in B. apply Forall_app in B as [B _].
  revert B. generalize (fst (group_by_toplevel r_level (rs, o))) as gs. induction gs as [|g gs IH]; intros B; [constructor|].
  cbn [concat] in B. apply Forall_app in B as [B1 B2]. constructor; [exact B1|exact (IH B2)].
Qed.

Theorem stream_agrees : forall fuel v rs o ms o', o <> OutOfFuel -> Forall (fun r => all_bytes (r_payload r)) rs ->
  stream_models fuel v (rs, o) = (ms, o') ->
  match o' with
  | Finished => stream_events fuel v (rs, o) = (blocks ms, Finished) /\ ~ has_error (blocks ms)
  | Failed e => fails_too rs ms e (fst (stream_events fuel v (rs, o))) (snd (stream_events fuel v (rs, o)))
  | OutOfFuel => snd (stream_events fuel v (rs, o)) = OutOfFuel
  end.
Proof.
  intros fuel v rs o ms o' N B H. unfold stream_models in H. unfold stream_events. apply chain_agrees in H; [|apply groups_bytes; assumption].
  destruct (groups_prefix rs o N) as [rest E]. destruct o' as [|e|]; [split; apply H| |exact H].
  destruct H as (l & o2 & H & F). rewrite H. cbn [fst snd]. destruct F as [F|(r & rest' & inner & more & G & F)]; [left; exact F|right].
  exists r, (rest' ++ rest), inner, more. split; [|exact F]. rewrite E, G, <- app_assoc. reflexivity.
Qed.

Theorem events_clean : forall fuel v rs o l, o <> OutOfFuel -> Forall (fun r => all_bytes (r_payload r)) rs ->
  stream_events fuel v (rs, o) = (l, Finished) -> ~ has_error l -> exists ms, stream_models fuel v (rs, o) = (ms, Finished) /\ l = blocks ms.
Proof.
  intros fuel v rs o l N B H C. destruct (stream_models fuel v (rs, o)) as [ms o'] eqn:M. pose proof (stream_agrees _ _ _ _ _ _ N B M) as A. rewrite H in A.
  destruct o' as [|e|].
  - exists ms. split; [reflexivity|]. destruct A as [A _]. inversion A; reflexivity.
  - exfalso. cbn [fst snd] in A. destruct A as [[_ A]|(r & rest & inner & more & _ & E & P & K)]; [discriminate|].
    destruct e; try (destruct K as [_ K]; [intros (x & p & Q); discriminate|discriminate]). apply C. destruct P as (n & t & P). exists (OError node n t offset e). split; [|reflexivity].
    rewrite E. apply in_or_app. right. right. apply in_or_app. left. apply in_map. exact P.
  - discriminate.
Qed.

(** ** Their shape *)
Lemma complete_app : forall a b l m, complete a l -> complete b m -> complete (a ++ b) (l ++ m).
Proof.
  induction 1; intros M; [exact M|]. cbn [app]. rewrite <- app_assoc. cbn [app]. constructor; auto.
Qed.
Lemma broken_after : forall a b l m, complete a l -> broken b m -> broken (a ++ b) (l ++ m).
Proof.
  intros a b l m C (done & rest & before & -> & D & E). exists (a ++ done), rest, (l ++ before). rewrite <- app_assoc. split; [reflexivity|]. split; [apply complete_app; assumption|].
  destruct E as [-> |(r & rest' & inner & E1 & ->)]; [left; reflexivity|right]. exists r, rest', inner. rewrite <- app_assoc. split; [exact E1|reflexivity].
Qed.
Lemma broken_more : forall a b l, broken a l -> broken (a ++ b) l.
Proof.
  intros a b l (done & rest & before & -> & D & E). exists done, (rest ++ b), before. rewrite <- app_assoc. split; [reflexivity|]. split; [assumption|].
  destruct E as [E|(r & rest' & inner & E1 & E)]; [left; exact E|right]. exists r, (rest' ++ b), inner. rewrite E1. split; [reflexivity|exact E].
Qed.
Lemma broken_now : forall a, broken a [].
Proof. intros a. exists [], a, []. repeat split; try constructor. reflexivity. Qed.
Lemma complete_broken : forall a l, complete a l -> broken a l.
Proof. intros a l C. exists a, [], l. rewrite app_nil_r. repeat split; [exact C|left; reflexivity]. Qed.

Definition shaped (rs : list record) (g : gen mev) : Prop := match snd g with Finished => complete rs (fst g) | _ => broken rs (fst g) end.

Lemma loop_shape : forall fuel v o records base stack, shaped records (events_loop fuel v base stack records o).
Proof.
  intros fuel v o records. induction records as [|r rest IH]; intros base stack.
  - cbn [events_loop]. unfold shaped. cbn [fst snd]. destruct o; [constructor|apply broken_now..].
  - cbn [events_loop]. destruct (pop_to _ stack) as [popped [stack'|e]]; [|apply broken_now].
    destruct (check_level _ stack') as [e|]; [apply broken_now|]. destruct stack' as [|parent above]; [apply broken_now|].
    destruct (model_events fuel v parent (r_tagid r) (r_payload r)) as [[evs s] rr] eqn:E.
    assert (BR : broken (r :: rest) (MStart r :: map MEvent evs)).
    { exists [], (r :: rest), []. repeat split; [constructor|]. right. exists r, rest, evs. split; reflexivity. }
    destruct rr as [[m|e]|]; [|exact BR..].
    apply model_onward in E as (b & P & Q).
    specialize (IH (Some (match base with None => r_level r | Some b0 => b0 end)) (model_node m :: on_child parent m :: above)).
    destruct (events_loop fuel v _ (model_node m :: on_child parent m :: above) rest o) as [l o2]. rewrite gapp_pair. unfold shaped in *. cbn [fst snd] in *.
    assert (CO : complete [r] (MStart r :: map MEvent evs ++ [MEnd r (s_pos s) (s_rest s)])).
    { rewrite Q. apply co_record; [exact P|constructor]. }
    change (r :: rest) with ([r] ++ rest). destruct o2; [apply complete_app|apply broken_after..]; assumption.
Qed.
Lemma chain_shape : forall fuel v o gs, shaped (concat gs) (chain_events fuel v gs o).
Proof.
  intros fuel v o gs. induction gs as [|g gs IH].
  - unfold shaped. cbn. destruct o; [constructor|apply broken_now..].
  - cbn [chain_events concat]. pose proof (loop_shape fuel v Finished g None [root_node]) as L.
    destruct (events_loop fuel v None [root_node] g Finished) as [l o1]. unfold shaped in *. cbn [fst snd] in L.
    destruct o1; cbn [fst snd]; [|apply broken_more, L..].
    destruct (chain_events fuel v gs o) as [l2 o2]. rewrite gapp_pair. cbn [fst snd] in *. destruct o2; [apply complete_app|apply broken_after..]; assumption.
Qed.
Lemma chain_source : forall fuel v o gs l, chain_events fuel v gs o = (l, Finished) -> o = Finished.
Proof.
  intros fuel v o gs. induction gs as [|g gs IH]; intros l H; cbn [chain_events] in H; [inversion H; reflexivity|].
  destruct (events_loop fuel v None [root_node] g Finished) as [l1 o1]. destruct o1; try discriminate.
  destruct (chain_events fuel v gs o) as [l2 o2]. inversion H; subst. eapply IH. reflexivity.
Qed.

Theorem events_complete : forall fuel v rs o l, o <> OutOfFuel -> stream_events fuel v (rs, o) = (l, Finished) -> o = Finished /\ complete rs l.
Proof.
  intros fuel v rs o l N H. unfold stream_events in H. pose proof (chain_source _ _ _ _ _ H) as SO.
  pose proof (chain_shape fuel v (snd (group_by_toplevel r_level (rs, o))) (fst (group_by_toplevel r_level (rs, o)))) as C. rewrite H in C. unfold shaped in C. cbn [fst snd] in C.
  assert (G : exists gs, is_grouping r_level rs gs).
  { destruct rs as [|r t]; [exists []; repeat split; constructor|]. destruct (group_loop_spec _ r_level (S (List.length t)) r t ltac:(lia)) as (gs & _ & G & _). exists gs. exact G. }
  destruct G as [gs G]. destruct o as [|e|]; [| |congruence].
  - rewrite (proj2 (grouping_correct _ r_level rs gs) G) in C. cbn [fst] in C. split; [reflexivity|]. destruct G as [G _]. rewrite <- G. exact C.
  - rewrite (grouping_failed _ r_level rs e gs G) in SO. discriminate.
Qed.
Theorem events_broken : forall fuel v rs o, o <> OutOfFuel -> broken rs (fst (stream_events fuel v (rs, o))).
Proof.
  intros fuel v rs o N. unfold stream_events. destruct (groups_prefix rs o N) as [rest E].
  pose proof (chain_shape fuel v (snd (group_by_toplevel r_level (rs, o))) (fst (group_by_toplevel r_level (rs, o)))) as C.
  rewrite E at 1. apply broken_more. unfold shaped in C. destruct (snd _) in C; [apply complete_broken|..]; exact C.
Qed.
