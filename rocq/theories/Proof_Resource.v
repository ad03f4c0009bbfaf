From Coq Require Import ZArith String List Bool Lia.
From Verif Require Import Base BaseFacts Model_Resource Spec_Resource.
Import ListNotations.
Open Scope Z_scope.

(** ** Cached properties *)

Section Cached.
  Variable answer : string -> nat -> res pyval.
  Variable apply : Z -> res pyval.
  Variable c : cls.
  Notation step := (aop_step answer apply c).
  Notation run := (aop_run answer apply c).
  Notation get := (py_getattr answer c).

  Lemma cached_get_dict : forall f g o r o1, cached_get answer g o = (r, o1) -> forall v, assoc f (o_dict o) = Some v ->
    assoc f (o_dict o1) = Some v /\ ncalls f (o_calls o1) = ncalls f (o_calls o).
  Proof.
    intros f g o r o1 E v Hv. unfold cached_get in E. destruct (assoc g (o_dict o)) eqn:G; [injection E as <- <-; auto|].
    assert (N : String.eqb f g = false) by (apply String.eqb_neq; intros ->; congruence).
    unfold call_function in E. destruct (answer g _); injection E as <- <-; cbn [o_dict o_calls assoc ncalls]; rewrite N; auto.
  Qed.

  Lemma get_dict : forall f name o r o1, get name o = (r, o1) -> forall v, assoc f (o_dict o) = Some v ->
    assoc f (o_dict o1) = Some v /\ ncalls f (o_calls o1) = ncalls f (o_calls o).
  Proof.
    intros f name o r o1 H v Hv. unfold py_getattr in H.
    destruct (assoc name c) as [[g|]|].
    - destruct (cached_get answer g o) as [r2 o2] eqn:E. destruct r2; injection H as <- <-; eapply cached_get_dict; eassumption.
    - destruct (assoc name (o_dict o)); injection H as <- <-; auto.
    - destruct (assoc name (o_dict o)); injection H as <- <-; auto.
  Qed.

  (** A remembered value stays, and its function is not called again. *)
  Lemma step_keeps : forall f op o, ~ assigns c f op -> forall v, assoc f (o_dict o) = Some v ->
    assoc f (o_dict (snd (step op o))) = Some v /\ ncalls f (o_calls (snd (step op o))) = ncalls f (o_calls o).
  Proof.
    intros f op o HA v Hv. destruct op as [name|name|name w]; cbn [aop_step].
    - destruct (get name o) as [r o1] eqn:E. cbn. eapply get_dict; eassumption.
    - destruct (get name o) as [r o1] eqn:E. pose proof (get_dict f name o r o1 E v Hv) as D.
      destruct r as [w|e]; [|exact D]. destruct w as [[n|n]|g]; cbn [py_call].
      + exact D.
      + destruct (apply n); exact D.
      + unfold py_getattr in E. destruct (assoc name c) as [[h|]|].
        * destruct (cached_get answer h o) as [r2 o2]. destruct r2; discriminate.
        * destruct (assoc name (o_dict o)) eqn:EN; [discriminate|]. injection E as <- <-.
          assert (N : String.eqb f name = false) by (apply String.eqb_neq; intros ->; congruence).
          unfold call_function. destruct (answer name _); cbn [snd o_dict o_calls ncalls]; rewrite N; auto.
        * destruct (assoc name (o_dict o)); discriminate.
    - cbn in HA. destruct (assoc name c) as [[g|]|]; cbn [snd cached_set o_dict o_calls assoc];
        (destruct (String.eqb f _) eqn:E; [apply String.eqb_eq in E; subst; now elim HA|auto]).
  Qed.

  Lemma run_keeps : forall f ops o, Forall (fun op => ~ assigns c f op) ops -> forall v, assoc f (o_dict o) = Some v ->
    assoc f (o_dict (run ops o)) = Some v /\ ncalls f (o_calls (run ops o)) = ncalls f (o_calls o).
  Proof.
    intros f ops. induction ops as [|op ops IH]; intros o HF v Hv; [auto|]. inversion HF; subst. cbn [aop_run].
    destruct (step_keeps f op o H1 v Hv) as [A B]. destruct (IH _ H2 v A) as [C D]. split; [exact C|]. now rewrite D.
  Qed.

  Lemma get_stores : forall p f o v o1, assoc p c = Some (Cached f) -> step (AGet p) o = (Ok v, o1) ->
    exists w, v = AV w /\ assoc f (o_dict o1) = Some w.
  Proof.
    intros p f o v o1 HP H. cbn [aop_step] in H. unfold py_getattr in H. rewrite HP in H. unfold cached_get in H.
    destruct (assoc f (o_dict o)) as [w|] eqn:E.
    - injection H as <- <-. exists w. auto.
    - unfold call_function in H. destruct (answer f _) as [w|e]; [|discriminate]. injection H as <- <-.
      exists w. split; [reflexivity|]. cbn [o_dict assoc]. now rewrite String.eqb_refl.
  Qed.

  Lemma get_remembered : forall p f o w, assoc p c = Some (Cached f) -> assoc f (o_dict o) = Some w -> step (AGet p) o = (Ok (AV w), o).
  Proof. intros p f o w HP H. cbn [aop_step]. unfold py_getattr, cached_get. rewrite HP, H. reflexivity. Qed.

  Theorem cached_once : forall p f o v o1 ops, assoc p c = Some (Cached f) -> step (AGet p) o = (Ok v, o1) ->
    Forall (fun op => ~ assigns c f op) ops ->
    step (AGet p) (run ops o1) = (Ok v, run ops o1) /\
    ncalls f (o_calls (run ops o1)) = ncalls f (o_calls o1).
  Proof.
    intros p f o v o1 ops HP H HF. destruct (get_stores p f o v o1 HP H) as (w & -> & E).
    destruct (run_keeps f ops o1 HF w E) as [A B]. split; [|exact B]. now apply (get_remembered p f).
  Qed.

  Theorem first_get_calls : forall p f o, assoc p c = Some (Cached f) -> assoc f (o_dict o) = None ->
    exists o1, step (AGet p) o = (match answer f (ncalls f (o_calls o)) with Ok w => Ok (AV w) | Raise e => Raise e end, o1) /\
    ncalls f (o_calls o1) = S (ncalls f (o_calls o)) /\
    (forall e, answer f (ncalls f (o_calls o)) = Raise e -> assoc f (o_dict o1) = None).
  Proof.
    intros p f o HP H. cbn [aop_step]. unfold py_getattr, cached_get, call_function. rewrite HP, H.
    destruct (answer f (ncalls f (o_calls o))) as [w|e]; eexists; (split; [reflexivity|]); cbn [o_calls o_dict ncalls]; rewrite String.eqb_refl; (split; [reflexivity|]); intros e' He; [discriminate|exact H].
  Qed.

  Theorem method_broken : forall p f o n o1 ops, assoc p c = Some (Cached f) -> assoc f c = Some Method ->
    step (AGet p) o = (Ok (AV (VData n)), o1) -> Forall (fun op => ~ assigns c f op) ops ->
    fst (step (ACall f) (run ops o1)) = Raise TypeError.
  Proof.
    intros p f o n o1 ops HP HM H HF. destruct (get_stores p f o _ o1 HP H) as (w & E & D). injection E as <-.
    destruct (run_keeps f ops o1 HF _ D) as [A _]. cbn [aop_step]. unfold py_getattr. rewrite HM, A. reflexivity.
  Qed.

  Theorem method_works_before : forall f o, assoc f c = Some Method -> assoc f (o_dict o) = None ->
    fst (step (ACall f) o) = match answer f (ncalls f (o_calls o)) with Ok w => Ok (AV w) | Raise e => Raise e end.
  Proof.
    intros f o HM H. cbn [aop_step]. unfold py_getattr. rewrite HM, H. cbn [py_call call_function]. destruct (answer f _); reflexivity.
  Qed.

  Theorem set_then_get : forall p f v o, assoc p c = Some (Cached f) ->
    fst (step (AGet p) (snd (step (ASet p v) o))) = Ok (AV v).
  Proof.
    intros p f v o HP. cbn [aop_step]. rewrite HP. cbn [snd cached_set]. unfold py_getattr. rewrite HP. unfold cached_get, cached_set. cbn [o_dict assoc].
    rewrite String.eqb_refl. reflexivity.
  Qed.
End Cached.

Lemma assigned_only : forall answer apply c f ops o, Forall (fun op => match op with AGet _ => True | _ => False end) ops ->
  (forall n, exists v, answer f n = Ok v) ->
  (assoc f (o_dict o) = None -> ncalls f (o_calls o) = O) -> (ncalls f (o_calls o) <= 1)%nat ->
  (ncalls f (o_calls (aop_run answer apply c ops o)) <= 1)%nat.
Proof.
  intros answer apply c f ops. induction ops as [|op ops IH]; intros o HF HA H0 H1; [exact H1|].
  inversion HF as [|? ? Hop HF']; subst. destruct op as [name|name|name v]; try contradiction. cbn [aop_run]. 
  destruct (assoc f (o_dict o)) as [v|] eqn:ED.
  - destruct (step_keeps answer apply c f (AGet name) o (fun x => x) v ED) as [A B]. apply IH; auto; [|now rewrite B]. congruence.
  - specialize (H0 eq_refl).
    assert (G : forall g o1 r, cached_get answer g o = (r, o1) -> (assoc f (o_dict o1) = None -> ncalls f (o_calls o1) = O) /\ (ncalls f (o_calls o1) <= 1)%nat).
    { intros g o1 r E. unfold cached_get in E. destruct (assoc g (o_dict o)) eqn:EG; [injection E as <- <-; auto|].
      unfold call_function in E. destruct (String.eqb f g) eqn:EQ.
      - apply String.eqb_eq in EQ. subst g. destruct (HA (ncalls f (o_calls o))) as [w Hw]. rewrite Hw in E. injection E as <- <-.
        cbn [o_dict o_calls assoc ncalls]. rewrite String.eqb_refl, H0. split; [discriminate|lia].
      - destruct (answer g _); injection E as <- <-; cbn [o_dict o_calls assoc ncalls]; rewrite EQ; auto. }
    cbn [aop_step]. unfold py_getattr.
    destruct (assoc name c) as [[g|]|].
    + destruct (cached_get answer g o) as [r o1] eqn:E. destruct (G g o1 r E) as [A B]. destruct r; cbn [snd]; apply IH; auto.
    + destruct (assoc name (o_dict o)); cbn [snd]; apply IH; auto.
    + destruct (assoc name (o_dict o)); cbn [snd]; apply IH; auto.
Qed.

(** ** Temporary files *)

Lemma in_filter_neq : forall p q l, In q (filter (fun x => negb (x =? p)) l) <-> In q l /\ q <> p.
Proof. intros. rewrite filter_In. split; intros [A B]; split; auto; lia. Qed.

Lemma existsb_In : forall p l, existsb (Z.eqb p) l = true <-> In p l.
Proof.
  intros. rewrite existsb_exists. split.
  - intros (x & H & E). apply Z.eqb_eq in E. now subst.
  - intros H. exists p. split; [exact H|apply Z.eqb_refl].
Qed.

Lemma unlink_ok : forall p w, w_files (snd (unlink None p w)) = filter (fun q => negb (q =? p)) (w_files w).
Proof.
  intros p w. unfold unlink. destruct (existsb (Z.eqb p) (w_files w)) eqn:E; [reflexivity|]. cbn [snd].
  assert (N : ~ In p (w_files w)) by (rewrite <- existsb_In; congruence). induction (w_files w) as [|q l IH]; [reflexivity|].
  cbn in E, N |- *. replace (q =? p) with false; [cbn; rewrite <- IH; auto|]; [|lia]. now destruct (p =? q).
Qed.

Theorem mkstemp_open_is : forall A x p (body : M A) w, f_mkstemp x = None ->
  let inner := match f_fdopen x with Some e => (Raise e, mkWorld (p :: w_files w) (w_out w)) | None => body (mkWorld (p :: w_files w) (w_out w)) end in
  fst (mkstemp_open x p body w) = fst inner /\
  w_out (snd (mkstemp_open x p body w)) = w_out (snd inner) /\
  w_files (snd (mkstemp_open x p body w)) =
    match f_unlink x with
    | None => filter (fun q => negb (q =? p)) (w_files (snd inner))
    | Some _ => w_files (snd inner)
    end.
Proof.
  intros A x p body w HM. cbv zeta. unfold mkstemp_open, mbind, mkstemp. rewrite HM. unfold try_finally, swallow, may_fail.
  assert (U : forall w0, w_out (snd (unlink (f_unlink x) p w0)) = w_out w0).
  { intros w0. unfold unlink. destruct (f_unlink x); [reflexivity|]. destruct (existsb _ _); reflexivity. }
  assert (V : forall w0, w_files (snd (unlink (f_unlink x) p w0)) = match f_unlink x with None => filter (fun q => negb (q =? p)) (w_files w0) | Some _ => w_files w0 end).
  { intros w0. destruct (f_unlink x); [reflexivity|]. apply unlink_ok. }
  destruct (f_fdopen x) as [e|].
  - cbn [fst snd]. rewrite U, V. auto.
  - destruct (body _) as [r w1]. cbn [fst snd]. destruct (f_close x); cbn [fst snd]; rewrite U, V; auto.
Qed.

Theorem make_temp_file_clean : forall A x p (body : M A) w, f_mkstemp x = None -> f_unlink x = None ->
  ~ In p (w_files (snd (make_temp_file x p body w))) /\
  (f_fdopen x = None -> f_close x = None -> In p (w_files (snd (body (mkWorld (p :: w_files w) (w_out w))))) ->
   fst (make_temp_file x p body w) = fst (body (mkWorld (p :: w_files w) (w_out w)))).
Proof.
  intros A x p body w HM HU. unfold make_temp_file, unlink_path, mbind, mkstemp. rewrite HM. unfold try_finally, may_fail.
  assert (R : forall (r : res A) w0, ~ In p (w_files (snd (match unlink (f_unlink x) p w0 with (Ok _, w2) => (r, w2) | (Raise e, w2) => (Raise e, w2) end)))).
  { intros r w0. rewrite HU. pose proof (unlink_ok p w0) as U. destruct (unlink None p w0) as [[u|e] w2]; cbn [snd] in *; rewrite U, in_filter_neq; tauto. }
  split.
  - destruct (f_fdopen x); [apply R|]. destruct (body _) as [r w1]. destruct (f_close x); apply R.
  - intros HF HC HI. rewrite HF, HC, HU. destruct (body _) as [r w1]. cbn [fst snd] in *. unfold unlink.
    rewrite (proj2 (existsb_In p (w_files w1)) HI). reflexivity.
Qed.

Theorem transformed_clean : forall A x p transform (body : M A) w, f_mkstemp x = None -> f_unlink x = None ->
  ~ In p (w_files (snd (transformed_at_temp_path x p transform body w))) /\
  (forall e w1, f_fdopen x = None -> transform (mkWorld (p :: w_files w) (w_out w)) = (Raise e, w1) ->
   fst (transformed_at_temp_path x p transform body w) = Raise e) /\
  (forall w1, f_fdopen x = None -> f_write x = None -> transform (mkWorld (p :: w_files w) (w_out w)) = (Ok tt, w1) ->
   fst (transformed_at_temp_path x p transform body w) = fst (body w1)).
Proof.
  intros A x p transform body w HM HU. unfold transformed_at_temp_path.
  match goal with |- context [mkstemp_open x p ?b] => destruct (mkstemp_open_is A x p b w HM) as (E1 & E2 & E3); set (B := b) in * end.
  rewrite HU in E3. cbv zeta in *. repeat split.
  - rewrite E3, in_filter_neq. tauto.
  - intros e w1 HF HT. rewrite E1, HF. subst B. unfold mbind. rewrite HT. reflexivity.
  - intros w1 HF HW HT. rewrite E1, HF. subst B. unfold mbind. rewrite HT, HW. reflexivity.
Qed.

Theorem resources_clean : forall A x p e fetch copy fclose (body : Z -> M A) w, f_mkstemp x = None -> f_unlink x = None ->
  ~ In p (w_files (snd (hwp5_resources_path x p (Raise e) fetch copy fclose body w))).
Proof.
  intros A x p e fetch copy fclose body w HM HU. unfold hwp5_resources_path.
  match goal with |- context [mkstemp_open x p ?b] => destruct (mkstemp_open_is A x p b w HM) as (E1 & E2 & E3) end.
  rewrite E3, HU, in_filter_neq. tauto.
Qed.

Theorem openssl_leak : forall x p plain w, f_mkstemp x = None -> f_unlink x = None -> ~ In p (w_files w) ->
  (In p (w_files (snd (openssl_decrypt x p plain w))) <-> f_fdopen x <> None \/ f_write x <> None \/ f_close x <> None) /\
  (f_fdopen x = None -> f_write x = None -> f_close x = None -> w_files (snd (openssl_decrypt x p plain w)) = w_files w).
Proof.
  intros x p plain w HM HU HN. unfold openssl_decrypt, mbind, mkstemp, try_finally, may_fail, unlink, mret. rewrite HM, HU.
  assert (F : filter (fun q => negb (q =? p)) (p :: w_files w) = w_files w).
  { cbn. rewrite Z.eqb_refl. cbn. rewrite <- (unlink_ok p w). unfold unlink. 
    replace (existsb (Z.eqb p) (w_files w)) with false; [reflexivity|]. symmetry. apply not_true_is_false. now rewrite existsb_In. }
  assert (X : existsb (Z.eqb p) (p :: w_files w) = true) by (cbn; now rewrite Z.eqb_refl).
  destruct (f_fdopen x) as [e1|]; [cbn [snd w_files]; split; [|discriminate]; split; intros _; [left; discriminate|now left]|].
  destruct (f_write x) as [e2|].
  { destruct (f_close x); cbn [snd w_files]; (split; [|discriminate]; split; intros _; [right; left; discriminate|now left]). }
  destruct (f_close x) as [e3|].
  { cbn [snd w_files]; split; [|discriminate]; split; intros _; [right; right; discriminate|now left]. }
  destruct (f_popen x), (f_read x), (f_wait x); cbn [w_files w_out]; rewrite X; cbn [snd w_files]; rewrite F;
    (split; [split; [intros H; now elim HN|intros [H|[H|H]]; now elim H]|reflexivity]).
Qed.

Theorem openssl_result : forall x p plain w, f_mkstemp x = None -> f_fdopen x = None -> f_write x = None -> f_close x = None ->
  f_popen x = None -> f_read x = None -> f_wait x = None -> f_unlink x = None ->
  fst (openssl_decrypt x p plain w) = Ok plain.
Proof.
  intros x p plain w H1 H2 H3 H4 H5 H6 H7 H8. unfold openssl_decrypt, mbind, mkstemp, try_finally, may_fail, unlink, mret.
  rewrite H1, H2, H3, H4, H5, H6, H7, H8. cbn [w_files existsb]. rewrite Z.eqb_refl. reflexivity.
Qed.

(** All or nothing: the real output only ever receives validated data. *)
Theorem validated_output : forall x p valid (body : M (list Z)) w, f_mkstemp x = None -> f_fdopen x = None ->
  let b := body (mkWorld (p :: w_files w) (w_out w)) in
  let r := validating_output x p valid body w in
  w_out (snd r) = match fst b with
                  | Ok written => match valid written with Ok true => w_out (snd b) ++ written | _ => w_out (snd b) end
                  | Raise _ => w_out (snd b)
                  end /\
  (fst r = Ok tt <-> f_close x = None /\ exists written, fst b = Ok written /\ valid written = Ok true) /\
  (f_unlink x = None -> ~ In p (w_files (snd r))).
Proof.
  intros x p valid body w HM HF. cbv zeta. unfold validating_output, mbind, mkstemp, try_finally, swallow, may_fail, write_out, mraise. rewrite HM, HF.
  assert (U : forall w0, w_out (snd (unlink (f_unlink x) p w0)) = w_out w0).
  { intros w0. unfold unlink. destruct (f_unlink x); [reflexivity|]. destruct (existsb _ _); reflexivity. }
  assert (V : forall w0, f_unlink x = None -> ~ In p (w_files (snd (unlink (f_unlink x) p w0)))).
  { intros w0 HU. rewrite HU, unlink_ok, in_filter_neq. tauto. }
  destruct (body _) as [[written|e] w1]; cbn [fst snd].
  - destruct (valid written) as [[|]|e] eqn:EV; destruct (f_close x); cbn [fst snd]; rewrite U; (split; [reflexivity|]); (split; [|auto]); split; try discriminate.
    + intros [H _]; discriminate.
    + intros _. split; [reflexivity|]. exists written. auto.
    + auto.
    + intros [H _]; discriminate.
    + intros [_ (v & E & E')]. injection E as <-. congruence.
    + intros [H _]; discriminate.
    + intros [_ (v & E & E')]. injection E as <-. congruence.
  - destruct (f_close x); cbn [fst snd]; rewrite U; (split; [reflexivity|]); (split; [|auto]); split; try discriminate; intros [_ (v & E & _)]; discriminate.
Qed.

(** ** Filters *)

Lemma number_app : forall A (l l' : list A) i, number i (l ++ l') = number i l ++ number (i + zlen l) l'.
Proof.
  induction l as [|x l IH]; intros l' i; cbn [app number].
  - rewrite zlen_nil, Z.add_0_r. reflexivity.
  - rewrite IH, zlen_cons. do 3 f_equal. lia.
Qed.

Lemma unwind_snoc : forall l i leave x, unwind (l ++ [(i, leave)]) x =
  (fst (unwind l x) ++ [Left i (snd (unwind l x))], leave (snd (unwind l x))).
Proof.
  induction l as [|[j lv] l IH]; intros i leave x; [reflexivity|]. cbn [app unwind].
  rewrite IH. destruct (unwind l (lv x)). reflexivity.
Qed.

Theorem cascade_is : forall filters i arg body, exists args leaves out rest mid x0,
  enters filters arg args leaves out rest /\
  (rest = [] /\ mid = BodyRun out /\ x0 = body out \/
   exists flt rest' e, rest = flt :: rest' /\ flt out = FFail e /\ mid = EnterFailed (i + zlen args) e /\ x0 = Some e) /\
  fst (cascade i filters arg body) =
    map (fun p => Entered (fst p) (snd p)) (number i args) ++ [mid] ++ fst (unwind (rev (number i leaves)) x0) /\
  snd (cascade i filters arg body) = snd (unwind (rev (number i leaves)) x0).
Proof.
  induction filters as [|flt filters IH]; intros i arg body.
  - exists [], [], arg, [], (BodyRun arg), (body arg). split; [constructor|]. split; [left; auto|]. split; reflexivity.
  - cbn [cascade]. destruct (flt arg) as [e|ret leave] eqn:EF.
    + exists [], [], arg, (flt :: filters), (EnterFailed i e), (Some e). split; [constructor|]. split; [|split; reflexivity].
      right. exists flt, filters, e. rewrite zlen_nil, Z.add_0_r. auto.
    + destruct (IH (i + 1) ret body) as (args & leaves & out & rest & mid & x0 & H1 & H2 & H3 & H4).
      exists (arg :: args), (leave :: leaves), out, rest, mid, x0. split; [econstructor; eassumption|]. split.
      * destruct H2 as [H2|(g & r' & e & A & B & C & D)]; [now left|right]. exists g, r', e. rewrite zlen_cons. 
        replace (i + (1 + zlen args)) with (i + 1 + zlen args) by lia. auto.
      * destruct (cascade (i + 1) filters ret body) as [t x] eqn:EC. cbn [fst snd] in *. cbn [number rev map].
        rewrite unwind_snoc. cbn [fst snd]. rewrite <- H4, H3. cbn [app]. rewrite <- !app_assoc. split; reflexivity.
Qed.

Lemma enters_lengths : forall fs a args leaves out rest, enters fs a args leaves out rest -> zlen args = zlen leaves.
Proof. induction 1; [reflexivity|]. rewrite !zlen_cons. lia. Qed.

Lemma number_fst : forall A B (l : list A) (l' : list B) i, zlen l = zlen l' -> map fst (number i l) = map fst (number i l').
Proof.
  induction l as [|x l IH]; intros [|y l'] i H; rewrite ?zlen_cons, ?zlen_nil in H; try (pose proof (zlen_nonneg _ l)); try (pose proof (zlen_nonneg _ l')); try lia; [reflexivity|].
  cbn. f_equal. apply IH. lia.
Qed.

Lemma left_ids_unwind : forall l x, left_ids (fst (unwind l x)) = map fst l /\ entered_ids (fst (unwind l x)) = [].
Proof.
  induction l as [|[i lv] l IH]; intros x; [split; reflexivity|]. cbn [unwind]. specialize (IH (lv x)). destruct (unwind l (lv x)) as [t y].
  cbn [fst] in *. destruct IH as [A B]. cbn. split; [f_equal; exact A|exact B].
Qed.

Lemma entered_ids_map : forall l, entered_ids (map (fun p => Entered (fst p) (snd p)) l) = map fst l /\ left_ids (map (fun p => Entered (fst p) (snd p)) l) = [].
Proof. induction l as [|[i a] l [A B]]; [split; reflexivity|]. cbn. split; [f_equal; exact A|exact B]. Qed.

Lemma ids_app : forall a b, entered_ids (a ++ b) = entered_ids a ++ entered_ids b /\ left_ids (a ++ b) = left_ids a ++ left_ids b.
Proof. intros. unfold entered_ids, left_ids. rewrite !flat_map_app. auto. Qed.

Theorem released_in_reverse : forall filters arg body,
  let t := fst (cascade 0 filters arg body) in left_ids t = rev (entered_ids t) /\ NoDup (entered_ids t).
Proof.
  intros filters arg body. destruct (cascade_is filters 0 arg body) as (args & leaves & out & rest & mid & x0 & H1 & H2 & H3 & _).
  cbv zeta. rewrite H3. destruct (ids_app (map (fun p => Entered (fst p) (snd p)) (number 0 args)) ([mid] ++ fst (unwind (rev (number 0 leaves)) x0))) as [A B].
  destruct (ids_app [mid] (fst (unwind (rev (number 0 leaves)) x0))) as [C D]. rewrite A, B, C, D.
  destruct (entered_ids_map (number 0 args)) as [E F]. destruct (left_ids_unwind (rev (number 0 leaves)) x0) as [G H].
  assert (M : entered_ids [mid] = [] /\ left_ids [mid] = []) by (destruct H2 as [(_ & -> & _)|(? & ? & ? & _ & _ & -> & _)]; split; reflexivity).
  destruct M as [M1 M2]. rewrite E, F, G, H, M1, M2. cbn [app]. rewrite app_nil_r. split.
  - rewrite map_rev. f_equal. apply number_fst. symmetry. eapply enters_lengths. eassumption.
  - clear. generalize 0. induction args as [|a args IH]; intros i; cbn [number map]; constructor; [|apply IH].
    assert (L : forall (l : list Z) j x, In x (map fst (number j l)) -> j <= x).
    { clear. induction l as [|y l IH]; intros j x Hx; [contradiction|]. destruct Hx as [<-|Hx]; [cbn; lia|]. apply IH in Hx. lia. }
    intros Hin. apply L in Hin. cbn in Hin. lia.
Qed.

Theorem wrap_is_cascade : forall open_dest wrappers body,
  wrap_open_dest open_dest wrappers body = cascade 0 (open_dest :: wrappers) 0 body.
Proof. intros. unfold wrap_open_dest. cbn [cascade]. destruct (open_dest 0); reflexivity. Qed.

Theorem wrap_tty_is : forall isatty open_dest wrappers body out leave, open_dest 0 = FYield out leave ->
  wrap_open_dest_for_tty isatty open_dest wrappers body = cascade 0 (open_dest :: (if isatty out then wrappers else [])) 0 body.
Proof. intros isatty open_dest wrappers body out leave H. unfold wrap_open_dest_for_tty. cbn [cascade]. rewrite H. destruct (isatty out); reflexivity. Qed.
