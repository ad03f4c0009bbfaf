(** C42, C43, C58 and C61: cached properties, temporary files, output filters,
    validated output. *)
From Coq Require Import ZArith String List Bool Lia.
From Verif Require Import Base BaseFacts Model_Resource Spec_Resource Proof_Resource.
Import ListNotations.
Open Scope string_scope.
Open Scope list_scope.
Open Scope Z_scope.

(** ** C42 *)

(** Whatever happened before (o is arbitrary) and whatever is accessed after a
    successful access (except assignments to the property itself), the property
    gives the same value without calling its function or changing the object. *)
Theorem C42_first_value_kept : forall answer apply c p f o v o1 ops, assoc p c = Some (Cached f) ->
  aop_step answer apply c (AGet p) o = (Ok v, o1) ->
  Forall (fun op => ~ assigns c f op) ops ->
  aop_step answer apply c (AGet p) (aop_run answer apply c ops o1) = (Ok v, aop_run answer apply c ops o1) /\
  ncalls f (o_calls (aop_run answer apply c ops o1)) = ncalls f (o_calls o1).
Proof. exact cached_once. Qed.
Print Assumptions C42_first_value_kept.

(** In every history of attribute reads, a function that does not fail is
    called at most once. *)
Theorem C42_called_at_most_once : forall answer apply c f ops,
  Forall (fun op => match op with AGet _ => True | _ => False end) ops ->
  (forall n, exists v, answer f n = Ok v) ->
  (ncalls f (o_calls (aop_run answer apply c ops fresh_obj)) <= 1)%nat.
Proof. intros answer apply c f ops H1 H2. exact (assigned_only answer apply c f ops fresh_obj H1 H2 (fun _ => eq_refl) (Nat.le_0_l 1)). Qed.
Print Assumptions C42_called_at_most_once.

(** Nothing remembered: the function is called; a failure is not remembered. *)
Theorem C42_first_access_calls : forall answer apply c p f o, assoc p c = Some (Cached f) -> assoc f (o_dict o) = None ->
  exists o1, aop_step answer apply c (AGet p) o =
    (match answer f (ncalls f (o_calls o)) with Ok w => Ok (AV w) | Raise e => Raise e end, o1) /\
  ncalls f (o_calls o1) = S (ncalls f (o_calls o)) /\
  (forall e, answer f (ncalls f (o_calls o)) = Raise e -> assoc f (o_dict o1) = None).
Proof. exact first_get_calls. Qed.
Print Assumptions C42_first_access_calls.

Theorem C42_assigned_value : forall answer apply c p f v o, assoc p c = Some (Cached f) ->
  fst (aop_step answer apply c (AGet p) (snd (aop_step answer apply c (ASet p v) o))) = Ok (AV v).
Proof. exact set_then_get. Qed.
Print Assumptions C42_assigned_value.

(** A separately named method works before the property is read and is broken
    for good afterwards. *)
Theorem C42_method_works_before : forall answer apply c f o, assoc f c = Some Method -> assoc f (o_dict o) = None ->
  fst (aop_step answer apply c (ACall f) o) = match answer f (ncalls f (o_calls o)) with Ok w => Ok (AV w) | Raise e => Raise e end.
Proof. exact method_works_before. Qed.
Print Assumptions C42_method_works_before.

Theorem C42_method_broken_after : forall answer apply c p f o n o1 ops, assoc p c = Some (Cached f) -> assoc f c = Some Method ->
  aop_step answer apply c (AGet p) o = (Ok (AV (VData n)), o1) -> Forall (fun op => ~ assigns c f op) ops ->
  fst (aop_step answer apply c (ACall f) (aop_run answer apply c ops o1)) = Raise TypeError.
Proof. exact method_broken. Qed.
Print Assumptions C42_method_broken_after.

(** The classes of the program with a separately named method. *)
Example C42_case :
  let answer := fun (f : string) n => Ok (VData (if String.eqb f "get_text" then 1 + Z.of_nat n else 2)) in
  let apply := fun n => Ok (VData n) in
  map (fun op => fst (aop_step answer apply cls_PreviewText op (aop_run answer apply cls_PreviewText [AGet "utf8"] fresh_obj)))
      [AGet "text"; ACall "get_text"; AGet "utf8"; ACall "get_utf8"]
  = [Ok (AV (VData 1)); Ok (AV (VData 1)); Ok (AV (VData 2)); Raise TypeError] /\
  (forall c, In c [cls_OleStorageItem; cls_Hwp5FileBase; cls_PreviewText; cls_HwpFileHeader; cls_HwpSummaryInfo] ->
     exists p f, assoc p c = Some (Cached f) /\ assoc f c = Some Method) /\
  (forall p f, assoc p cls_Hwp5File = Some (Cached f) -> p = f /\ assoc f cls_Hwp5File <> Some Method).
Proof.
  split; [vm_compute; reflexivity|]. split.
  - intros c [<-|[<-|[<-|[<-|[<-|[]]]]]].
    + exists "name", "get_name". split; reflexivity.
    + exists "header", "get_fileheader". split; reflexivity.
    + exists "text", "get_text". split; reflexivity.
    + exists "value", "to_dict". split; reflexivity.
    + exists "propertySet", "getHwpSummaryInfoPropertySet". split; reflexivity.
  - intros p f H. unfold cls_Hwp5File in H. cbn [assoc] in H.
    repeat match type of H with context [if String.eqb p ?s then _ else _] => destruct (String.eqb p s) eqn:?E; [apply String.eqb_eq in E; injection H as <-; subst p; split; [reflexivity|discriminate]|clear E] end.
    discriminate.
Qed.

(** ** C43 *)

(** Whatever the body does and however it ends: its outcome is passed on
    unchanged, the temporary file is gone, all other files are as the body left
    them. Faults of closing are hidden, a fault of the removal leaves the file
    but is hidden too. *)
Theorem C43_mkstemp_open : forall A x p (body : M A) w, f_mkstemp x = None ->
  let inner := match f_fdopen x with Some e => (Raise e, mkWorld (p :: w_files w) (w_out w)) | None => body (mkWorld (p :: w_files w) (w_out w)) end in
  fst (mkstemp_open x p body w) = fst inner /\
  w_out (snd (mkstemp_open x p body w)) = w_out (snd inner) /\
  w_files (snd (mkstemp_open x p body w)) =
    match f_unlink x with
    | None => filter (fun q => negb (q =? p)) (w_files (snd inner))
    | Some _ => w_files (snd inner)
    end.
Proof. exact mkstemp_open_is. Qed.
Print Assumptions C43_mkstemp_open.

Theorem C43_make_temp_file : forall A x p (body : M A) w, f_mkstemp x = None -> f_unlink x = None ->
  ~ In p (w_files (snd (make_temp_file x p body w))) /\
  (f_fdopen x = None -> f_close x = None -> In p (w_files (snd (body (mkWorld (p :: w_files w) (w_out w))))) ->
   fst (make_temp_file x p body w) = fst (body (mkWorld (p :: w_files w) (w_out w)))).
Proof. exact make_temp_file_clean. Qed.
Print Assumptions C43_make_temp_file.

(** A conversion step: removed always, the first failure is the one reported. *)
Theorem C43_conversion_step : forall A x p transform (body : M A) w, f_mkstemp x = None -> f_unlink x = None ->
  ~ In p (w_files (snd (transformed_at_temp_path x p transform body w))) /\
  (forall e w1, f_fdopen x = None -> transform (mkWorld (p :: w_files w) (w_out w)) = (Raise e, w1) ->
   fst (transformed_at_temp_path x p transform body w) = Raise e) /\
  (forall w1, f_fdopen x = None -> f_write x = None -> transform (mkWorld (p :: w_files w) (w_out w)) = (Ok tt, w1) ->
   fst (transformed_at_temp_path x p transform body w) = fst (body w1)).
Proof. exact transformed_clean. Qed.
Print Assumptions C43_conversion_step.

Theorem C43_resource_copy : forall A x p e fetch copy fclose (body : Z -> M A) w, f_mkstemp x = None -> f_unlink x = None ->
  ~ In p (w_files (snd (hwp5_resources_path x p (Raise e) fetch copy fclose body w))).
Proof. exact resources_clean. Qed.
Print Assumptions C43_resource_copy.

(** The openssl fallback leaks its file exactly when opening, writing or
    closing the input file fails. *)
Theorem C43_openssl_leak : forall x p plain w, f_mkstemp x = None -> f_unlink x = None -> ~ In p (w_files w) ->
  (In p (w_files (snd (openssl_decrypt x p plain w))) <-> f_fdopen x <> None \/ f_write x <> None \/ f_close x <> None) /\
  (f_fdopen x = None -> f_write x = None -> f_close x = None -> w_files (snd (openssl_decrypt x p plain w)) = w_files w).
Proof. exact openssl_leak. Qed.
Print Assumptions C43_openssl_leak.

Definition no_faults : faults := mkFaults None None None None None None None None.
Definition write_fault : faults := mkFaults None None (Some IOError) None None None None None.

Example C43_case :
  let w := mkWorld [1; 2] [] in
  mkstemp_open no_faults 9 (fun w => (Raise (A := unit) KeyError, mkWorld (3 :: w_files w) (w_out w))) w = (Raise KeyError, mkWorld [3; 1; 2] []) /\
  openssl_decrypt no_faults 9 [7] w = (Ok [7], w) /\
  openssl_decrypt write_fault 9 [7] w = (Raise IOError, mkWorld [9; 1; 2] []).
Proof. repeat split. Qed.

(** ** C58 *)

(** Filters are entered in order, each with the output of the one before, until
    all are entered and the body runs, or one fails; then exactly the entered
    ones are left, innermost first, each seeing the exception that left the one
    inside; what leaves the outermost is the result. *)
Theorem C58_cascade : forall filters i arg body, exists args leaves out rest mid x0,
  enters filters arg args leaves out rest /\
  (rest = [] /\ mid = BodyRun out /\ x0 = body out \/
   exists flt rest' e, rest = flt :: rest' /\ flt out = FFail e /\ mid = EnterFailed (i + zlen args) e /\ x0 = Some e) /\
  fst (cascade i filters arg body) =
    map (fun p => Entered (fst p) (snd p)) (number i args) ++ [mid] ++ fst (unwind (rev (number i leaves)) x0) /\
  snd (cascade i filters arg body) = snd (unwind (rev (number i leaves)) x0).
Proof. exact cascade_is. Qed.
Print Assumptions C58_cascade.

Theorem C58_reverse_once : forall filters arg body,
  let t := fst (cascade 0 filters arg body) in left_ids t = rev (entered_ids t) /\ NoDup (entered_ids t).
Proof. exact released_in_reverse. Qed.
Print Assumptions C58_reverse_once.

(** Wrapping a destination is a cascade that starts with the destination. *)
Theorem C58_wrapped_destination : forall open_dest wrappers body,
  wrap_open_dest open_dest wrappers body = cascade 0 (open_dest :: wrappers) 0 body.
Proof. exact wrap_is_cascade. Qed.
Print Assumptions C58_wrapped_destination.

Theorem C58_terminal_only : forall isatty open_dest wrappers body out leave, open_dest 0 = FYield out leave ->
  wrap_open_dest_for_tty isatty open_dest wrappers body = cascade 0 (open_dest :: (if isatty out then wrappers else [])) 0 body.
Proof. exact wrap_tty_is. Qed.
Print Assumptions C58_terminal_only.

(** A subprocess filter hides exactly broken pipes and falls back to the plain
    output when the command cannot be started; when closing its input fails
    the process is not waited for. *)
Theorem C58_subprocess : forall popen epipe output,
  (popen output = None -> exists leave, output_thru_subprocess popen epipe None output = FYield output leave /\ forall x, leave x = x) /\
  (forall stdin, popen output = Some stdin ->
     exists leave, output_thru_subprocess popen epipe None output = FYield stdin leave /\ leave None = None /\
       forall e, leave (Some e) = if epipe e then None else Some e) /\
  (forall x, snd (subprocess_leave epipe None x) = [StdinClosed; Waited]) /\
  (forall x e, subprocess_leave epipe (Some e) x = (Some e, [])).
Proof.
  intros popen epipe output. unfold output_thru_subprocess. repeat split.
  - intros H. rewrite H. eexists. split; [reflexivity|]. reflexivity.
  - intros stdin H. rewrite H. eexists. split; [reflexivity|]. split; reflexivity.
Qed.
Print Assumptions C58_subprocess.

Example C58_case :
  let ok := fun n : Z => (fun a : Z => FYield (a * 10 + n) (fun x => x)) in
  let hide := fun a : Z => FYield (a + 1) (fun _ => None) in
  let bad := fun _ : Z => FFail IOError in
  cascade 0 [ok 1; hide; ok 3] 5 (fun _ => Some KeyError) =
    ([Entered 0 5; Entered 1 51; Entered 2 52; BodyRun 523; Left 2 (Some KeyError); Left 1 (Some KeyError); Left 0 None], None) /\
  cascade 0 [ok 1; bad; ok 3] 5 (fun _ => None) = ([Entered 0 5; EnterFailed 1 IOError; Left 0 (Some IOError)], Some IOError).
Proof. split; vm_compute; reflexivity. Qed.

(** ** C61 *)

(** The output of a validated conversion receives the complete converted data
    when it validates, and nothing otherwise. *)
Theorem C61_all_or_nothing : forall x p valid (body : M (list Z)) w, f_mkstemp x = None -> f_fdopen x = None ->
  let b := body (mkWorld (p :: w_files w) (w_out w)) in
  let r := validating_output x p valid body w in
  w_out (snd r) = match fst b with
                  | Ok written => match valid written with Ok true => w_out (snd b) ++ written | _ => w_out (snd b) end
                  | Raise _ => w_out (snd b)
                  end /\
  (fst r = Ok tt <-> f_close x = None /\ exists written, fst b = Ok written /\ valid written = Ok true) /\
  (f_unlink x = None -> ~ In p (w_files (snd r))).
Proof. exact validated_output. Qed.
Print Assumptions C61_all_or_nothing.

Example C61_case :
  let w := mkWorld [1] [] in
  let valid := fun b : list Z => Ok (zlen b =? 2) in
  validating_output no_faults 9 valid (fun w => (Ok [5; 6], w)) w = (Ok tt, mkWorld [1] [5; 6]) /\
  validating_output no_faults 9 valid (fun w => (Ok [5], w)) w = (Raise ValueError, w) /\
  validating_output no_faults 9 valid (fun w => (Raise KeyError, w)) w = (Raise KeyError, w).
Proof. repeat split. Qed.
