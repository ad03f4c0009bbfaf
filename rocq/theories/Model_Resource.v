(** Model of cached properties, temporary files and cascaded output filters:
    src/hwp5/utils.py, src/hwp5/plat/__init__.py, src/hwp5/plat/_lxml.py,
    src/hwp5/transforms/__init__.py, src/hwp5/hwp5odt.py. *)
From Coq Require Import ZArith String List Bool.
From Verif Require Import Base.
Import ListNotations.
Open Scope string_scope.
Open Scope list_scope.
Open Scope Z_scope.

(** ** Cached properties *)

(** Values that attributes can hold: plain data and callables (bound methods of
    the same object are not stored in it). *)
Inductive pyval := VData (n : Z) | VCallable (n : Z).
(** What an attribute lookup gives: a value or a method of the object. *)
Inductive aval := AV (v : pyval) | ABound (f : string).

(** Class attributes that matter: [Cached f] is [cached_property(f)], [Method]
    a function defined under its attribute name. *)
Inductive attr := Cached (f : string) | Method.
Definition cls : Type := list (string * attr).

Fixpoint assoc {A} (k : string) (l : list (string * A)) : option A :=
  match l with [] => None | (k', v) :: t => if String.eqb k k' then Some v else assoc k t end.

(** An object: its [__dict__] (latest binding first) and, for the theorems, the
    functions called so far. *)
Record obj := mkObj { o_dict : list (string * pyval); o_calls : list string }.
Definition fresh_obj : obj := mkObj [] [].

Fixpoint ncalls (f : string) (l : list string) : nat :=
  match l with [] => O | g :: t => if String.eqb f g then S (ncalls f t) else ncalls f t end.

Inductive aop := AGet (name : string) | ACall (name : string) | ASet (name : string) (v : pyval).

Section Cached.
  (** What the n-th call of a function answers; arbitrary, may fail. Function
      bodies are opaque: the accesses they make to other properties are listed
      in the history before the access that triggered them. *)
  Variable answer : string -> nat -> res pyval.
  (** What calling a callable value answers. *)
  Variable apply : Z -> res pyval.
  Variable c : cls.

  Definition call_function (f : string) (o : obj) : res pyval * obj :=
    (answer f (ncalls f (o_calls o)), mkObj (o_dict o) (f :: o_calls o)).

  (** utils.py 51-58 [cached_property.__get__] on an instance. *)
  Definition cached_get (f : string) (o : obj) : res pyval * obj :=
    match assoc f (o_dict o) with
    | Some v => (Ok v, o)
    | None =>
        match call_function f o with
        | (Ok v, o1) => (Ok v, mkObj ((f, v) :: o_dict o1) (o_calls o1))
        | (Raise e, o1) => (Raise e, o1)
        end
    end.

  (** utils.py 60-61 [cached_property.__set__] *)
  Definition cached_set (f : string) (v : pyval) (o : obj) : obj := mkObj ((f, v) :: o_dict o) (o_calls o).

  (** Python attribute lookup: a class attribute with [__set__] wins over the
      instance dictionary, which wins over a plain function. *)
  Definition py_getattr (name : string) (o : obj) : res aval * obj :=
    match assoc name c with
    | Some (Cached f) => match cached_get f o with (Ok v, o1) => (Ok (AV v), o1) | (Raise e, o1) => (Raise e, o1) end
    | a =>
        match assoc name (o_dict o) with
        | Some v => (Ok (AV v), o)
        | None => match a with Some Method => (Ok (ABound name), o) | _ => (Raise AttributeError, o) end
        end
    end.

  (** Calling what a lookup gave. *)
  Definition py_call (v : aval) (o : obj) : res pyval * obj :=
    match v with
    | AV (VData _) => (Raise TypeError, o)
    | AV (VCallable n) => (apply n, o)
    | ABound f => call_function f o
    end.

  Definition aop_step (op : aop) (o : obj) : res aval * obj :=
    match op with
    | AGet name => py_getattr name o
    | ACall name =>
        match py_getattr name o with
        | (Ok v, o1) => match py_call v o1 with (Ok w, o2) => (Ok (AV w), o2) | (Raise e, o2) => (Raise e, o2) end
        | (Raise e, o1) => (Raise e, o1)
        end
    | ASet name v =>
        match assoc name c with
        | Some (Cached f) => (Ok (AV v), cached_set f v o)
        | _ => (Ok (AV v), mkObj ((name, v) :: o_dict o) (o_calls o))
        end
    end.

  (** A history of accesses; an exception does not end it. *)
  Fixpoint aop_run (ops : list aop) (o : obj) : obj :=
    match ops with [] => o | op :: rest => aop_run rest (snd (aop_step op o)) end.
End Cached.

(** The classes that use [cached_property]: plat/olefileio.py 89;
    filestructure.py 205, 308, 318, 381-396, 438, 445, 577-593; hwp5odt.py 84,
    153-171; hwp5html.py 82, 90; hwp5txt.py 60. *)
Definition cls_OleStorageItem : cls := [("get_name", Method); ("name", Cached "get_name")].
Definition cls_Hwp5FileBase : cls := [("get_fileheader", Method); ("fileheader", Cached "get_fileheader"); ("header", Cached "get_fileheader")].
Definition cls_PreviewText : cls := [("get_utf8", Method); ("utf8", Cached "get_utf8"); ("get_text", Method); ("text", Cached "get_text")].
Definition cls_HwpFileHeader : cls :=
  [("to_dict", Method); ("value", Cached "to_dict"); ("get_version", Method); ("version", Cached "get_version");
   ("get_signature", Method); ("signature", Cached "get_signature"); ("get_flags", Method); ("flags", Cached "get_flags")].
Definition cls_HwpSummaryInfo : cls :=
  [("getPropertySetStream", Method); ("propertySetStream", Cached "getPropertySetStream");
   ("getHwpSummaryInfoPropertySet", Method); ("propertySet", Cached "getHwpSummaryInfoPropertySet")].
Definition cls_Hwp5File : cls :=
  [("summaryinfo", Cached "summaryinfo"); ("docinfo", Cached "docinfo"); ("preview_text", Cached "preview_text");
   ("bodytext", Cached "bodytext"); ("viewtext", Cached "viewtext")].

(** ** Temporary files *)

(** The paths that exist, and what was written to the real output. *)
Record world := mkWorld { w_files : list Z; w_out : list Z }.
Definition M (A : Type) : Type := world -> res A * world.

Definition mret {A} (a : A) : M A := fun w => (Ok a, w).
Definition mraise {A} (e : exn) : M A := fun w => (Raise e, w).
Definition mbind {A B} (m : M A) (k : A -> M B) : M B :=
  fun w => match m w with (Ok a, w1) => k a w1 | (Raise e, w1) => (Raise e, w1) end.
(** Python's [try: a finally: f]: an exception of [f] replaces the outcome. *)
Definition try_finally {A} (a : M A) (f : M unit) : M A :=
  fun w => let (r, w1) := a w in
           match f w1 with (Ok _, w2) => (r, w2) | (Raise e, w2) => (Raise e, w2) end.
(** [try: m except Exception: pass] (possibly logging). *)
Definition swallow (m : M unit) : M unit := fun w => (Ok tt, snd (m w)).
(** A library call that may fail. *)
Definition may_fail (f : option exn) : M unit := fun w => match f with None => (Ok tt, w) | Some e => (Raise e, w) end.

(** tempfile.mkstemp creates a new file, or fails without creating it. *)
Definition mkstemp (f : option exn) (p : Z) : M unit :=
  fun w => match f with None => (Ok tt, mkWorld (p :: w_files w) (w_out w)) | Some e => (Raise e, w) end.
(** os.unlink removes the file; it fails when the file is not there. *)
Definition unlink (f : option exn) (p : Z) : M unit :=
  fun w => match f with
           | Some e => (Raise e, w)
           | None => if existsb (Z.eqb p) (w_files w)
                     then (Ok tt, mkWorld (filter (fun q => negb (q =? p)) (w_files w)) (w_out w))
                     else (Raise IOError, w)
           end.

(** Which library calls fail. *)
Record faults := mkFaults { f_mkstemp : option exn; f_fdopen : option exn; f_write : option exn; f_close : option exn;
                            f_unlink : option exn; f_popen : option exn; f_read : option exn; f_wait : option exn }.

(** utils.py 393-413 [mkstemp_open] with the body of the [with] statement, and
    416-421 [unlink_or_warning]. *)
Definition mkstemp_open {A} (x : faults) (p : Z) (body : M A) : M A :=
  mbind (mkstemp (f_mkstemp x) p) (fun _ =>
    try_finally
      (mbind (may_fail (f_fdopen x)) (fun _ => try_finally body (swallow (may_fail (f_close x)))))
      (swallow (unlink (f_unlink x) p))).

(** utils.py 373-379 [unlink_path] *)
Definition unlink_path {A} (x : faults) (p : Z) (body : M A) : M A := try_finally body (unlink (f_unlink x) p).

(** utils.py 365-370 [make_temp_file] *)
Definition make_temp_file {A} (x : faults) (p : Z) (body : M A) : M A :=
  mbind (mkstemp (f_mkstemp x) p) (fun _ =>
    unlink_path x p (mbind (may_fail (f_fdopen x)) (fun _ => try_finally body (may_fail (f_close x))))).

(** hwp5odt.py 234-240 [transformed_at_temp_path]; transforms/__init__.py 57-61
    [transformed_xhwp5_at_temp] has the same shape. *)
Definition transformed_at_temp_path {A} (x : faults) (p : Z) (transform : M unit) (body : M A) : M A :=
  mkstemp_open x p (mbind transform (fun _ => mbind (may_fail (f_write x)) (fun _ => body))).

(** utils.py 223-240 [hwp5_resources_path]: [lookup] is the file name of the
    resource, [fetch] opens the resource stream, [copy] copies and closes. *)
Definition hwp5_resources_path {A} (x : faults) (p : Z) (lookup : res Z) (fetch copy : M unit) (fclose : M unit) (body : Z -> M A) : M A :=
  match lookup with
  | Ok path => body path
  | Raise _ => mkstemp_open x p (mbind fetch (fun _ => try_finally (mbind copy (fun _ => body p)) fclose))
  end.

(** plat/__init__.py 159-186, the openssl fallback of AES decryption. *)
Definition openssl_decrypt (x : faults) (p : Z) (plain : list Z) : M (list Z) :=
  mbind (mkstemp (f_mkstemp x) p) (fun _ =>
  mbind (may_fail (f_fdopen x)) (fun _ =>
  mbind (try_finally (may_fail (f_write x)) (may_fail (f_close x))) (fun _ =>
    try_finally
      (mbind (may_fail (f_popen x)) (fun _ =>
         try_finally (mbind (may_fail (f_read x)) (fun _ => mret plain)) (may_fail (f_wait x))))
      (unlink (f_unlink x) p)))).

(** plat/_lxml.py 138-153 [RelaxNG.validating_output]: [body] answers what was
    written to the temporary file; [valid] is the validator's answer on it. The
    copy to the real output is one step. *)
Definition write_out (b : list Z) : M unit := fun w => (Ok tt, mkWorld (w_files w) (w_out w ++ b)).
Definition validating_output (x : faults) (p : Z) (valid : list Z -> res bool) (body : M (list Z)) : M unit :=
  mbind (mkstemp (f_mkstemp x) p) (fun _ =>
    try_finally
      (mbind (may_fail (f_fdopen x)) (fun _ =>
         try_finally
           (mbind body (fun written =>
            match valid written with
            | Raise e => mraise e
            | Ok false => mraise ValueError
            | Ok true => write_out written
            end))
           (may_fail (f_close x))))
      (swallow (unlink (f_unlink x) p))).

(** ** Cascaded output filters *)

(** A filter called with an output either fails or yields another output; its
    part after the yield maps the exception thrown in (if any) to the
    exception that leaves it. *)
Inductive filter_start := FFail (e : exn) | FYield (out : Z) (leave : option exn -> option exn).
Definition cfilter : Type := Z -> filter_start.

Inductive tevent :=
| Entered (i : Z) (arg : Z)
| EnterFailed (i : Z) (e : exn)
| BodyRun (arg : Z)
| Left (i : Z) (seen : option exn).

(** utils.py 284-293 [cascade_contextmanager_filters], [i] numbering the
    filters; the trace and the exception that leaves the whole. *)
Fixpoint cascade (i : Z) (filters : list cfilter) (arg : Z) (body : Z -> option exn) : list tevent * option exn :=
  match filters with
  | [] => ([BodyRun arg], body arg)
  | flt :: rest =>
      match flt arg with
      | FFail e => ([EnterFailed i e], Some e)
      | FYield ret leave =>
          let (t, x) := cascade (i + 1) rest ret body in
          (Entered i arg :: t ++ [Left i x], leave x)
      end
  end.

(** utils.py 276-282 [wrap_open_dest] and 263-273 [wrap_open_dest_for_tty];
    opening the destination is itself a context manager. *)
Definition wrap_open_dest (open_dest : cfilter) (wrappers : list cfilter) (body : Z -> option exn) : list tevent * option exn :=
  match open_dest 0 with
  | FFail e => ([EnterFailed 0 e], Some e)
  | FYield output leave =>
      let (t, x) := cascade 1 wrappers output body in (Entered 0 0 :: t ++ [Left 0 x], leave x)
  end.
Definition wrap_open_dest_for_tty (isatty : Z -> bool) (open_dest : cfilter) (wrappers : list cfilter) (body : Z -> option exn) : list tevent * option exn :=
  match open_dest 0 with
  | FFail e => ([EnterFailed 0 e], Some e)
  | FYield output leave =>
      let (t, x) := if isatty output then cascade 1 wrappers output body else ([BodyRun output], body output) in
      (Entered 0 0 :: t ++ [Left 0 x], leave x)
  end.

(** utils.py 300-322 [output_thru_subprocess]: [popen] starts the process on
    an output and gives its stdin; [epipe] recognises a broken pipe. The part
    after the yield also says whether the process was waited for. *)
Inductive pevent := StdinClosed | Waited.
Definition subprocess_leave (epipe : exn -> bool) (close_fault : option exn) (x : option exn) : option exn * list pevent :=
  let x1 := match x with Some e => if epipe e then None else Some e | None => None end in
  match close_fault with
  | Some e => (Some e, [])
  | None => (x1, [StdinClosed; Waited])
  end.
Definition output_thru_subprocess (popen : Z -> option Z) (epipe : exn -> bool) (close_fault : option exn) : cfilter :=
  fun output => match popen output with
                | None => FYield output (fun x => x)
                | Some stdin => FYield stdin (fun x => fst (subprocess_leave epipe close_fault x))
                end.
