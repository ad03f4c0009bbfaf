(** The converters hwp5html and hwp5txt and what they leave in the file system:
    src/hwp5/hwp5html.py 76-156, 200-206, src/hwp5/hwp5txt.py 72-94, and
    utils.py [make_open_dest_file].  The file system is that of Model_Storage;
    temporary files (C43) are not part of it. *)
From Coq Require Import ZArith String List Bool.
From Verif Require Import Base Model_Text Model_Storage Model_Filestructure.
Import ListNotations.
Open Scope Z_scope.

(** How a command ends: with an exit status, or by an exception. *)
Inductive ending : Type := Exit (code : Z) | Raised (e : exn).
(** hwp5html.py 145-154, hwp5txt.py 85-94: a ParseError is logged,
    InvalidHwp5FileError is logged and ends with status 1. *)
Definition handled (r : res unit) : ending :=
  match r with
  | Ok _ => Exit 0
  | Raise (ParseError _ _) => Exit 0
  | Raise (OtherError 2) => Exit 1                                (* InvalidHwp5File *)
  | Raise e => Raised e
  end.

(** One step after the other; the first that raises ends it. *)
Definition fthen (r : fs * res unit) (k : fs -> fs * res unit) : fs * res unit :=
  match r with (f, Ok _) => k f | (f, Raise e) => (f, Raise e) end.

(** shutil.rmtree: everything below the directory and the directory.  A path
    whose last part is [.] or [..], or that is the root, cannot be removed, but
    what is below is gone by then. *)
Fixpoint is_prefix (a b : list name) : bool :=
  match a, b with
  | [], _ => true
  | _ :: _, [] => false
  | x :: a', y :: b' => name_eqb x y && is_prefix a' b'
  end.
Definition last_part (p : name) : name := last (filter (fun s => negb (name_eqb s [])) (split_slash p)) [].
Definition fs_rmtree (f : fs) (cwd : list name) (p : name) : fs * res unit :=
  match fs_resolve f cwd p with
  | Raise e => (f, Raise e)
  | Ok q =>
      if is_dir f q then
        if name_eqb (last_part p) [] || name_eqb (last_part p) (zs ".") || name_eqb (last_part p) (zs "..")
        then (filter (fun e => negb (is_prefix q (fst e) && negb (path_eqb q (fst e)))) f, Raise IOError)
        else (filter (fun e => negb (is_prefix q (fst e))) f, Ok tt)
      else (f, Raise IOError)
  end.

(** hwp5html.py 200-205 [open_dir] *)
Definition open_dir (path : name) (cwd : list name) (f : fs) : fs * res unit :=
  fthen (if fs_exists f cwd path then fs_rmtree f cwd path else (f, Ok tt)) (fun f => fs_mkdir f cwd path).

(** [with io.open(path, 'wb') as f: transform(xml, f)]: what the transformation
    wrote, and the exception it raised. *)
Definition written_file (path : name) (out : list Z * option exn) (cwd : list name) (f : fs) : fs * res unit :=
  fthen (fs_write f cwd path (fst out)) (fun f => (f, match snd out with Some e => Raise e | None => Ok tt end)).

(** [name in storage]: the storages define no [__contains__], so that the names
    are listed up to the first that is equal. *)
Definition item_in (n : name) (x : item) : res bool :=
  if existsb (name_eqb n) (fst (iter x)) then Ok true
  else match snd (iter x) with Failed e => Raise e | _ => Ok false end.

(** hwp5html.py 116-125 [extract_bindata_dir] *)
Definition extract_bindata_dir (x : item) (bindata_dir : name) (cwd : list name) (f : fs) : fs * res unit :=
  match item_in (zs "BinData") x with
  | Raise e => (f, Raise e)
  | Ok false => (f, Ok tt)
  | Ok true =>
      match get x (zs "BinData") with
      | Raise e => (f, Raise e)
      | Ok y =>
          fthen (if fs_exists f cwd bindata_dir then (f, Ok tt) else fs_mkdir f cwd bindata_dir)
                (unpack y cwd bindata_dir)
      end
  end.

Section Convert.
  (** Hwp5File(path); the intermediate XML of a file (transforms/__init__.py
      59-63); the style sheets, with what they write before they raise. *)
  Variable opened : res item.
  Variable xml : item -> res (list Z).
  Variables xhtml css : list Z -> list Z * option exn.

  (** hwp5html.py 76-85, 103-114 [transform_hwp5_to_dir] *)
  Definition transform_hwp5_to_dir (x : item) (outdir : name) (cwd : list name) (f : fs) : fs * res unit :=
    match xml x with
    | Raise e => (f, Raise e)
    | Ok t =>
        fthen (written_file (path_join outdir (zs "index.xhtml")) (xhtml t) cwd f) (fun f =>
        fthen (written_file (path_join outdir (zs "styles.css")) (css t) cwd f) (fun f =>
        extract_bindata_dir x (path_join outdir (zs "bindata")) cwd f))
    end.

  (** hwp5html.py 128-156 [main] without --css and --html. *)
  Definition html_dir_main (dest : name) (cwd : list name) (f : fs) : fs * ending :=
    match opened with
    | Raise e => (f, handled (Raise e))
    | Ok x => let (f', r) := fthen (open_dir dest cwd f) (transform_hwp5_to_dir x dest cwd) in (f', handled r)
    end.

  (** hwp5txt.py 72-94 [main], hwp5html.py 128-156 with --css or --html: to a
      file that is opened before the conversion, or to standard output, with
      what is written there. *)
  Variable transform : list Z -> list Z * option exn.
  Definition transform_hwp5 (x : item) : list Z * option exn :=
    match xml x with Raise e => ([], Some e) | Ok t => transform t end.
  Definition file_main (output : option name) (cwd : list name) (f : fs) : fs * list Z * ending :=
    match opened with
    | Raise e => (f, [], handled (Raise e))
    | Ok x =>
        match output with
        | Some (c :: p) => let (f', r) := written_file (c :: p) (transform_hwp5 x) cwd f in (f', [], handled r)
        | _ => let out := transform_hwp5 x in (f, fst out, handled (match snd out with Some e => Raise e | None => Ok tt end))
        end
    end.
End Convert.

(** os.path.basename (POSIX) *)
Definition basename (p : name) : name := last (split_slash p) [].
(** [os.path.splitext(name)[0]] for a name without slashes: up to the last dot,
    unless there are only dots before it. *)
Fixpoint before_last_dot (t : list Z) : option (list Z) :=
  match t with
  | [] => None
  | c :: r => match before_last_dot r with
              | Some a => Some (c :: a)
              | None => if c =? 46 then Some [] else None
              end
  end.
Definition stem (t : name) : name :=
  match before_last_dot t with
  | Some a => if existsb (fun c => negb (c =? 46)) a then a else t
  | None => t
  end.
(** hwp5html.py 141-144: the directory. *)
Definition html_dest (output : option name) (hwp5path : name) : name :=
  match output with Some (c :: p) => c :: p | _ => stem (basename hwp5path) end.
