(** hwp5proc as a command, and its subcommands version, header and xml:
    src/hwp5/hwp5proc.py 81-88, proc/version.py 26-29, proc/header.py 29-41, proc/xml.py
    38-75, xmlmodel.py 588-605.  Not modelled: option parsing, logging, and the
    filters for a terminal (C58).  Python 3. *)
From Coq Require Import ZArith String List Bool.
From Verif Require Import Base Model_Text Model_Bintype Model_Storage Model_Filestructure Model_XmlText Model_Convert.
Import ListNotations.
Open Scope Z_scope.

(** hwp5proc.py 81-88: both errors are logged and end with status 1. *)
Definition proc_handled (r : res unit) : ending :=
  match r with
  | Ok _ => Exit 0
  | Raise (ParseError _ _) => Exit 1
  | Raise (OtherError 2) => Exit 1                                (* InvalidHwp5File *)
  | Raise e => Raised e
  end.
Definition raised (x : option exn) : res unit := match x with Some e => Raise e | None => Ok tt end.
(** A command that prints this, or raises before it prints. *)
Definition printed (r : res (list Z)) : list Z * ending :=
  match r with Ok t => (t, proc_handled (Ok tt)) | Raise e => ([], proc_handled (Raise e)) end.

(** The bytes of the file header of an opened file *)
Definition opened_header (opened : res item) : res (list Z) :=
  let? h := opened in let? y := get h (zs "FileHeader") in open y.
(** proc/version.py 26-29 *)
Definition version_main (opened : res item) : list Z * ending :=
  printed (let? b := opened_header opened in let? v := header_version b in let? t := version_text v in Ok (t ++ [10])).
(** proc/header.py 29-41 *)
Definition header_main (opened : res item) : list Z * ending :=
  printed (let? b := opened_header opened in header_text b).

(** xmlmodel.py 588-605 [bytechunks] and [dump], on events that may end with an
    exception: what is written before that, and the exception. *)
Definition dump (declaration : bool) (events : gen xevent) : list Z * option exn :=
  match xml_bytechunks declaration (fst events) with
  | (chunks, Failed e) => (concat chunks, Some e)
  | (chunks, _) => (concat chunks, match snd events with Failed e => Some e | _ => None end)
  end.

Section Xml.
  Variable opened : res item.
  (** The events of the file, with or without the binary data (C72); what
      xmldump_flat writes without a declaration; and what the filters of xmllint
      (proc/xml.py 68-71) make of what is written to them. *)
  Variable events : bool -> item -> gen xevent.
  Variable flat : item -> list Z * option exn.
  Variable lint : list Z -> list Z.

  (** proc/xml.py 48-59, 75: the function called.  Without one of the two formats
      the variable is not set.  xmldump_flat.py 40-46 writes its declaration as
      text into a binary file, which is a TypeError. *)
  Definition xmldump (format : option name) (no_xml_decl embedbin : bool) (x : item) : list Z * option exn :=
    match format with
    | None | Some [] => dump (negb no_xml_decl) (events embedbin x)
    | Some fmt =>
        if name_eqb fmt (zs "flat") then (if no_xml_decl then flat x else ([], Some TypeError))
        else if name_eqb fmt (zs "nested") then dump (negb no_xml_decl) (events embedbin x)
        else ([], Some UnboundLocalError)
    end.
  (** proc/xml.py 44-75 [main] and hwp5proc.py 81-88 *)
  Definition xml_main (format : option name) (no_xml_decl embedbin no_validate : bool) (output : option name) (cwd : list name) (f : fs) : fs * list Z * ending :=
    match opened with
    | Raise e => (f, [], proc_handled (Raise e))
    | Ok x =>
        let out := xmldump format no_xml_decl embedbin x in
        let out := (if no_validate then fst out else lint (fst out), snd out) in
        match output with
        | Some (c :: p) => let (f', r) := written_file (c :: p) out cwd f in (f', [], proc_handled r)
        | _ => (f, fst out, proc_handled (raised (snd out)))
        end
    end.
End Xml.
