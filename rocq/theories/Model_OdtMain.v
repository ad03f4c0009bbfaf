(** The converter hwp5odt and what it leaves in the file system:
    src/hwp5/hwp5odt.py 326-372, 428-440.  Not modelled: option parsing, logging,
    and the filters for a terminal (wrap_for_xml, see C58). *)
From Coq Require Import ZArith String List Bool.
From Verif Require Import Base Model_Text Model_Storage Model_Filestructure Model_Convert Model_Odt.
Import ListNotations.
Open Scope Z_scope.

(** hwp5odt.py 397-413: one of these, or none. *)
Inductive mode : Type := Document | Styles | Content | Package.

(** hwp5odt.py 428-431 [replace_ext] *)
Definition replace_ext (path ext : name) : name := stem (basename path) ++ ext.
(** hwp5odt.py 357-358 *)
Definition odt_dest (output : option name) (hwp5path : name) : name :=
  match output with Some (c :: p) => c :: p | _ => replace_ext hwp5path (zs ".odt") end.
(** hwp5odt.py 342-355 *)
Definition embedbin (m : mode) (embed_image no_embed_image : bool) : bool :=
  match m with Document => negb no_embed_image | _ => embed_image end.

(** A file written by a style sheet: an exception goes on to the caller. *)
Definition whole (out : list Z * option exn) : res (list Z) := match snd out with Some e => Raise e | None => Ok (fst out) end.

(** hwp5odt.py 145-151: the streams of BinData with the outcome of opening and
    reading each.  If asking for BinData or listing its names fails, that is
    the outcome of one more reading: a reading that fails stores nothing and
    ends the conversion. *)
Definition read_item (y : item) (n : name) : name * res (list Z) :=
  (n, match get y n with Raise e => Raise e | Ok z => open z end).
Definition bindata_streams (x : item) : option (list (name * res (list Z))) :=
  match item_in (zs "BinData") x with
  | Raise e => Some [([], Raise e)]
  | Ok false => None
  | Ok true =>
      match get x (zs "BinData") with
      | Raise e => Some [([], Raise e)]
      | Ok y => Some (map (read_item y) (fst (iter y)) ++ match snd (iter y) with Failed e => [([], Raise e)] | _ => [] end)
      end
  end.

Section OdtMain.
  (** Hwp5File(path); the intermediate XML of a file, with or without the binary
      data; the style sheets, with what they write before they raise (and, if
      there is a validator, the validation: 223-232); the bytes of a zip file
      with these members. *)
  Variable opened : res item.
  Variable xml : bool -> item -> res (list Z).
  Variables document styles content : list Z -> list Z * option exn.
  Variable archive : list (list Z * list Z) -> list Z.

  (** hwp5odt.py 137-151, 362-366 for an opened file.  The zip file is made when
      the package is (249-250) and complete when it is closed. *)
  Definition package_main (embed : bool) (x : item) (dest : name) (cwd : list name) (f : fs) : fs * res unit :=
    fthen (fs_write f cwd dest []) (fun f =>
      let t := xml embed x in
      let made := convert_to_package (match t with Ok _ => Ok tt | Raise e => Raise e end)
                    (match t with Ok t => whole (styles t) | Raise e => Raise e end) (match t with Ok t => whole (content t) | Raise e => Raise e end)
                    (bindata_streams x) in
      fthen (fs_write f cwd dest (archive (k_entries (snd made)))) (fun f => (f, fst made))).

  (** hwp5odt.py 326-371 [main]: the files, what is written to standard output,
      and how it ends. *)
  Definition odt_main (m : mode) (embed_image no_embed_image : bool) (output : option name) (hwp5path : name) (cwd : list name) (f : fs) : fs * list Z * ending :=
    let embed := embedbin m embed_image no_embed_image in
    match m with
    | Document => file_main opened (xml embed) document output cwd f
    | Styles => file_main opened (xml embed) styles output cwd f
    | Content => file_main opened (xml embed) content output cwd f
    | Package =>
        match opened with
        | Raise e => (f, [], handled (Raise e))
        | Ok x => let (f', r) := package_main embed x (odt_dest output hwp5path) cwd f in (f', [], handled r)
        end
    end.
End OdtMain.
