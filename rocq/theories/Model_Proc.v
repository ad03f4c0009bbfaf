(** The commands of hwp5proc that print records and models:
    src/hwp5/proc/records.py, proc/models.py, proc/find.py, and the names of
    streams (cli.py 98-109).  What a command writes is a generator of the
    pieces written, with how the run ends. *)
From Coq Require Import ZArith String List Bool.
From Verif Require Import Base Model_Text Model_Dataio Model_Record Model_Readers Model_Bintype Model_Models Model_Storage Model_Filestructure Model_Json.
Import ListNotations.
Open Scope Z_scope.

(** [int(text)] *)
Definition int_arg (t : list Z) : res Z := match py_int t with Some n => Ok n | None => Raise ValueError end.
(** An argument of islice: 0 <= n <= sys.maxsize, else ValueError. *)
Definition MAXSIZE : Z := 2 ^ 63 - 1.
Definition islice_arg (n : Z) : res nat := if (0 <=? n) && (n <=? MAXSIZE) then Ok (Z.to_nat n) else Raise ValueError.

(** [text.split(c, 1)]: the part before the first [c], and the rest. *)
Fixpoint split_once (c : Z) (t : list Z) : list Z * option (list Z) :=
  match t with
  | [] => ([], None)
  | x :: r => if x =? c then ([], Some r) else let (a, b) := split_once c r in (x :: a, b)
  end.
(** [text.split(c)] *)
Fixpoint split_all (c : Z) (t : list Z) : list (list Z) :=
  match t with
  | [] => [[]]
  | x :: r => if x =? c then [] :: split_all c r
              else match split_all c r with s :: l => (x :: s) :: l | [] => [[x]] end
  end.
Fixpoint int_args (l : list (list Z)) : res (list Z) :=
  match l with [] => Ok [] | t :: r => let? n := int_arg t in let? ns := int_args r in Ok (n :: ns) end.

(** ** proc/records.py *)

(** The options --range and --treegroup exclude each other (146-162). *)
Inductive subset : Type := NoSubset | SubRange (t : list Z) | SubTree (t : list Z).

(** 52-62 with recordstream.py 156-164: the arguments of [records], checked as
    islice checks them.  All this is done before anything is written. *)
Definition range_arg (rng : list Z) : res selection :=
  match split_once 45 rng with
  | (a, None) =>
      let? n := int_arg a in let? i := islice_arg n in let? j := islice_arg (n + 1) in Ok (SelRange i j)
  | (a, Some b) =>
      let? m := int_arg a in let? n := int_arg b in let? i := islice_arg m in let? j := islice_arg n in Ok (SelRange i j)
  end.
Definition subset_selection (s : subset) : res selection :=
  match s with
  | NoSubset => Ok SelAll
  | SubRange [] => Ok SelAll                                       (* if rng: *)
  | SubRange rng => range_arg rng
  | SubTree t => let? n := int_arg t in let? i := islice_arg n in Ok (SelTree i)
  end.

(** 65-70: the line of a record. *)
Definition simple_line (r : record) : res (list Z) :=
  match r_seqno r with
  | None => Raise KeyError
  | Some n => Ok (zero_pad 4 (fmt_d n) ++ [32] ++ repeat_z 32 (2 * r_level r) ++ [32] ++ r_tagname r ++ [10])
  end.

Inductive records_format : Type := Simple | Raw | RawHeader | RawPayload | AsJson.

Section Records.
  Variable float_repr : Z -> list Z.

  (** 64-82 *)
  Definition print_records (fmt : records_format) (records : gen record) : gen (list Z) :=
    match fmt with
    | Simple => map_gen simple_line (fst records) (snd records)
    | Raw => map_gen dump_record (fst records) (snd records)
    | RawHeader => map_gen (fun r => encode_record_header (r_tagid r) (r_level r) (r_payload r)) (fst records) (snd records)
    | RawPayload => map_gen (fun r => Ok (r_payload r)) (fst records) (snd records)
    | AsJson => records_json float_repr records
    end.

  (** 35-82 [main], on the opened stream. *)
  Definition records_main (fmt : records_format) (s : subset) (stream : stream) : gen (list Z) :=
    match subset_selection s with
    | Raise e => ([], Failed e)
    | Ok sel => print_records fmt (select_records sel (read_records stream))
    end.

  (** ** proc/models.py *)

  (** 166-168: the version given for a stream of the standard input. *)
  Definition version_arg (t : list Z) : res (list Z) :=
    int_args (split_all 46 (match t with [] => zs "5.0.0.0" | _ => t end)).

  (** The options --treegroup and --seqno exclude each other (139-153). *)
  Inductive model_subset : Type := AllModels | TreeModels (t : list Z) | SeqnoModel (t : list Z).

  (** 178-189 [models_from_args] *)
  Definition select_models (fuel : nat) (version : list Z) (s : model_subset) (records : gen record) : gen (record * model) :=
    match s with
    | TreeModels ((_ :: _) as t) =>
        match (let? n := int_arg t in islice_arg n) with
        | Raise e => ([], Failed e)
        | Ok n => treegroup_models fuel version n records
        end
    | SeqnoModel ((_ :: _) as t) =>
        match (let? n := int_arg t in let? i := islice_arg n in let? j := islice_arg (n + 1) in Ok (i, j)) with
        | Raise e => ([], Failed e)
        | Ok (i, j) => islice i j (stream_models fuel version records)
        end
    | _ => stream_models fuel version records
    end.

  (** 220-223 [print_model_simple]: what its three writes write. *)
  Definition simple_model (rm : record * model) : res (list Z) :=
    match r_seqno (fst rm) with
    | None => Raise KeyError
    | Some n => Ok (zero_pad 4 (fmt_d n) ++ [32] ++ repeat_z 32 (r_level (fst rm)) ++ zs (m_type (snd rm)) ++ [10])
    end.

  (** 40-41, 70-74, 192-217 without --events and --format. *)
  Definition models_main (fuel : nat) (version : list Z) (simple : bool) (s : model_subset) (stream : stream) : gen (list Z) :=
    let models := select_models fuel version s (read_records stream) in
    if simple then map_gen simple_model (fst models) (snd models) else models_json float_repr models.
End Records.

(** ** cli.py 98-109 [parse_recordstream_name]; [docinfo] and [bodytext] are
    filestructure.py 582-591. *)
Definition parse_recordstream_name (h : item) (streamname : name) : res item :=
  if name_eqb streamname (zs "docinfo") then get h (zs "DocInfo")
  else
    match split_slash streamname with
    | [a; b] =>
        if name_eqb a (zs "bodytext") then
          match (let? idx := int_arg b in let? t := get h (zs "BodyText") in section t idx) with
          | Raise ValueError => open_storage_item h streamname      (* except ValueError: pass *)
          | r => r
          end
        else open_storage_item h streamname
    | _ => open_storage_item h streamname
    end.

(** ** proc/find.py *)

(** --model and --tag exclude each other (128-142). *)
Inductive find_filter : Type := AnyModel | WithModel (t : list Z) | WithTag (t : list Z).

(** 174-197 [conditions_from_args]: the conditions are made before any file is
    opened; a number that is no known tag is a KeyError. *)
Definition tag_arg (t : list Z) : res (list Z) :=
  match py_int t with
  | None => Ok t
  | Some n => match zdict_get n tagnames with Some s => Ok (zs s) | None => Raise KeyError end
  end.
Definition find_condition (f : find_filter) (incomplete : bool) : res (record * model -> bool) :=
  let? first :=
    match f with
    | WithModel ((_ :: _) as t) => Ok (fun rm : record * model => name_eqb t (zs (m_type (snd rm))))
    | WithTag ((_ :: _) as t) => let? tag := tag_arg t in Ok (fun rm : record * model => name_eqb (r_tagname (fst rm)) tag)
    | _ => Ok (fun _ => true)
    end in
  Ok (fun rm => first rm && (negb incomplete || match m_unparsed (snd rm) with [] => false | _ => true end)).

(** 200-215 [hwp5file_models] and [flat_models]; [models] reads the models of a stream.  Getting a
    stream can fail, and so can iterating over the names of BodyText, which is
    done while the sections are read. *)
Definition gres {A} (r : res (gen A)) : gen A := match r with Ok g => g | Raise e => ([], Failed e) end.
Definition labelled {A} (label : name) (g : gen A) : gen (name * A) := (map (pair label) (fst g), snd g).
Fixpoint sections_models {A} (models : item -> gen A) (t : item) (names : list name) (o : outcome) : gen (name * A) :=
  match names with
  | [] => ([], o)
  | n :: r =>
      gthen (labelled (zs "BodyText/" ++ n) (gres (let? y := get t n in Ok (models y))))
            (sections_models models t r o)
  end.
Definition flat_models {A} (models : item -> gen A) (h : item) : gen (name * A) :=
  gthen (labelled (zs "DocInfo") (gres (let? d := get h (zs "DocInfo") in Ok (models d))))
        (gres (let? t := get h (zs "BodyText") in
               Ok (sections_models models t (fst (iter t)) (snd (iter t))))).

(** The models of a stream: its bytes, read as records of the version. *)
Definition item_models (fuel : nat) (version : list Z) (x : item) : gen (record * model) :=
  match open x with
  | Raise e => ([], Failed e)
  | Ok b => stream_models fuel version (read_records (open_bytes b))
  end.

(** 218-229 [printer_from_args] without --format and --dump. *)
Definition find_line (filename : name) (sm : name * (record * model)) : res (list Z) :=
  match sm with
  | (stream, (r, m)) =>
      match r_seqno r with
      | None => Raise KeyError
      | Some n => Ok (filename ++ [32] ++ stream ++ [32] ++ fmt_d n ++ [32] ++ r_tagname r ++ [32] ++ zs (m_type m) ++ [10])
      end
  end.

(** 86-105 [main]: for each file, opened as an item with its version (or not),
    the lines of its models; a ParseError is logged and ends that file only.
    Logging writes nothing here. *)
Definition find_file (fuel : nat) (cond : record * model -> bool) (filename : name) (file : res (item * list Z)) : gen (list Z) :=
  match file with
  | Raise e => ([], Failed e)
  | Ok (h, version) =>
      let ms := flat_models (item_models fuel version) h in
      map_gen (find_line filename) (filter (fun sm => cond (snd sm)) (fst ms)) (snd ms)
  end.
Fixpoint find_files (fuel : nat) (cond : record * model -> bool) (files : list (name * res (item * list Z))) : gen (list Z) :=
  match files with
  | [] => ([], Finished)
  | (fn, f) :: r =>
      match find_file fuel cond fn f with
      | (out, Finished) => gapp out (find_files fuel cond r)
      | (out, Failed (ParseError _ _)) => gapp out (find_files fuel cond r)
      | (out, o) => (out, o)
      end
  end.
Definition find_main (fuel : nat) (f : find_filter) (incomplete : bool) (files : list (name * res (item * list Z))) : gen (list Z) :=
  match find_condition f incomplete with
  | Raise e => ([], Failed e)
  | Ok cond => find_files fuel cond files
  end.
