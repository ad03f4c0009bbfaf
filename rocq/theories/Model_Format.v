(** The options --format of hwp5proc find and hwp5proc models, and --from-stdin:
    src/hwp5/proc/find.py 86-105, 164-171, 218-236, proc/models.py 192-203, 226-234,
    utils.py 117-130, and Python's own [format % dict] and unicode_escape codec. *)
From Coq Require Import ZArith String List Bool.
From Verif Require Import Base Model_Text Model_Record Model_Models Model_Storage Model_Readers Model_XmlText Model_Filestructure Model_Commands Model_Proc.
Import ListNotations.
Open Scope Z_scope.

(** ** Python's [format % dict] *)

(** What is formatted: numbers and texts. *)
Inductive value : Type := VInt (n : Z) | VText (t : list Z).
Definition str_value (v : value) : list Z := match v with VInt n => fmt_d n | VText t => t end.

(** A key in parentheses, in which there can be parentheses. *)
Fixpoint key_end (depth : nat) (t : list Z) : option (list Z * list Z) :=
  match t with
  | [] => None
  | c :: r =>
      let more d := match key_end d r with Some (k, r') => Some (c :: k, r') | None => None end in
      if c =? 41 then match depth with O => Some ([], r) | S d => more d end
      else if c =? 40 then more (S depth) else more depth
  end.
Definition ascii_digit (c : Z) : bool := (48 <=? c) && (c <=? 57).
Fixpoint span_digits (t : list Z) : list Z * list Z :=
  match t with
  | c :: r => if ascii_digit c then (c :: fst (span_digits r), snd (span_digits r)) else ([], t)
  | [] => ([], [])
  end.
Fixpoint drop_zeros (t : list Z) : bool * list Z :=
  match t with
  | c :: r => if c =? 48 then (true, snd (drop_zeros r)) else (false, t)
  | [] => (false, [])
  end.
Definition width_of (ds : list Z) : Z := fold_left (fun a c => 10 * a + (c - 48)) ds 0.
Definition pad (fill width : Z) (t : list Z) : list Z := repeat_z fill (width - zlen t) ++ t.

(** After the key: the flag 0, a width, and the conversions s, d and %.  [None]
    for anything else, which is left to [cpython] below.  Widths are taken to
    be at most sys.maxsize. *)
Definition conversion (v : value) (t : list Z) : option (res (list Z * list Z)) :=
  let (zero, t1) := drop_zeros t in
  let (w, t2) := span_digits t1 in
  match t2 with
  | [] => Some (Raise ValueError)
  | c :: r =>
      if c =? 115 then Some (Ok (pad 32 (width_of w) (str_value v), r))
      else if c =? 100 then Some (match v with VInt n => Ok (pad (if zero then 48 else 32) (width_of w) (fmt_d n), r) | VText _ => Raise TypeError end)
      else if c =? 37 then Some (Ok ([37], r))
      else None
  end.

(** One after another; every step takes some of the text, so that its length is
    enough fuel. *)
Fixpoint format_fuel (fuel : nat) (env : list Z -> res value) (t : list Z) : option (res (list Z)) :=
  match fuel, t with
  | _, [] => Some (Ok [])
  | O, _ => None
  | S k, c :: r =>
      let after out rest := match format_fuel k env rest with
                            | Some (Ok o) => Some (Ok (out ++ o)) | x => x end in
      if c =? 37 then
        match r with
        | [] => Some (Raise ValueError)
        | d :: r1 =>
            if d =? 37 then after [37] r1
            else if d =? 40 then
              match key_end 0 r1 with
              | None => Some (Raise ValueError)
              | Some (key, r2) =>
                  match env key with
                  | Raise e => Some (Raise e)
                  | Ok v => match conversion v r2 with
                            | None => None
                            | Some (Raise e) => Some (Raise e)
                            | Some (Ok (out, rest)) => after out rest
                            end
                  end
              end
            else None
        end
      else after [c] r
  end.
Definition format_dict (env : list Z -> res value) (t : list Z) : option (res (list Z)) := format_fuel (List.length t) env t.

(** ** unicode_unescape: utils.py 117-130 *)

(** A hexadecimal number of exactly these digits *)
Fixpoint hex_value (acc : Z) (t : list Z) : option Z :=
  match t with
  | [] => Some acc
  | c :: r => match hex_digit_value c with Some d => hex_value (16 * acc + d) r | None => None end
  end.
Definition octal_char (c : Z) : bool := (48 <=? c) && (c <=? 55).
Fixpoint octal (n : nat) (acc : Z) (t : list Z) : Z * list Z :=
  match n, t with
  | S k, c :: r => if octal_char c then octal k (8 * acc + (c - 48)) r else (acc, t)
  | _, _ => (acc, t)
  end.
(** The escapes of one letter *)
Definition letter (c : Z) : option (list Z) :=
  if c =? 10 then Some []
  else if (c =? 92) || (c =? 39) || (c =? 34) then Some [c]
  else if c =? 98 then Some [8] else if c =? 102 then Some [12] else if c =? 116 then Some [9] else if c =? 110 then Some [10]
  else if c =? 114 then Some [13] else if c =? 118 then Some [11] else if c =? 97 then Some [7]
  else None.

Section Unescape.
  (** The characters that have names: \N{...}, with the number of bytes taken. *)
  Variable named : list Z -> res (Z * nat).
  (** [bytes.decode('unicode_escape')]: bytes are code points (Latin-1), apart
      from escapes; a backslash before any other character is kept. *)
  Fixpoint decode_escapes (fuel : nat) (t : list Z) : res (list Z) :=
    match fuel, t with
    | _, [] => Ok []
    | O, _ => Raise ValueError
    | S k, c :: r =>
        let after out rest := let? o := decode_escapes k rest in Ok (out ++ o) in
        if c =? 92 then
          match r with
          | [] => Raise UnicodeDecodeError
          | d :: r1 =>
              let hex n := if n <=? zlen r1
                           then match hex_value 0 (firstn (Z.to_nat n) r1) with
                                | Some v => if v <? 0x110000 then after [v] (skipn (Z.to_nat n) r1) else Raise UnicodeDecodeError
                                | None => Raise UnicodeDecodeError
                                end
                           else Raise UnicodeDecodeError in
              match letter d with
              | Some o => after o r1
              | None =>
                  if octal_char d then let (v, rest) := octal 3 0 r in after [v] rest
                  else if d =? 120 then hex 2
                  else if d =? 117 then hex 4
                  else if d =? 85 then hex 8
                  else if d =? 78 then let? vn := named r1 in after [fst vn] (skipn (snd vn) r1)
                  else after [92; d] r1
              end
          end
        else after [c] r
    end.
  Definition unicode_unescape (s : list Z) : res (list Z) :=
    let? b := utf8_encode s in decode_escapes (List.length b) b.
End Unescape.

(** ** The models as dictionaries *)

Definition lookup_key (key : list Z) (l : list (string * res value)) (other : list Z -> res value) : res value :=
  match find (fun e => name_eqb key (zs (fst e))) l with Some e => snd e | None => other key end.

Section Commands.
  (** All that is not modelled of formatting; the values of keys that are not
      listed here, as texts. *)
  Variable cpython : list Z -> record * model -> res (list Z).
  Variable other : record * model -> list Z -> res value.

  Definition record_entries (rm : record * model) : list (string * res value) :=
    [("seqno"%string, match r_seqno (fst rm) with Some n => Ok (VInt n) | None => Raise KeyError end);
     ("tagid"%string, Ok (VInt (r_tagid (fst rm)))); ("tagname"%string, Ok (VText (r_tagname (fst rm))));
     ("level"%string, Ok (VInt (r_level (fst rm)))); ("size"%string, Ok (VInt (r_size (fst rm)))); ("type"%string, Ok (VText (zs (m_type (snd rm)))))].
  Definition formatted (entries : list (string * res value)) (fmt : list Z) (rm : record * model) : res (list Z) :=
    match format_dict (fun key => lookup_key key entries (other rm)) fmt with Some r => r | None => cpython fmt rm end.

  (** find.py 218-231: the line of a model, for --format or without it.
      --dump is not modelled. *)
  Definition find_entries (filename stream : name) (rm : record * model) : list (string * res value) :=
    [("filename"%string, Ok (VText filename)); ("stream"%string, Ok (VText stream))] ++ record_entries rm.
  Definition find_format (format : option (list Z)) : list Z :=
    match format with Some ((_ :: _) as t) => t | _ => zs "%(filename)s %(stream)s %(seqno)s %(tagname)s %(type)s" end.
  Definition format_line (format : option (list Z)) (filename : name) (sm : name * (record * model)) : res (list Z) :=
    let? t := formatted (find_entries filename (fst sm) (snd sm)) (find_format format) (snd sm) in Ok (t ++ [10]).

  (** find.py 86-105, as in Model_Proc.v but with --format *)
  Definition find_file_with (fuel : nat) (format : option (list Z)) (cond : record * model -> bool) (filename : name) (file : res (item * list Z)) : gen (list Z) :=
    match file with
    | Raise e => ([], Failed e)
    | Ok (h, version) =>
        let ms := flat_models (item_models fuel version) h in
        map_gen (format_line format filename) (filter (fun sm => cond (snd sm)) (fst ms)) (snd ms)
    end.
  Fixpoint find_files_with (fuel : nat) (format : option (list Z)) (cond : record * model -> bool) (files : list (name * res (item * list Z))) : gen (list Z) :=
    match files with
    | [] => ([], Finished)
    | (fn, f) :: r =>
        match find_file_with fuel format cond fn f with
        | (out, Finished) => gapp out (find_files_with fuel format cond r)
        | (out, Failed (ParseError _ _)) => gapp out (find_files_with fuel format cond r)
        | (out, o) => (out, o)
        end
    end.
  Definition find_main_with (fuel : nat) (format : option (list Z)) (f : find_filter) (incomplete : bool) (files : list (name * res (item * list Z))) : gen (list Z) :=
    match find_condition f incomplete with
    | Raise e => ([], Failed e)
    | Ok cond => find_files_with fuel format cond files
    end.

  (** models.py 192-203, 226-234 [print_model_with_format]: nothing is written
      after the text; the format is unescaped before any model is read. *)
  Variable named : list Z -> res (Z * nat).
  Definition models_format (fmt : list Z) (models : gen (record * model)) : gen (list Z) :=
    match unicode_unescape named fmt with
    | Raise e => ([], Failed e)
    | Ok f => map_gen (fun rm => formatted (record_entries rm) f rm) (fst models) (snd models)
    end.
End Commands.

(** ** find.py 170-171: the names of files from standard input.  A file is
    iterated by lines, each with its line feed; the last may have none.
    [line[:-1]] *)
Fixpoint text_lines (t : list Z) : list (list Z) :=
  match t with
  | [] => []
  | c :: r => if c =? 10 then [10] :: text_lines r
              else match text_lines r with [] => [[c]] | l :: ls => (c :: l) :: ls end
  end.
Definition filenames_from_stdin (t : list Z) : list name := map (@removelast Z) (text_lines t).
