(** The commands hwp5proc ls and hwp5proc diststream:
    src/hwp5/storage/__init__.py 159-168, proc/ls.py, proc/diststream.py.  What
    ls prints is a generator of the lines, with how the run ends. *)
From Coq Require Import ZArith String List Bool.
From Verif Require Import Base Model_Text Model_Dataio Model_Record Model_Distdoc Model_Bintype Model_Storage Model_Json.
Import ListNotations.
Open Scope Z_scope.

(** ** ls *)

(** [text.encode('unicode_escape')], a character at a time. *)
Definition escape_char (c : Z) : list Z :=
  if c =? 92 then [92; 92]
  else if c =? 9 then [92; 116]
  else if c =? 10 then [92; 110]
  else if c =? 13 then [92; 114]
  else if (32 <=? c) && (c <? 127) then [c]
  else if c <? 0x100 then [92; 120] ++ fmt_x 2 c
  else if c <? 0x10000 then [92; 117] ++ fmt_x 4 c
  else [92; 85] ++ fmt_x 8 c.
Definition unicode_escape (t : list Z) : list Z := concat (map escape_char t).

(** [names.sort()] *)
Fixpoint insert_name (n : name) (l : list name) : list name :=
  match l with
  | [] => [n]
  | m :: r => if text_lt m n then m :: insert_name n r else n :: l
  end.
Definition sort_names (l : list name) : list name := fold_right insert_name [] l.

(** storage/__init__.py 159-168 [printstorage]; [list(stg)] at 160 raises
    before anything is printed.  The escaped text is ASCII, so that decoding it
    as UTF-8 (168) does nothing. *)
Fixpoint printstorage (x : item) (basepath : name) : gen (list Z) :=
  match x with
  | mkItem _ i g _ _ _ =>
      match snd i with
      | Finished =>
          (fix loop (names : list name) : gen (list Z) :=
             match names with
             | [] => ([], Finished)
             | n :: r =>
                 match g n with
                 | Raise e => ([], Failed e)
                 | Ok y =>
                     if is_storage y then gthen (printstorage y (basepath ++ n ++ [SLASH])) (loop r)
                     else if is_stream y then gcons (unicode_escape (basepath ++ n) ++ [10]) (loop r)
                     else loop r
                 end
             end) (sort_names (fst i))
      | o => ([], o)
      end
  end.

(** proc/ls.py 93-95, after the file was opened. *)
Definition ls_main (x : item) : gen (list Z) := printstorage x [].

(** ** diststream *)

(** [binascii.a2b_hex] of a text: characters beyond ASCII, digits that are not
    hexadecimal and an odd number of digits are errors, all ValueErrors. *)
Definition hex_digit_value (c : Z) : option Z :=
  if (48 <=? c) && (c <=? 57) then Some (c - 48)
  else if (97 <=? c) && (c <=? 102) then Some (c - 87)
  else if (65 <=? c) && (c <=? 70) then Some (c - 55)
  else None.
Fixpoint a2b_hex (t : list Z) : res (list Z) :=
  match t with
  | [] => Ok []
  | [_] => Raise ValueError
  | a :: b :: r =>
      match hex_digit_value a, hex_digit_value b with
      | Some x, Some y => let? v := a2b_hex r in Ok (16 * x + y :: v)
      | _, _ => Raise ValueError
      end
  end.

(** The options --sha1 and --key exclude each other (diststream.py 100-110). *)
Inductive dist_op : Type := OpDecode | OpSha1 | OpKey.

Section Diststream.
  (** AES-128-ECB decryption of the platform. *)
  Variable decrypt : list Z -> list Z -> res (list Z).

  (** [read_record(input_fp, 0)] and [head['payload']] (70-71, 77-78); None has
      no items. *)
  Definition input_head (s : stream) : res (list Z) :=
    match fst (read_record s 0) with
    | Raise e => Raise e
    | Ok None => Raise TypeError
    | Ok (Some r) => Ok (r_payload r)
    end.

  (** diststream.py 61-86 [main]: what is written for the bytes at the input. *)
  Definition diststream_main (op : dist_op) (raw : bool) (input : list Z) : res (list Z) :=
    let s := open_bytes input in
    match op with
    | OpSha1 =>
        let? head := input_head s in
        let? ucs := decode_head_to_sha1 head in
        let? text := utf16le_decode ucs in
        let? sha1 := a2b_hex text in
        Ok (if raw then sha1 else b2a_hex sha1)
    | OpKey =>
        let? head := input_head s in
        let? key := decode_head_to_key head in
        Ok (if raw then key else b2a_hex key)
    | OpDecode => distdoc_decode decrypt s
    end.
End Diststream.
