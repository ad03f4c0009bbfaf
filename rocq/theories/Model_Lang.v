(** Model of src/hwp5/charsets.py. *)
From Coq Require Import ZArith String List Bool.
From Verif Require Import Base.
Import ListNotations.
Open Scope string_scope.
Open Scope Z_scope.

(** charsets.py 24-89 [get_unichr_lang]; characters are code points, compared
    as such (Python 3 strings; on a wide or Python 3 build). *)
Definition get_unichr_lang (u : Z) : option string :=
  if (0xAC00 <=? u) && (u <=? 0xD7FF) then Some "ko"
  else if (0x0000 <=? u) && (u <=? 0x0040) then None
  else if (0x1100 <=? u) && (u <=? 0x11FF) then Some "ko"
  else if (0x3130 <=? u) && (u <=? 0x318F) then Some "ko"
  else if (0xA960 <=? u) && (u <=? 0xA97F) then Some "ko"
  else if (0x0040 <=? u) && (u <=? 0x024F) then Some "en"
  else if (0x4E00 <=? u) && (u <=? 0x9FFF) then Some "cn"
  else if (0x2E80 <=? u) && (u <=? 0x2FDF) then Some "cn"
  else if (0x3400 <=? u) && (u <=? 0x4DBF) then Some "cn"
  else if (0xF900 <=? u) && (u <=? 0xFAFF) then Some "cn"
  else if (0x3000 <=? u) && (u <=? 0x303F) then Some "symbol"
  else if (0x3040 <=? u) && (u <=? 0x30FF) then Some "jp"
  else Some "other".

Definition lang_or_ko (l : option string) : string := match l with Some x => x | None => "ko" end.

(** charsets.py 92-109 [tokenize_unicode_by_lang]; the buffer is kept last
    character first. *)
Fixpoint tokenize_loop (buf : list Z) (buf_lang : option string) (text : list Z) : list (string * list Z) :=
  match text with
  | [] => match buf with [] => [] | _ => [(lang_or_ko buf_lang, rev buf)] end
  | u :: rest =>
      match get_unichr_lang u with
      | None => tokenize_loop (u :: buf) buf_lang rest
      | Some lang =>
          match buf_lang with
          | None => tokenize_loop (u :: buf) (Some lang) rest
          | Some bl =>
              if String.eqb bl lang then tokenize_loop (u :: buf) (Some lang) rest
              else (bl, rev buf) :: tokenize_loop [u] (Some lang) rest
          end
      end
  end.

Definition tokenize_unicode_by_lang (text : list Z) : list (string * list Z) := tokenize_loop [] None text.
