(** Model of the generator readers and the JSON array generator of
    src/hwp5/utils.py, and of the copying loop of src/hwp5/proc/cat.py. *)
From Coq Require Import ZArith List Bool.
From Verif Require Import Base.
Import ListNotations.
Open Scope Z_scope.

(** utils.py 149-163: the attributes of a reader. A generator is the chunks it
    will still yield and how it then ends; a generator that has ended or failed
    yields nothing more. [g_chunks] and [g_end] are [self.gen]. *)
Record reader := mkReader { g_chunks : list (list Z); g_end : outcome; g_buffer : list Z }.

(** utils.py 162-163 [__init__] *)
Definition open_generator (g : gen (list Z)) : reader := mkReader (fst g) (snd g) [].

(** Python's [b[:k]] and [b[k:]] for any integer k. *)
Definition slice_index {A} (k : Z) (b : list A) : Z :=
  if k <? 0 then Z.max 0 (zlen b + k) else k.
Definition py_take {A} (k : Z) (b : list A) : list A := ztake (slice_index k b) b.
Definition py_drop {A} (k : Z) (b : list A) : list A := zdrop (slice_index k b) b.

(** utils.py 170-179: the loop of a sized read. A failing generator leaves
    what was pulled in the buffer. *)
Fixpoint read_sized (chunks : list (list Z)) (fin : outcome) (buffer : list Z) (size : Z) : res (list Z) * reader :=
  match chunks with
  | [] =>
      match fin with
      | Failed e => (Raise e, mkReader [] Finished buffer)
      | _ => (Ok buffer, mkReader [] Finished [])
      end
  | data :: rest =>
      let buffer := buffer ++ data in
      let bufsize := zlen buffer in
      if size <=? bufsize then
        let size := Z.min bufsize size in
        (Ok (py_take size buffer), mkReader rest fin (py_drop size buffer))
      else read_sized rest fin buffer size
  end.

(** utils.py 165-168: [read()]: the buffer is emptied before the rest is joined. *)
Definition read_rest (r : reader) : res (list Z) * reader :=
  match g_end r with
  | Failed e => (Raise e, mkReader [] Finished [])
  | _ => (Ok (g_buffer r ++ concat (g_chunks r)), mkReader [] Finished [])
  end.

(** utils.py 165-179 [GeneratorReader.read]; 201-217 [GeneratorTextReader.read]
    is the same function on characters. *)
Definition greader_read (r : reader) (size : option Z) : res (list Z) * reader :=
  match size with
  | None => read_rest r
  | Some n => read_sized (g_chunks r) (g_end r) (g_buffer r) n
  end.

(** A schedule of reads, stopping at the first exception. *)
Fixpoint reads (r : reader) (sizes : list (option Z)) : gen (list Z) * reader :=
  match sizes with
  | [] => (([], Finished), r)
  | n :: rest =>
      match greader_read r n with
      | (Raise e, r') => (([], Failed e), r')
      | (Ok d, r') => let (g, r'') := reads r' rest in (gcons d g, r'')
      end
  end.

(** proc/cat.py 41-47: read 4096 at a time until a read returns nothing; what
    is written. The loop is bounded by [fuel]. *)
Fixpoint cat_loop (fuel : nat) (r : reader) : gen (list Z) :=
  match fuel with
  | O => ([], OutOfFuel)
  | S k =>
      match greader_read r (Some 4096) with
      | (Raise e, _) => ([], Failed e)
      | (Ok [], _) => ([], Finished)
      | (Ok d, r') => gcons d (cat_loop k r')
      end
  end.

Definition LBRACKET : Z := 91.
Definition RBRACKET : Z := 93.
Definition COMMA : Z := 44.
Definition NEWLINE : Z := 10.

(** utils.py 67-74: the loop of [generate_json_array], [first] being its flag. *)
Fixpoint json_array_loop (first : bool) (tokens : list (list Z)) : list (list Z) :=
  match tokens with
  | [] => []
  | token :: rest =>
      (if first then [LBRACKET; NEWLINE] else [COMMA; NEWLINE]) :: token :: json_array_loop false rest
  end.

(** utils.py 64-74 [generate_json_array] *)
Definition generate_json_array (tokens : gen (list Z)) : gen (list Z) :=
  match snd tokens with
  | Finished => (json_array_loop true (fst tokens) ++ [[NEWLINE; RBRACKET]], Finished)
  | o => (json_array_loop true (fst tokens), o)
  end.

(** utils.py 83-89 [JsonObjects.generate] and 96-98 [dump] (which writes the
    chunks); [object_to_json] includes the keyword arguments. *)
Fixpoint map_gen {A B} (f : A -> res B) (l : list A) (o : outcome) : gen B :=
  match l with
  | [] => ([], o)
  | x :: rest => match f x with Raise e => ([], Failed e) | Ok y => gcons y (map_gen f rest o) end
  end.
Definition json_objects_generate {A} (object_to_json : A -> res (list Z)) (objects : gen A) : gen (list Z) :=
  generate_json_array (map_gen object_to_json (fst objects) (snd objects)).
