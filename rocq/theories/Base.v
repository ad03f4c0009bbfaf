(** Common vocabulary of the model: bytes, Python exceptions, streams.
    No code of /repo is modelled here except [struct.pack]/[struct.unpack]
    of little-endian integers and [BytesIO.read], which are Python's own. *)
From Coq Require Import ZArith String List Bool Ascii Lia.
Import ListNotations.
Open Scope Z_scope.

(** A byte is an integer in [0,256). *)
Definition is_byte (b : Z) : Prop := 0 <= b < 256.
Definition all_bytes (l : list Z) : Prop := Forall is_byte l.

(** Python [len]. *)
Definition zlen {A} (l : list A) : Z := Z.of_nat (List.length l).

(** Python slices [l[:n]] and [l[n:]] for n >= 0 (n <= 0 acts like 0). *)
Fixpoint ztake {A} (n : Z) (l : list A) : list A :=
  match l with
  | [] => []
  | x :: t => if n <=? 0 then [] else x :: ztake (n - 1) t
  end.

Fixpoint zdrop {A} (n : Z) (l : list A) : list A :=
  match l with
  | [] => []
  | x :: t => if n <=? 0 then l else zdrop (n - 1) t
  end.

(** Python slice [l[a:b]] for 0 <= a. *)
Definition zslice {A} (a b : Z) (l : list A) : list A := ztake (b - a) (zdrop a l).

(** Python list indexing [l[n]] for n >= 0: [None] stands for IndexError. *)
Fixpoint znth {A} (n : Z) (l : list A) : option A :=
  match l with
  | [] => None
  | x :: t => if n <=? 0 then (if n =? 0 then Some x else None) else znth (n - 1) t
  end.

(** The Python exceptions the modelled code can raise. *)
Inductive exn : Type :=
| Eof (pos : Z)                (* hwp5.dataio.Eof *)
| StructError                  (* struct.error *)
| UnicodeDecodeError
| AssertionError
| IndexError
| KeyError
| TypeError
| ValueError
| AttributeError
| UnboundLocalError
| IOError
| ZlibError
| InvalidLevel                 (* the bare Exception of treeop.py *)
| ParseError (cause : exn) (offset : Z)   (* hwp5.dataio.ParseError *)
| OtherError (n : Z).

Inductive res (A : Type) : Type :=
| Ok (a : A)
| Raise (e : exn).
Arguments Ok {A} a.
Arguments Raise {A} e.

Definition bind {A B} (r : res A) (f : A -> res B) : res B :=
  match r with Ok a => f a | Raise e => Raise e end.

Notation "'let?' x ':=' r 'in' k" := (bind r (fun x => k))
  (at level 200, x pattern, r at level 100, k at level 200, right associativity).

(** How a generator run ended.  [OutOfFuel] only marks that the fuel argument
    of a model function was too small; theorems exclude it. *)
Inductive outcome : Type :=
| Finished
| Failed (e : exn)
| OutOfFuel.

(** A generator: the values it yielded and how it ended. *)
Definition gen (A : Type) : Type := (list A * outcome)%type.

Definition gcons {A} (x : A) (g : gen A) : gen A := (x :: fst g, snd g).
Definition gapp {A} (xs : list A) (g : gen A) : gen A := (xs ++ fst g, snd g).

(** A readable, seekable in-memory stream (io.BytesIO or an OLE stream):
    the bytes still to be read and the current position. *)
Record stream : Type := mkStream { s_rest : list Z; s_pos : Z }.

Definition open_bytes (b : list Z) : stream := mkStream b 0.

(** [f.read(n)] for n >= 0: at most n bytes, fewer only at the end. *)
Definition stream_read (n : Z) (s : stream) : list Z * stream :=
  let d := ztake n (s_rest s) in
  (d, mkStream (zdrop n (s_rest s)) (s_pos s + zlen d)).

(** [f.read()] *)
Definition stream_read_all (s : stream) : list Z * stream :=
  (s_rest s, mkStream [] (s_pos s + zlen (s_rest s))).

(** Little-endian integers. *)
Fixpoint le_decode (l : list Z) : Z :=
  match l with
  | [] => 0
  | b :: t => b + 256 * le_decode t
  end.

Fixpoint le_encode (n : nat) (v : Z) : list Z :=
  match n with
  | O => []
  | S k => (v mod 256) :: le_encode k (v / 256)
  end.

(** Two's complement reinterpretation of an unsigned [bits]-bit value. *)
Definition to_signed (bits : Z) (v : Z) : Z :=
  if v <? 2 ^ (bits - 1) then v else v - 2 ^ bits.

(** ASCII literals as lists of code points. *)
Fixpoint zs (s : string) : list Z :=
  match s with
  | EmptyString => []
  | String c t => Z.of_N (N_of_ascii c) :: zs t
  end.
