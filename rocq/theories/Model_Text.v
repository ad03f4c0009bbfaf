(** Python number formatting and UTF-16 decoding, used by several modules.
    These model Python's own [%d], [%x], [%X], [str] and
    [bytes.decode('utf-16le')]; no line of /repo is modelled here except where
    a definition says so. *)
From Coq Require Import ZArith List Bool.
From Verif Require Import Base.
Import ListNotations.
Open Scope Z_scope.

(** Digits of n >= 0 in base [b], most significant first, "0" for 0. *)
Fixpoint digits_fuel (fuel : nat) (b n : Z) (acc : list Z) : list Z :=
  match fuel with
  | O => acc
  | S k => if n <? b then n :: acc
           else digits_fuel k b (n / b) (n mod b :: acc)
  end.

Definition digits (b n : Z) : list Z := digits_fuel (S (Z.to_nat (Z.log2 n))) b n [].

Definition hexdigit_lower (d : Z) : Z := if d <? 10 then 48 + d else 87 + d.
Definition hexdigit_upper (d : Z) : Z := if d <? 10 then 48 + d else 55 + d.
Definition decdigit (d : Z) : Z := 48 + d.

Definition repeat_z (c : Z) (n : Z) : list Z := repeat c (Z.to_nat n).

(** zero padding on the left up to [width] *)
Definition zero_pad (width : Z) (l : list Z) : list Z :=
  repeat_z 48 (width - zlen l) ++ l.

(** [str(n)] / ['%d' % n] *)
Definition fmt_d (n : Z) : list Z :=
  if n <? 0 then 45 :: map decdigit (digits 10 (- n)) else map decdigit (digits 10 n).

(** ['%0<width>x' % n] and ['%0<width>X' % n], n >= 0 *)
Definition fmt_x (width n : Z) : list Z := zero_pad width (map hexdigit_lower (digits 16 n)).
Definition fmt_X (width n : Z) : list Z := zero_pad width (map hexdigit_upper (digits 16 n)).

(** [sep.join(parts)] *)
Fixpoint join {A} (sep : list A) (parts : list (list A)) : list A :=
  match parts with
  | [] => []
  | [p] => p
  | p :: rest => p ++ sep ++ join sep rest
  end.

(** 16-bit code units of a byte string; an odd trailing byte is an error. *)
Fixpoint units_of_bytes (l : list Z) : option (list Z) :=
  match l with
  | [] => Some []
  | [_] => None
  | lo :: hi :: t =>
      match units_of_bytes t with
      | Some us => Some (lo + 256 * hi :: us)
      | None => None
      end
  end.

Definition is_high_surrogate (u : Z) : bool := (0xD800 <=? u) && (u <=? 0xDBFF).
Definition is_low_surrogate (u : Z) : bool := (0xDC00 <=? u) && (u <=? 0xDFFF).

(** Strict UTF-16 decoding of code units into code points. *)
Fixpoint utf16_decode_units (us : list Z) : option (list Z) :=
  match us with
  | [] => Some []
  | u :: rest =>
      if is_high_surrogate u then
        match rest with
        | v :: rest' =>
            if is_low_surrogate v then
              match utf16_decode_units rest' with
              | Some cs => Some (0x10000 + (u - 0xD800) * 0x400 + (v - 0xDC00) :: cs)
              | None => None
              end
            else None
        | [] => None
        end
      else if is_low_surrogate u then None
      else match utf16_decode_units rest with
           | Some cs => Some (u :: cs)
           | None => None
           end
  end.

(** [bytes.decode('utf-16le')]; models dataio.py 173-180
    [decode_utf16le_with_hypua], whose body is exactly this call. *)
Definition utf16le_decode (b : list Z) : res (list Z) :=
  match units_of_bytes b with
  | None => Raise UnicodeDecodeError
  | Some us =>
      match utf16_decode_units us with
      | None => Raise UnicodeDecodeError
      | Some cs => Ok cs
      end
  end.
