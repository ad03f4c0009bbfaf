(** Specifications for the primitives, bit fields, flags declarations,
    enumerations, hex dumps and colours; none of them uses the functions of
    Model_Dataio. *)
From Coq Require Import ZArith String List Bool.
From Verif Require Import Base Model_Dataio.
Import ListNotations.
Open Scope Z_scope.

(** ** Numbers in memory *)

(** Byte [i] (from the least significant) of an integer; also for negative
    numbers, as in two's complement. *)
Definition byte_of (v : Z) (i : nat) : Z := (v / 256 ^ Z.of_nat i) mod 256.

Definition number_bytes (w : nat) (v : Z) : list Z := map (byte_of v) (seq 0 w).

(** Width and range of a number format. *)
Definition fmt_width (f : binfmt) : nat :=
  match f with FmtUInt w => w | FmtInt w => w | FmtDouble => 8 end.
Definition fmt_range (f : binfmt) (v : Z) : Prop :=
  match f with
  | FmtUInt w => 0 <= v < 256 ^ Z.of_nat w
  | FmtInt w => - (256 ^ Z.of_nat w) <= 2 * v < 256 ^ Z.of_nat w
  | FmtDouble => 0 <= v < 256 ^ 8
  end.

(** ** Bit fields *)

(** A list of (lsb, msb) fields covering bits [from, upto) without gap. *)
Inductive tiles : Z -> list (Z * Z) -> Z -> Prop :=
| tiles_nil : forall a, tiles a [] a
| tiles_cons : forall a msb rest b, a <= msb -> tiles (msb + 1) rest b -> tiles a ((a, msb) :: rest) b.

(** ** Flags declarations *)

(** One entry as a programmer writes it: lsb [, msb] [, type], name. *)
Record flag_entry : Type := mkEntry {
  fe_lsb : Z; fe_msb : option Z; fe_type : option Z; fe_name : string }.

Definition entry_args (e : flag_entry) : list flag_arg :=
  [AInt (fe_lsb e)] ++
  (match fe_msb e with Some m => [AInt m] | None => [] end) ++
  (match fe_type e with Some t => [AType t] | None => [] end) ++
  [AName (fe_name e)].

(** The field it declares. *)
Definition entry_field (e : flag_entry) : string * flag_field :=
  (fe_name e,
   (fe_lsb e, match fe_msb e with Some m => m | None => fe_lsb e end, fe_type e)).

Definition declared (es : list flag_entry) : list flag_arg := concat (map entry_args es).

(** The last entry with a given name. *)
Definition last_named (n : string) (l : list (string * flag_field)) : option flag_field :=
  fold_left (fun acc kv => if String.eqb n (fst kv) then Some (snd kv) else acc) l None.

(** ** Enumerations *)

(** The declared (name, value) pairs: positional items count from 0. *)
Definition enum_pairs (items : list string) (more : list (string * Z)) : list (string * Z) :=
  combine items (map Z.of_nat (seq 0 (List.length items))) ++ more.

(** The first declared name of a value. *)
Definition first_name (pairs : list (string * Z)) (v : Z) : option string :=
  match find (fun p => snd p =? v) pairs with
  | Some (n, _) => Some n
  | None => None
  end.

(** ** Hex dump *)

Definition hexval (c : Z) : option Z :=
  if (48 <=? c) && (c <=? 57) then Some (c - 48)
  else if (97 <=? c) && (c <=? 102) then Some (c - 87)
  else None.

(** Two hex digits per byte, single spaces in between. *)
Fixpoint parse_hex_line (l : list Z) : option (list Z) :=
  match l with
  | [] => Some []
  | [_] => None
  | a :: b :: rest =>
      match hexval a, hexval b with
      | Some x, Some y =>
          match rest with
          | [] => Some [16 * x + y]
          | sep :: rest' =>
              match parse_hex_line rest' with
              | Some bs => if (sep =? 32) && (0 <? zlen bs) then Some (16 * x + y :: bs) else None
              | None => None
              end
          end
      | _, _ => None
      end
  end.

(** A line with an offset column: hexadecimal offset, colon, blank, bytes. *)
Fixpoint parse_offset_line (acc : Z) (l : list Z) : option (Z * list Z) :=
  match l with
  | [] => None
  | c :: rest =>
      if c =? 58 then
        match rest with
        | sep :: rest' =>
            match parse_hex_line rest' with
            | Some bs => if sep =? 32 then Some (acc, bs) else None
            | None => None
            end
        | [] => None
        end
      else
        match hexval c with
        | Some d => parse_offset_line (16 * acc + d) rest
        | None => None
        end
  end.

(** Lines hold 16 bytes each, the last one 1 to 16 (0 only for no data). *)
Fixpoint cut16_ok (chunks : list (list Z)) : Prop :=
  match chunks with
  | [] => False
  | c :: t =>
      match t with
      | [] => zlen c <= 16
      | _ => zlen c = 16 /\ cut16_ok t
      end
  end.

(** Six hexadecimal digits after '#'. *)
Definition parse_color (l : list Z) : option (Z * Z * Z) :=
  match l with
  | [35; a; b; c; d; e; f] =>
      match hexval a, hexval b, hexval c, hexval d, hexval e, hexval f with
      | Some a, Some b, Some c, Some d, Some e, Some f =>
          Some (16 * a + b, 16 * c + d, 16 * e + f)
      | _, _, _, _, _, _ => None
      end
  | _ => None
  end.
