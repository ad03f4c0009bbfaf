(** Model of src/hwp5/dataio.py: primitive reads, bit fields, flags
    declarations, enumerations, hex dump; and of COLORREF from
    src/hwp5/binmodel/_shared.py. *)
From Coq Require Import ZArith String List Bool.
From Verif Require Import Base Model_Text.
Import ListNotations.
Open Scope Z_scope.

(** dataio.py 54-63 [readn].  The stream position reported by Eof is
    [f.tell()] after the (empty) read. *)
Definition readn (n : Z) (s : stream) : res (list Z) * stream :=
  let (d, s') := stream_read n s in
  if zlen d =? 0 then (Raise (Eof (s_pos s')), s') else (Ok d, s').

(** dataio.py 111-123: the struct formats of the primitives.
    UINT32/HWPUNIT '<I', INT32/SHWPUNIT '<i', UINT16/WORD/WCHAR '<H',
    INT16/HWPUNIT16 '<h', UINT8/BYTE '<B', INT8 '<b', DOUBLE '<d'.
    Simplification: a DOUBLE is kept as its 64-bit pattern. *)
Inductive binfmt : Type :=
| FmtUInt (width : nat)
| FmtInt (width : nat)
| FmtDouble.

Definition UINT32 := FmtUInt 4.
Definition INT32 := FmtInt 4.
Definition UINT16 := FmtUInt 2.
Definition INT16 := FmtInt 2.
Definition UINT8 := FmtUInt 1.
Definition INT8 := FmtInt 1.
Definition WORD := UINT16.
Definition BYTE := UINT8.
Definition DOUBLE := FmtDouble.
Definition WCHAR := UINT16.
Definition HWPUNIT := UINT32.
Definition SHWPUNIT := INT32.
Definition HWPUNIT16 := INT16.

(** struct.calcsize, dataio.py 80 *)
Definition calcsize (f : binfmt) : Z :=
  match f with
  | FmtUInt w => Z.of_nat w
  | FmtInt w => Z.of_nat w
  | FmtDouble => 8
  end.

(** struct.unpack(binfmt, s)[0], dataio.py 88-89 *)
Definition struct_unpack (f : binfmt) (b : list Z) : res Z :=
  if zlen b =? calcsize f then
    Ok (match f with
        | FmtUInt _ => le_decode b
        | FmtInt w => to_signed (8 * Z.of_nat w) (le_decode b)
        | FmtDouble => le_decode b
        end)
  else Raise StructError.

(** dataio.py 95-101: the [read] classmethod generated by PrimitiveType. *)
Definition prim_read (f : binfmt) (s : stream) : res Z * stream :=
  match readn (calcsize f) s with
  | (Raise e, s') => (Raise e, s')
  | (Ok b, s') => (struct_unpack f b, s')
  end.

(** dataio.py 162-170 [BSTR.read]. *)
Definition bstr_read (s : stream) : res (list Z) * stream :=
  match prim_read UINT16 s with
  | (Raise e, s1) => (Raise e, s1)
  | (Ok size, s1) =>
      if size =? 0 then (Ok [], s1)
      else match readn (2 * size) s1 with
           | (Raise e, s2) => (Raise e, s2)
           | (Ok data, s2) => (utf16le_decode data, s2)
           end
  end.

(** dataio.py 201-204 [BitGroupDescriptor.get_int_value]. *)
Definition get_int_value (lsb msb : Z) (v : Z) : Z :=
  Z.land (Z.shiftr v lsb) (2 ^ (msb + 1 - lsb) - 1).

(** Arguments of a Flags(...) declaration: an int, a type, a string, or
    anything else.  Types are represented by a number naming them. *)
Inductive flag_arg : Type :=
| AInt (n : Z)
| AType (t : Z)
| AName (s : string)
| AOther.

(** Field description (lsb, msb, valuetype); [None] as valuetype is [int]. *)
Definition flag_field : Type := (Z * Z * option Z)%type.

(** dataio.py 245-281: one turn of the loop of [_parse_flags_args].
    Pushing an argument back (dataio.py 230-237, 258, 270) makes the next
    [next(args)] return it again; it is modelled by not consuming it.
    A StopIteration inside an entry becomes AssertionError (283-284). *)
Definition parse_flags_entry (args : list flag_arg)
  : res (string * flag_field * list flag_arg) :=
  match args with
  | AInt lsb :: r1 =>
      match r1 with
      | [] => Raise AssertionError
      | x :: r2 =>
          let msb_part :=
            match x with
            | AInt m => Ok (m, r2)
            | AType _ | AName _ => Ok (lsb, r1)
            | AOther => Raise AssertionError
            end in
          let? (msb, r3) := msb_part in
          match r3 with
          | [] => Raise AssertionError
          | y :: r4 =>
              let type_part :=
                match y with
                | AInt _ => Raise AssertionError
                | AType t => Ok (Some t, r4)
                | AName _ => Ok (None, r3)
                | AOther => Raise AssertionError
                end in
              let? (t, r5) := type_part in
              match r5 with
              | AName name :: r6 => Ok (name, (lsb, msb, t), r6)
              | _ => Raise AssertionError
              end
          end
      end
  | _ => Raise AssertionError
  end.

(** dataio.py 240-284 [_parse_flags_args]: the loop. *)
Fixpoint parse_flags_loop (fuel : nat) (args : list flag_arg)
  : gen (string * flag_field) :=
  match args with
  | [] => ([], Finished)
  | _ =>
      match fuel with
      | O => ([], OutOfFuel)
      | S k =>
          match parse_flags_entry args with
          | Raise e => ([], Failed e)
          | Ok (name, fld, rest) => gcons (name, fld) (parse_flags_loop k rest)
          end
      end
  end.

Definition parse_flags_args (args : list flag_arg) : gen (string * flag_field) :=
  parse_flags_loop (List.length args) args.

(** A Python dict with string keys, in insertion order; re-assigning a key
    keeps its place. *)
Fixpoint dict_set {V} (k : string) (v : V) (d : list (string * V)) : list (string * V) :=
  match d with
  | [] => [(k, v)]
  | (k', v') :: t => if String.eqb k k' then (k', v) :: t else (k', v') :: dict_set k v t
  end.

Fixpoint dict_get {V} (k : string) (d : list (string * V)) : option V :=
  match d with
  | [] => None
  | (k', v') :: t => if String.eqb k k' then Some v' else dict_get k t
  end.

Definition dict_of {V} (l : list (string * V)) : list (string * V) :=
  fold_left (fun d kv => dict_set (fst kv) (snd kv) d) l [].

(** dataio.py 287-290 [Flags] and 207-227 [FlagsType.__new__]: the bit groups
    of a declared flags type.  Simplification: the field name 'basetype',
    which would be overwritten by line 289, is not treated specially. *)
Definition make_flags (args : list flag_arg) : res (list (string * flag_field)) :=
  match parse_flags_args args with
  | (entries, Finished) => Ok (dict_of entries)
  | (_, Failed e) => Raise e
  | (_, OutOfFuel) => Raise AssertionError
  end.

(** dataio.py 222-224 [dictvalue] (without the value types). *)
Definition flags_dictvalue (groups : list (string * flag_field)) (v : Z)
  : list (string * Z) :=
  map (fun g => match g with (name, (lsb, msb, _)) => (name, get_int_value lsb msb v) end)
      groups.

(** ** Enumerations, dataio.py 296-379 *)

(** The dictionaries of lines 303-305.  Instances are ints and are compared
    and hashed by value, so [names_by_instance] is keyed by the value. *)
Record enum_state : Type := mkEnum {
  en_names_by_instance : list (Z * string);
  en_instances_by_name : list (string * Z);
  en_values : list Z          (* keys of instances_by_value *)
}.

Definition zmem (z : Z) (l : list Z) : bool := existsb (Z.eqb z) l.

(** dataio.py 324-335: [cls(value, name)] while populating. *)
Definition enum_define (st : enum_state) (name : string) (value : Z) : res enum_state :=
  match dict_get name (en_instances_by_name st) with
  | Some _ => Raise AssertionError
  | None =>
      if zmem value (en_values st)
      then Ok (mkEnum (en_names_by_instance st)
                      (en_instances_by_name st ++ [(name, value)])
                      (en_values st))
      else Ok (mkEnum (en_names_by_instance st ++ [(value, name)])
                      (en_instances_by_name st ++ [(name, value)])
                      (en_values st ++ [value]))
  end.

Fixpoint enum_define_all (st : enum_state) (l : list (string * Z)) : res enum_state :=
  match l with
  | [] => Ok st
  | (n, v) :: t => let? st' := enum_define st n v in enum_define_all st' t
  end.

(** dataio.py 359-362, 377-379: [Enum(items..., name=value...)]. *)
Fixpoint enumerate_from (i : Z) (items : list string) : list (string * Z) :=
  match items with
  | [] => []
  | n :: t => (n, i) :: enumerate_from (i + 1) t
  end.

Definition make_enum (items : list string) (moreitems : list (string * Z)) : res enum_state :=
  enum_define_all (mkEnum [] [] []) (enumerate_from 0 items ++ moreitems).

(** An enum value: the object registered for a declared value, or a fresh
    object for an undeclared one (the number identifies the object, so that
    Python's [is] can be expressed). *)
Inductive enum_obj : Type :=
| Declared (v : Z)
| Fresh (v : Z).

Definition enum_int (o : enum_obj) : Z := match o with Declared v => v | Fresh v => v end.

(** dataio.py 311-319: [cls(value)] once the type exists. *)
Definition enum_call (st : enum_state) (value : Z) : enum_obj :=
  if zmem value (en_values st) then Declared value else Fresh value.

(** dataio.py 308-309: [cls(obj)] for an object of the type. *)
Definition enum_call_obj (st : enum_state) (o : enum_obj) : enum_obj := o.

(** dataio.py 340-344: the [name] attribute of an instance. *)
Fixpoint zdict_get {V} (k : Z) (d : list (Z * V)) : option V :=
  match d with
  | [] => None
  | (k', v') :: t => if k =? k' then Some v' else zdict_get k t
  end.

Definition enum_name (st : enum_state) (o : enum_obj) : option string :=
  zdict_get (enum_int o) (en_names_by_instance st).

(** ** Hex dump, dataio.py 595-623 *)

(** ' '.join(['%02x' % ch for ch in data]) *)
Definition hex_line (data : list Z) : list Z := join [32] (map (fmt_x 2) data).

(** '%05x0: ' % offsbase, or '' *)
Definition crust_prefix (crust : bool) (offsbase : Z) : list Z :=
  if crust then fmt_x 5 offsbase ++ zs "0: " else [].

Fixpoint dumpbytes_loop (fuel : nat) (crust : bool) (offsbase : Z) (data : list Z)
  : gen (list Z) :=
  if 16 <? zlen data then
    match fuel with
    | O => ([], OutOfFuel)
    | S k => gcons (crust_prefix crust offsbase ++ hex_line (ztake 16 data))
                   (dumpbytes_loop k crust (offsbase + 1) (zdrop 16 data))
    end
  else ([crust_prefix crust offsbase ++ hex_line data], Finished).

Definition dumpbytes (data : list Z) (crust : bool) : gen (list Z) :=
  gapp (if crust
        then [9 :: zs " 0  1  2  3  4  5  6  7  8  9  A  B  C  D  E  F"]
        else [])
       (dumpbytes_loop (List.length data) crust 0 data).

(** dataio.py 622-623 *)
Definition hexdump (data : list Z) (crust : bool) : list Z :=
  join [10] (fst (dumpbytes data crust)).

(** ** COLORREF, binmodel/_shared.py 68-85: the value is an INT32. *)
Definition color_r (v : Z) : Z := Z.land v 0xff.
Definition color_g (v : Z) : Z := Z.shiftr (Z.land v 0xff00) 8.
Definition color_b (v : Z) : Z := Z.shiftr (Z.land v 0xff0000) 16.
Definition color_a (v : Z) : Z := Z.shiftr (Z.land v 0xff000000) 24.
Definition color_str (v : Z) : list Z :=
  35 :: fmt_x 2 (color_r v) ++ fmt_x 2 (color_g v) ++ fmt_x 2 (color_b v).
