(** Model of src/hwp5/xmlmodel.py 518-545: embedding binary data as base64 text,
    and of what it uses of Python's base64. *)
From Coq Require Import ZArith String List Bool.
From Verif Require Import Base Model_Text Model_Dataio Model_Bintype.
Import ListNotations.
Open Scope string_scope.
Open Scope list_scope.
Open Scope Z_scope.

(** An event of a model: whether it is STARTEVENT, the name of the model, its
    attributes.  The context is only passed on and is left out.  The start and
    the end event share the attribute dict, so that the end event gets the text
    as well; nobody looks at the attributes of end events afterwards, and the
    model leaves them alone. *)
Record bevent : Type := mkBev { b_start : bool; b_model : string; b_attrs : list (string * value) }.

(** base64.b64encode *)
Definition B64_ALPHABET : list Z := zs "ABCDEFGHIJKLMNOPQRSTUVWXYZabcdefghijklmnopqrstuvwxyz0123456789+/".
Definition b64_char (v : Z) : Z := nth (Z.to_nat v) B64_ALPHABET 0.
Fixpoint b64encode (data : list Z) : list Z :=
  match data with
  | [] => []
  | [a] => [b64_char (Z.shiftr a 2); b64_char (Z.shiftl (Z.land a 3) 4); 61; 61]
  | [a; b] => [b64_char (Z.shiftr a 2); b64_char (Z.lor (Z.shiftl (Z.land a 3) 4) (Z.shiftr b 4));
               b64_char (Z.shiftl (Z.land b 15) 2); 61]
  | a :: b :: c :: r =>
      [b64_char (Z.shiftr a 2); b64_char (Z.lor (Z.shiftl (Z.land a 3) 4) (Z.shiftr b 4));
       b64_char (Z.lor (Z.shiftl (Z.land b 15) 2) (Z.shiftr c 6)); b64_char (Z.land c 63)] ++ b64encode r
  end.

(** xmlmodel.py 533-541: the while loop cutting lines; [fuel] is the number of
    rounds. *)
Fixpoint truncate_lines (fuel : nat) (b64 : list Z) : list (list Z) :=
  match fuel with
  | O => []
  | S k => match b64 with
           | [] => []
           | _ => if 64 <? zlen b64 then ztake 64 b64 :: truncate_lines k (zdrop 64 b64) else [b64]
           end
  end.

(** xmlmodel.py 531-542 *)
Definition b64_text (binary : list Z) : list Z :=
  let b64 := b64encode binary in
  [10] ++ join [10] (truncate_lines (S (length b64)) b64) ++ [10].

(** xmlmodel.py 523-525: 'BIN%04X' % storage_id + '.' + ext *)
Definition bindata_name (storage_id : Z) (ext : list Z) : list Z :=
  zs "BIN" ++ fmt_X 4 storage_id ++ [46] ++ ext.

Definition as_dict (v : value) : res (list (string * value)) := match v with VDict d => Ok d | _ => Raise TypeError end.
Definition as_int (v : value) : res Z := match v with VInt n => Ok n | _ => Raise TypeError end.
Definition as_text (v : value) : res (list Z) := match v with VText t => Ok t | _ => Raise TypeError end.
Definition getitem (k : string) (d : list (string * value)) : res value :=
  match dict_get k d with Some v => Ok v | None => Raise KeyError end.

(** [attributes['flags'].storage] *)
Definition storage_flag (v : value) : res Z :=
  match v with
  | VFlags groups n => match dict_get "storage" groups with Some (lsb, msb, _) => Ok (get_int_value lsb msb n) | None => Raise AttributeError end
  | _ => Raise AttributeError
  end.

(** xmlmodel.py 521-545, one event.  [read name] is bindata[name].open().read():
    KeyError without such a stream. *)
Definition embed_event (read : list Z -> res (list Z)) (e : bevent) : res bevent :=
  if b_start e && String.eqb (b_model e) "BinData" then
    let? flags := getitem "flags" (b_attrs e) in
    let? storage := storage_flag flags in
    if Z.eqb storage 1 then
      let? bindata := getitem "bindata" (b_attrs e) in
      let? d := as_dict bindata in
      let? storage_id := getitem "storage_id" d in
      let? id := as_int storage_id in
      let? extension := getitem "ext" d in
      let? ext := as_text extension in
      let? binary := read (bindata_name id ext) in
      let d := dict_set "inline" (VText (zs "true")) (dict_set "<text>" (VText (b64_text binary)) d) in
      Ok (mkBev (b_start e) (b_model e) (dict_set "bindata" (VDict d) (b_attrs e)))
    else Ok e
  else Ok e.

(** xmlmodel.py 518-545 [embed_bindata] *)
Fixpoint embed_bindata (read : list Z -> res (list Z)) (es : list bevent) (o : outcome) : gen bevent :=
  match es with
  | [] => ([], o)
  | e :: r => match embed_event read e with
              | Raise x => ([], Failed x)
              | Ok e' => gcons e' (embed_bindata read r o)
              end
  end.
