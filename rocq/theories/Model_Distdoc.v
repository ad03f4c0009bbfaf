(** Model of src/hwp5/distdoc.py. *)
From Coq Require Import ZArith List Bool.
From Verif Require Import Base Model_Text Model_Dataio Model_Record.
Import ListNotations.
Open Scope Z_scope.

(** distdoc.py 55-58 [Random.rand]: the value and the new seed. *)
Definition rand (seed : Z) : Z * Z :=
  let seed' := Z.land (seed * 214013 + 2531011) 0xffffffff in
  (Z.land (Z.shiftr seed' 16) 0x7fff, seed').

(** distdoc.py 76-83, the loop over the positions of the head. *)
Fixpoint xor_loop (data : list Z) (i n key seed : Z) : list Z :=
  match data with
  | [] => []
  | d :: rest =>
      let '(key, n, seed) :=
        if n =? 0 then
          let (r1, seed) := rand seed in
          let (r2, seed) := rand seed in
          (Z.land r1 0xff, Z.land r2 0xf + 1, seed)
        else (key, n, seed) in
      (if 4 <=? i then Z.lxor d key else d) :: xor_loop rest (i + 1) (n - 1) key seed
  end.

(** distdoc.py 73: the seed is the first four bytes. *)
Definition head_seed (data : list Z) : Z :=
  match data with
  | d0 :: d1 :: d2 :: d3 :: _ => Z.lor (Z.lor (Z.lor (Z.shiftl d3 24) (Z.shiftl d2 16)) (Z.shiftl d1 8)) d0
  | _ => 0
  end.

(** distdoc.py 72-86: the decoded head. *)
Definition decode_head (data : list Z) : list Z := xor_loop data 0 0 0 (head_seed data).

(** distdoc.py 61-90 [decode_head_to_sha1] *)
Definition decode_head_to_sha1 (payload : list Z) : res (list Z) :=
  if zlen payload =? 256 then
    let off := 4 + Z.land (head_seed payload) 0xf in
    Ok (zslice off (off + 80) (decode_head payload))
  else Raise ValueError.

(** distdoc.py 93-95 [decode_head_to_key] *)
Definition decode_head_to_key (payload : list Z) : res (list Z) :=
  let? digest := decode_head_to_sha1 payload in Ok (ztake 16 digest).

Definition HWPTAG_DISTRIBUTE_DOC_DATA : Z := HWPTAG_BEGIN + 12.

Section Distdoc.
  (** AES-128-ECB decryption of the platform (plat/__init__.py 101-188). *)
  Variable decrypt : list Z -> list Z -> res (list Z).

  (** distdoc.py 37-45 [decode]; indexing None is a TypeError. *)
  Definition distdoc_decode (s : stream) : res (list Z) :=
    match read_record s 0 with
    | (Raise e, _) => Raise e
    | (Ok None, _) => Raise TypeError
    | (Ok (Some r), s1) =>
        if negb (r_tagid r =? HWPTAG_DISTRIBUTE_DOC_DATA) then Raise IOError
        else
          let? key := decode_head_to_key (r_payload r) in
          let (tail, _) := stream_read_all s1 in
          decrypt key tail
    end.

  (** filestructure.py 217-256: [head], [head_sha1], [head_key], [tail] and
      [tail_decrypted] of the stream wrapper; each opens the stream anew. *)
  Definition distdoc_head (b : list Z) : res (list Z) :=
    match fst (read_record (open_bytes b) 0) with
    | Raise e => Raise e
    | Ok None => Raise TypeError
    | Ok (Some r) => Ok (r_payload r)
    end.
  Definition distdoc_head_sha1 (b : list Z) : res (list Z) :=
    let? p := distdoc_head b in decode_head_to_sha1 p.
  Definition distdoc_head_key (b : list Z) : res (list Z) :=
    let? p := distdoc_head b in decode_head_to_key p.
  Definition distdoc_tail (b : list Z) : res (list Z) :=
    match read_record (open_bytes b) 0 with
    | (Raise e, _) => Raise e
    | (Ok _, s1) => if s_pos s1 =? 4 + 256 then Ok (fst (stream_read_all s1)) else Raise AssertionError
    end.
  Definition distdoc_tail_decrypted (b : list Z) : res (list Z) :=
    let? key := distdoc_head_key b in
    let? tail := distdoc_tail b in
    decrypt key tail.
End Distdoc.
