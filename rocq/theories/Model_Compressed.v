(** Model of the chunked decompressors: src/hwp5/compressed.py 29-62,
    src/hwp5/zlib_raw_codec.py 69-131 and src/hwp5/proc/rawunz.py. *)
From Coq Require Import ZArith List Bool.
From Verif Require Import Base Model_Readers.
Import ListNotations.
Open Scope Z_scope.

Section Object.
  (** zlib.decompressobj(-15): its state, [decompress] (None is zlib.error)
      and [flush]. *)
  Variable St : Type.
  Variable start : St.
  Variable feed : St -> list Z -> option (list Z * St).
  Variable flush : St -> list Z * St.

  (** compressed.py 36-40 [ZLibIncrementalDecoder.decode] *)
  Definition zlib_decode (s : St) (input : list Z) (final : bool) : option (list Z * St) :=
    match feed s input with
    | None => None
    | Some (c, s1) => if final then let '(d, s2) := flush s1 in Some (c ++ d, s2) else Some (c, s1)
    end.

  (** compressed.py 46-53 [decompress_gen]; [fuel] bounds the number of reads. *)
  Fixpoint decompress_loop (fuel : nat) (s : St) (source : stream) (bufsize : Z) : gen (list Z) :=
    match fuel with
    | O => ([], OutOfFuel)
    | S k =>
        let '(input, source1) := stream_read bufsize source in
        let exhausted := zlen input <? bufsize in
        match zlib_decode s input exhausted with
        | None => ([], Failed ZlibError)
        | Some (o, s1) => gcons o (if exhausted then ([], Finished) else decompress_loop k s1 source1 bufsize)
        end
    end.
  Definition decompress_gen (fuel : nat) (source : stream) (bufsize : Z) : gen (list Z) :=
    decompress_loop fuel start source bufsize.
  (** compressed.py 56-62 [decompress_experimental] *)
  Definition decompress_experimental (fuel : nat) (source : stream) (bufsize : Z) : reader :=
    open_generator (decompress_gen fuel source bufsize).

  (** zlib_raw_codec.py 75-83 [IncrementalDecoder.decode] *)
  Definition raw_decode (s : St) (input : list Z) (final : bool) : option (list Z * St) :=
    if final then
      match (if 0 <? zlen input then feed s input else Some ([], s)) with
      | None => None
      | Some (d, s1) => let '(f, s2) := flush s1 in Some (d ++ f, s2)
      end
    else feed s input.

  (** zlib_raw_codec.py 99-105 [StreamReader] *)
  Record raw_reader : Type := mkRaw { r_stream : stream; r_state : St; r_buffer : list Z; r_offset : Z }.
  Definition open_raw (s : stream) : raw_reader := mkRaw s start [] 0.

  (** 115-131, the loop; [final] is the truth of the variable. *)
  Fixpoint raw_loop (fuel : nat) (r : raw_reader) (size : Z) (final : bool) : option (res (list Z) * raw_reader) :=
    match fuel with
    | O => None
    | S k =>
        if size <=? zlen (r_buffer r) then
          Some (Ok (ztake size (r_buffer r)),
                mkRaw (r_stream r) (r_state r) (zdrop size (r_buffer r)) (r_offset r + size))
        else if final then
          Some (Ok (r_buffer r), mkRaw (r_stream r) (r_state r) [] (r_offset r + zlen (r_buffer r)))
        else
          let '(c, s1) := stream_read 8196 (r_stream r) in
          let final := (zlen c <? 8196) || negb (zlen c =? 0) in
          match raw_decode (r_state r) c final with
          | None => Some (Raise ZlibError, mkRaw s1 (r_state r) (r_buffer r) (r_offset r))
          | Some (d, st1) => raw_loop k (mkRaw s1 st1 (r_buffer r ++ d) (r_offset r)) size final
          end
    end.
  (** 107-131 [StreamReader.read] *)
  Definition raw_read (fuel : nat) (r : raw_reader) (size : Z) : option (res (list Z) * raw_reader) :=
    if size <? 0 then
      let '(c, s1) := stream_read_all (r_stream r) in
      match raw_decode (r_state r) c true with
      | None => Some (Raise ZlibError, mkRaw s1 (r_state r) (r_buffer r) (r_offset r))
      | Some (d, st1) => let d := r_buffer r ++ d in Some (Ok d, mkRaw s1 st1 [] (r_offset r + zlen d))
      end
    else raw_loop fuel r size false.

  (** rawunz.py 31-41: shutil.copyfileobj reads [length] bytes at a time until
      nothing is read.  The written pieces. *)
  Fixpoint rawunz (fuel : nat) (r : raw_reader) (length : Z) : gen (list Z) :=
    match fuel with
    | O => ([], OutOfFuel)
    | S k =>
        match raw_read 3 r length with
        | None => ([], OutOfFuel)
        | Some (Raise e, _) => ([], Failed e)
        | Some (Ok [], _) => ([], Finished)
        | Some (Ok d, r1) => gcons d (rawunz k r1 length)
        end
    end.
End Object.
