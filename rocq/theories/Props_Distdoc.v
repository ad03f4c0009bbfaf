(** C38: key derivation of distribution documents. *)
From Coq Require Import ZArith List Bool Lia.
From Verif Require Import Base BaseFacts Model_Text Model_Dataio Model_Record Model_Distdoc Spec_Record Spec_Distdoc Proof_Record Proof_Distdoc.
Import ListNotations.
Open Scope Z_scope.

(** Every position belongs to exactly one run of the key stream. *)
Theorem C38_runs_partition : forall seed i, 0 <= i -> exists! j, in_run seed j i.
Proof.
  intros seed i Hi. destruct (in_run_exists seed i Hi) as [j Hj]. exists j. split; [exact Hj|].
  intros k Hk. exact (in_run_unique seed i j k Hj Hk).
Qed.
Print Assumptions C38_runs_partition.

(** Decoding keeps the length and the first four bytes and xors every later
    byte with the key byte of its run. *)
Theorem C38_keystream : forall head i j, all_bytes head -> 0 <= i < zlen head -> in_run (seed_of head) j i ->
  znth i (decode_head head) =
  match znth i head with Some d => Some (if i <? 4 then d else Z.lxor d (run_key (seed_of head) j)) | None => None end.
Proof. exact decode_head_spec. Qed.
Print Assumptions C38_keystream.

Theorem C38_same_length : forall head, zlen (decode_head head) = zlen head.
Proof. exact decode_head_len. Qed.
Print Assumptions C38_same_length.

(** Decoding twice restores the head. *)
Theorem C38_involutive : forall head, all_bytes head -> decode_head (decode_head head) = head.
Proof. exact decode_head_involutive. Qed.
Print Assumptions C38_involutive.

(** Derivation is total on 256 bytes, and the digest area lies inside. *)
Theorem C38_digest_inside : forall head, all_bytes head -> zlen head = 256 ->
  exists digest, decode_head_to_sha1 head = Ok digest /\ zlen digest = 80 /\
    exists before after, decode_head head = before ++ digest ++ after /\ zlen before = 4 + seed_of head mod 16.
Proof. exact digest_spec. Qed.
Print Assumptions C38_digest_inside.

Theorem C38_key_is_prefix : forall head, all_bytes head -> zlen head = 256 ->
  exists key digest rest, decode_head_to_key head = Ok key /\ zlen key = 16 /\
    decode_head_to_sha1 head = Ok digest /\ digest = key ++ rest.
Proof.
  intros head HB HL. destruct (digest_spec head HB HL) as (digest & E & _).
  assert (K : decode_head_to_key head = Ok (ztake 16 digest)) by (unfold decode_head_to_key; rewrite E; reflexivity).
  destruct (key_spec head _ HB K) as (d & r & E1 & E2 & E3). exists (ztake 16 digest), d, r. auto.
Qed.
Print Assumptions C38_key_is_prefix.

Theorem C38_other_length_rejected : forall head, zlen head <> 256 ->
  decode_head_to_sha1 head = Raise ValueError /\ decode_head_to_key head = Raise ValueError.
Proof. exact digest_wrong_length. Qed.
Print Assumptions C38_other_length_rejected.

(** Reading a stream that starts with a distribution record decrypts exactly
    the bytes after that record with the derived key. *)
Theorem C38_stream_decoded : forall decrypt h l n p rest, header_says h 28 l n -> 0 < n -> zlen p = n ->
  distdoc_decode decrypt (open_bytes (h ++ p ++ rest)) =
  match decode_head_to_key p with Ok key => decrypt key rest | Raise e => Raise e end.
Proof. exact decode_is. Qed.
Print Assumptions C38_stream_decoded.

Theorem C38_other_record_rejected : forall decrypt h t l n p rest, header_says h t l n -> 0 < n -> zlen p = n -> t <> 28 ->
  distdoc_decode decrypt (open_bytes (h ++ p ++ rest)) = Raise IOError.
Proof. exact decode_other_tag. Qed.
Print Assumptions C38_other_record_rejected.

(** An empty stream is not rejected with the documented error. *)
Theorem C38_empty_stream_refuted : exists b, forall decrypt,
  distdoc_decode decrypt (open_bytes b) = Raise TypeError /\ distdoc_decode decrypt (open_bytes b) <> Raise IOError.
Proof. exists []. intros decrypt. split; [reflexivity|discriminate]. Qed.
Print Assumptions C38_empty_stream_refuted.

(** The parts offered next to the decoded stream are the same ones. *)
Theorem C38_parts : forall decrypt t l p rest, tag_ok t -> tag_ok l -> zlen p = 256 ->
  let b := short_header t l 256 ++ p ++ rest in
  distdoc_head b = Ok p /\
  distdoc_head_sha1 b = decode_head_to_sha1 p /\
  distdoc_head_key b = decode_head_to_key p /\
  distdoc_tail b = Ok rest /\
  distdoc_tail_decrypted decrypt b =
    match decode_head_to_key p with Ok key => decrypt key rest | Raise e => Raise e end.
Proof. intros decrypt t l p rest Ht Hl Hp. apply wrapper_parts; [|exact Hp]. apply says_short; try assumption. lia. Qed.
Print Assumptions C38_parts.

(** A head with seed 1: the first outputs are 41 and 18467, so the first run
    repeats byte 41 four times and positions 4.. use the next run. *)
Example C38_case :
  let head := [1; 0; 0; 0] ++ repeat 0 252 in
  all_bytes head /\ zlen head = 256 /\ lcg_out 1 1 = 41 /\ lcg_out 1 2 = 18467 /\ run_len 1 0 = 4 /\ run_key 1 1 = 6334 mod 256 /\
  in_run (seed_of head) 1 4 /\ znth 4 (decode_head head) = Some (6334 mod 256) /\
  decode_head_to_key head = Ok (zslice 5 21 (decode_head head)) /\
  distdoc_decode (fun k t => Ok (k ++ t)) (open_bytes (short_header 28 0 256 ++ head ++ [7; 8])) =
    Ok (zslice 5 21 (decode_head head) ++ [7; 8]).
Proof.
  cbv zeta. split; [repeat constructor; unfold is_byte; lia|].
  repeat split; try (vm_compute; reflexivity); vm_compute; intros; discriminate.
Qed.
