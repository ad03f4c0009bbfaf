(** C80, C81: hwp5proc ls and hwp5proc diststream. *)
From Coq Require Import ZArith String List Bool Lia Permutation.
From Verif Require Import Base BaseFacts Model_Text Model_Dataio Model_Record Model_Distdoc Model_Storage Model_Commands Spec_Record Spec_Distdoc Spec_Storage Spec_Commands Proof_Storage Proof_Commands.
Import ListNotations.
Open Scope Z_scope.

(** ** C80 *)

(** A line for each stream, by names, with the path written in printable ASCII
    so that it can be read back. *)
Theorem C80_listing : forall x d, represents x d -> distinct d -> streamed x d -> all_names code_text d ->
  exists ps ls, ls_main x = (ls, Finished) /\ Permutation ps (map fst (files d)) /\ ascending path_before ps /\ listing ps ls.
Proof. exact ls_listing. Qed.
Print Assumptions C80_listing.

(** A line is read back in one way. *)
Theorem C80_read_back_unique : forall l t u, reads_back l t -> reads_back l u -> t = u.
Proof. exact read_back_unique. Qed.
Print Assumptions C80_read_back_unique.

(** Each path opens its stream. *)
Theorem C80_opens : forall x d ls l, represents x d -> distinct d -> streamed x d -> all_names code_text d -> all_names no_slash d ->
  ls_main x = (ls, Finished) -> In l ls -> exists k t y b, l = k ++ [10] /\ reads_back k t /\ open_storage_item x t = Ok y /\ open y = Ok b.
Proof. exact ls_opens. Qed.
Print Assumptions C80_opens.

(** No line is printed twice. *)
Theorem C80_once : forall x d ls, represents x d -> distinct d -> streamed x d -> all_names code_text d -> all_names no_slash d ->
  ls_main x = (ls, Finished) -> NoDup ls.
Proof. exact ls_once. Qed.
Print Assumptions C80_once.

(** If the names cannot be listed, nothing is printed. *)
Theorem C80_unlisted : forall x ns e, iter x = (ns, Failed e) -> ls_main x = ([], Failed e).
Proof. exact ls_unlisted. Qed.
Print Assumptions C80_unlisted.

(** Some names of a document, in the order of the file: FileHeader, a stream
    with a control character, a storage, a name in Hangul, a backslash. *)
Definition ls_dir : dir :=
  DFile (zs "FileHeader") [1] (DFile (5 :: zs "Hwp") [2] (DDir (zs "BodyText") (DFile (zs "Section1") [3] (DFile (zs "Section0") [4] DNil))
    (DDir (zs "Empty") DNil (DFile [0xAC00; 92; 0x1F600] [5] DNil)))).
Example C80_case : represents (dir_item ls_dir) ls_dir /\ distinct ls_dir /\ streamed (dir_item ls_dir) ls_dir /\ all_names code_text ls_dir /\ all_names no_slash ls_dir /\
  ls_main (dir_item ls_dir) = ([zs "\x05Hwp" ++ [10]; zs "BodyText/Section0" ++ [10]; zs "BodyText/Section1" ++ [10]; zs "FileHeader" ++ [10]; zs "\uac00\\\U0001f600" ++ [10]], Finished).
Proof.
  assert (D : distinct ls_dir) by (cbn; repeat split; intuition discriminate).
  split; [now apply dir_item_represents|]. split; [exact D|]. split; [now apply dir_streamed|].
  split; [cbn; repeat split; repeat constructor; lia|]. split; [cbn; unfold no_slash; cbn; repeat split; intuition discriminate|]. vm_compute. reflexivity.
Qed.

(** ** C81 *)

(** A head of 256 bytes hides one digest text of eighty bytes. *)
Theorem C81_hidden : forall p, all_bytes p -> zlen p = 256 -> exists! w, hides p w.
Proof. exact hides_one. Qed.
Print Assumptions C81_hidden.

(** --key writes its first sixteen bytes, or spells them in lower case. *)
Theorem C81_key : forall decrypt h t l p rest, header_says h t l 256 -> all_bytes p -> zlen p = 256 -> forall w, hides p w ->
  diststream_main decrypt OpKey true (h ++ p ++ rest) = Ok (ztake 16 w) /\
  exists k, diststream_main decrypt OpKey false (h ++ p ++ rest) = Ok k /\ spells k (ztake 16 w) /\ Forall lower_case k.
Proof. exact key_written. Qed.
Print Assumptions C81_key.

(** --sha1 writes the digest that it spells, or the digits in lower case. *)
Theorem C81_sha1 : forall decrypt h t l p rest, header_says h t l 256 -> all_bytes p -> zlen p = 256 -> forall text v, hides p (wide text) -> spells text v ->
  diststream_main decrypt OpSha1 true (h ++ p ++ rest) = Ok v /\
  exists k, diststream_main decrypt OpSha1 false (h ++ p ++ rest) = Ok k /\ spells k v /\ Forall lower_case k.
Proof. exact sha1_written. Qed.
Print Assumptions C81_sha1.

(** It writes something only if the digest text is forty digits ... *)
Theorem C81_sha1_digits : forall decrypt h t l p rest, header_says h t l 256 -> all_bytes p -> zlen p = 256 -> forall raw o,
  diststream_main decrypt OpSha1 raw (h ++ p ++ rest) = Ok o -> exists text v, hides p (wide text) /\ spells text v /\ zlen v = 20.
Proof. exact sha1_digits. Qed.
Print Assumptions C81_sha1_digits.

(** ... and else raises one of these. *)
Theorem C81_sha1_error : forall decrypt h t l p rest, header_says h t l 256 -> all_bytes p -> zlen p = 256 -> forall raw e,
  diststream_main decrypt OpSha1 raw (h ++ p ++ rest) = Raise e -> e = ValueError \/ e = UnicodeDecodeError.
Proof. exact sha1_error. Qed.
Print Assumptions C81_sha1_error.

(** What --key --raw writes is the key that decrypts the rest. *)
Theorem C81_decoded : forall decrypt h t l p rest, header_says h t l 256 -> zlen p = 256 -> forall raw k, t = 28 ->
  diststream_main decrypt OpKey true (h ++ p ++ rest) = Ok k -> diststream_main decrypt OpDecode raw (h ++ p ++ rest) = decrypt k rest.
Proof. exact decoded_with_key. Qed.
Print Assumptions C81_decoded.

(** Heads of other sizes are refused; only decoding looks at the tag. *)
Theorem C81_other_size : forall decrypt h t l n p rest op raw, header_says h t l n -> 0 < n -> zlen p = n -> n <> 256 ->
  diststream_main decrypt op raw (h ++ p ++ rest) = Raise (match op with OpDecode => if t =? 28 then ValueError else IOError | _ => ValueError end).
Proof. exact other_size_refused. Qed.
Print Assumptions C81_other_size.

(** The options --key and --sha1 do not make sure that the record is a
    distribution record. *)
Theorem C81_tag_checked_refuted : ~ (forall decrypt h t l p rest op raw o, header_says h t l 256 -> all_bytes p -> zlen p = 256 ->
  diststream_main decrypt op raw (h ++ p ++ rest) = Ok o -> t = 28).
Proof.
  intros H. assert (HH : header_says (short_header 16 0 256) 16 0 256) by (constructor; unfold tag_ok; lia).
  assert (HB : all_bytes (repeat 0 256)) by (apply Forall_forall; intros x HI; apply repeat_spec in HI; subst; unfold is_byte; lia).
  destruct (C81_hidden (repeat 0 256) HB eq_refl) as (w & HW & _).
  destruct (C81_key (fun _ _ => Ok []) _ _ _ _ [] HH HB eq_refl w HW) as [HK _].
  specialize (H _ _ _ _ _ _ _ _ _ HH HB eq_refl HK). discriminate.
Qed.
Print Assumptions C81_tag_checked_refuted.

(** A head with a digest of digits in both cases. *)
Definition dist_digits : list Z := zs "0123456789abcdefABCDEF000000000000000099".
Definition dist_head : list Z := decode_head ([3; 0; 0; 0; 9; 9; 9] ++ wide dist_digits ++ repeat 7 169).
Definition dist_input : list Z := short_header 28 0 256 ++ dist_head ++ [1; 2; 3].
Example C81_case : header_says (short_header 28 0 256) 28 0 256 /\ zlen dist_head = 256 /\ all_bytes dist_head /\ hides dist_head (wide dist_digits) /\
  (exists v, spells dist_digits v /\ diststream_main (fun k r => Ok (k ++ r)) OpSha1 true dist_input = Ok v /\
     v = [1; 0x23; 0x45; 0x67; 0x89; 0xab; 0xcd; 0xef; 0xab; 0xcd; 0xef; 0; 0; 0; 0; 0; 0; 0; 0; 0x99]) /\
  diststream_main (fun k r => Ok (k ++ r)) OpSha1 false dist_input = Ok (zs "0123456789abcdefabcdef000000000000000099") /\
  diststream_main (fun k r => Ok (k ++ r)) OpKey true dist_input = Ok (wide (zs "01234567")) /\
  diststream_main (fun k r => Ok (k ++ r)) OpKey false dist_input = Ok (zs "30003100320033003400350036003700") /\
  diststream_main (fun k r => Ok (k ++ r)) OpDecode false dist_input = Ok (wide (zs "01234567") ++ [1; 2; 3]) /\
  diststream_main (fun k r => Ok (k ++ r)) OpSha1 false (short_header 28 0 256 ++ repeat 0 256) = Raise UnicodeDecodeError /\
  diststream_main (fun k r => Ok (k ++ r)) OpKey false [] = Raise TypeError.
Proof.
  assert (HB : all_bytes dist_head) by (apply Forall_forall; intros x HI; vm_compute in HI; unfold is_byte; repeat (destruct HI as [<-|HI]; [lia|]); destruct HI).
  assert (HL : zlen dist_head = 256) by (vm_compute; reflexivity).
  split; [constructor; unfold tag_ok; lia|]. split; [exact HL|]. split; [exact HB|].
  split; [apply hidden_digest; [exact HB|exact HL|vm_compute; reflexivity]|].
  split; [eexists; split; [apply a2b_iff; vm_compute; reflexivity|split; vm_compute; reflexivity]|].
  repeat split; vm_compute; reflexivity.
Qed.
