(** C37: embedded binary data. *)
From Coq Require Import ZArith String List Bool Lia.
From Verif Require Import Base BaseFacts Model_Dataio Model_Bintype Model_Layouts Model_Models Spec_Bintype Spec_Models Spec_Layouts Model_Embed Spec_Embed Proof_Layouts Proof_Embed.
Import ListNotations.
Open Scope string_scope.
Open Scope list_scope.
Open Scope Z_scope.

(** The text written for any bytes: lines of 64 base64 characters that decode
    to these bytes. *)
Theorem C37_text : forall data, all_bytes data -> base64_text (b64_text data) data.
Proof. exact b64_text_ok. Qed.
Print Assumptions C37_text.

(** A decoder that skips newlines gets the bytes back from the whole text. *)
Theorem C37_decodes : forall t data, base64_text t data -> b64_decode (filter (fun c => negb (c =? 10)) t) = Some data.
Proof. exact base64_text_decodes. Qed.
Print Assumptions C37_decodes.

(** The name of the stream, for every storage id. *)
Theorem C37_name : forall id ext, 0 <= id < 65536 -> stream_name id ext (bindata_name id ext).
Proof. exact name_ok. Qed.
Print Assumptions C37_name.

(** In a stream of events exactly the embedded binaries get a text, that of
    their stream; the first one that cannot be read ends the events. *)
Theorem C37_events : forall read es o, (forall n d, read n = Ok d -> all_bytes d) -> Forall event_of_record es ->
  embeddings read es o (fst (embed_bindata read es o)) (snd (embed_bindata read es o)).
Proof. exact embed_ok. Qed.
Print Assumptions C37_events.

(** The events are those of records: whatever its payload, a BinData record that
    can be read has such attributes. *)
Theorem C37_record : forall version parent payload m st, version_ok version -> node_ok parent -> all_bytes payload ->
  reads version parent 18 payload (Ok m) -> m_type m = "BinData" /\ event_of_record (mkBev st (m_type m) (m_content m)).
Proof. exact bindata_record. Qed.
Print Assumptions C37_record.

Definition demo_attrs (flags : Z) : list (string * value) :=
  [("flags", VFlags [("storage", (0, 3, Some 10)); ("compression", (4, 5, Some 11))] flags); ("bindata", VDict (embedded_content 26 (zs "jpg")))].
Definition demo_read (n : list Z) : res (list Z) :=
  if list_eq_dec Z.eq_dec n (zs "BIN001A.jpg") then Ok (repeat 255 49) else Raise KeyError.
Example C37_case :
  (forall n d, demo_read n = Ok d -> all_bytes d) /\
  Forall event_of_record [mkBev true "BinData" (demo_attrs 0x11); mkBev true "BinData" (demo_attrs 0x12); mkBev false "Text" []] /\
  b64_text [77; 97] = zs "
TWE=
" /\
  (exists t, embed_bindata demo_read [mkBev true "BinData" (demo_attrs 0x11); mkBev true "BinData" (demo_attrs 0x12)] Finished =
     ([mkBev true "BinData" [hd ("", VInt 0) (demo_attrs 0x11);
         ("bindata", VDict [("storage_id", VInt 26); ("ext", VText (zs "jpg")); ("<text>", VText t); ("inline", VText (zs "true"))])];
       mkBev true "BinData" (demo_attrs 0x12)], Finished) /\
   List.length t = 71%nat /\ b64_decode (filter (fun c => negb (c =? 10)) t) = Some (repeat 255 49)).
Proof.
  split; [|split; [|split; [vm_compute; reflexivity|]]].
  - intros n d H. unfold demo_read in H. destruct (list_eq_dec Z.eq_dec n (zs "BIN001A.jpg")); [|discriminate]. injection H as <-.
    apply Forall_forall. intros x Hx. apply (repeat_spec 49 255 x) in Hx. subst. unfold is_byte. lia.
  - repeat apply Forall_cons; try apply Forall_nil.
    + intros _. exists 0x11, (Some (VDict (embedded_content 26 (zs "jpg")))). split.
      * exists (snd (hd ("", VInt 0) (demo_attrs 0x11))). do 2 eexists. split; [reflexivity|]. split; reflexivity.
      * intros _. exists 26, (zs "jpg"). split; [reflexivity|lia].
    + intros _. exists 0x12, (Some (VDict (embedded_content 26 (zs "jpg")))). split.
      * exists (snd (hd ("", VInt 0) (demo_attrs 0x12))). do 2 eexists. split; [reflexivity|]. split; reflexivity.
      * intros H. discriminate H.
    + intros H. discriminate H.
  - eexists. split; [vm_compute; reflexivity|]. split; vm_compute; reflexivity.
Qed.
