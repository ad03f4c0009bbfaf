(** C35 and C36: XML escaping and serialization. *)
From Coq Require Import ZArith List Bool Lia.
From Verif Require Import Base BaseFacts Model_XmlText Spec_XmlText Proof_XmlText.
Import ListNotations.
Open Scope Z_scope.

(** ** C35 *)

(** The characters written for a text denote that text without its NULs, for
    every text of legal characters; the reading is unique, and no '<' or '>' is
    written. *)
Theorem C35_text : forall t, Forall (fun c => legal c /\ c <> 13) t ->
  let out := drop_nul (escape t) in
  content_text out (without_nul t) /\ (forall t', content_text out t' -> t' = without_nul t) /\ ~ In 60 out /\ ~ In 62 out.
Proof.
  intros t H. cbv zeta. pose proof (escaped_text t H) as E. split; [exact E|]. split; [|exact (no_markup _ _ E)].
  intros t' E'. exact (content_deterministic _ _ _ E' E).
Qed.
Print Assumptions C35_text.

(** An attribute value is written between two equal quotes that do not occur
    in between, and denotes the value without its NULs (tabs, newlines and
    carriage returns included). *)
Theorem C35_attribute : forall v, Forall legal v -> exists q body, (q = 34 \/ q = 39) /\
  drop_nul (quoteattr v) = [q] ++ body ++ [q] /\ attr_value q body (without_nul v) /\
  (forall v', attr_value q body v' -> v' = without_nul v).
Proof.
  intros v H. destruct (quoted_value v H) as (q & body & Hq & E & A). exists q, body. repeat split; auto.
  intros v' A'. exact (attr_deterministic q body v' (without_nul v) Hq A' A).
Qed.
Print Assumptions C35_attribute.

(** Without the restriction to legal characters the claim is false: any other
    character makes the document unreadable. *)
Theorem C35_illegal_character_unreadable : forall es t c, In (XText t) es -> In c t -> c <> 0 -> ~ xml_char c ->
  xml_read (concat (xmlevents_to_textchunks es)) = None.
Proof. exact illegal_unreadable. Qed.
Print Assumptions C35_illegal_character_unreadable.

Theorem C35_every_text_refuted : exists t, ~ content_text (drop_nul (escape t)) (without_nul t).
Proof.
  exists [1]. cbv. intros H. inversion H as [|c out t Hc|]; subst. unfold xml_char in Hc. lia.
Qed.
Print Assumptions C35_every_text_refuted.

Example C35_case :
  Forall (fun c => legal c /\ c <> 13) [97; 0; 60; 38; 62; 0xd558] /\
  drop_nul (escape [97; 0; 60; 38; 62; 0xd558]) = [97; 38;108;116;59; 38;97;109;112;59; 38;103;116;59; 0xd558] /\
  Forall legal [34; 39; 10; 0] /\
  drop_nul (quoteattr [34; 39; 10; 0]) = [34; 38;113;117;111;116;59; 39; 38;35;49;48;59; 34].
Proof.
  split; [repeat (apply Forall_cons; [split; [unfold legal, xml_char; lia|discriminate]|]); apply Forall_nil|]. split; [vm_compute; reflexivity|].
  split; [repeat (apply Forall_cons; [unfold legal, xml_char; lia|]); apply Forall_nil|]. vm_compute; reflexivity.
Qed.

(** ** C36 *)

(** The written text is read back as the same elements, attributes (in order)
    and character data. *)
Theorem C36_text_reads_back : forall es, nested [] es -> Forall writable es ->
  xml_read (concat (xmlevents_to_textchunks es)) = Some (read_back [] es).
Proof. exact document_reads_back. Qed.
Print Assumptions C36_text_reads_back.

(** The same for the bytes: declaration, then UTF-8. *)
Theorem C36_bytes_read_back : forall decl es, nested [] es -> Forall writable es ->
  exists chunks text body, xml_bytechunks decl es = (chunks, Finished) /\
    concat chunks = (if decl then xml_declaration else []) ++ body /\
    utf8_decode body = Some text /\ xml_read text = Some (read_back [] es).
Proof. exact bytes_read_back. Qed.
Print Assumptions C36_bytes_read_back.

(** A text of scalar values is always encodable, a lone surrogate never. *)
Theorem C36_utf8 : forall s, Forall scalar s -> exists b, utf8_encode s = Ok b /\ utf8_decode b = Some s.
Proof. exact utf8_roundtrip. Qed.
Print Assumptions C36_utf8.

(** Carriage returns in character data are written raw and come back as
    newlines. *)
Theorem C36_carriage_return_lost_refuted : exists t, Forall legal t /\
  xml_read (concat (xmlevents_to_textchunks [XStart [97] []; XText t; XEnd [97]])) = Some [XStart [97] []; XText [98; 10; 99]; XEnd [97]] /\
  t <> [98; 10; 99].
Proof.
  exists [98; 13; 99]. split; [repeat constructor; unfold legal, xml_char; lia|]. split; [vm_compute; reflexivity|discriminate].
Qed.
Print Assumptions C36_carriage_return_lost_refuted.

Definition sample_events : list xevent :=
  [XStart [84; 101] [([105; 100], [34; 60; 9]); ([120], [])]; XText [97; 38]; XText [0; 98]; XStart [67] []; XEnd [67]; XText [0]; XEnd [84; 101]].
Example C36_case : nested [] sample_events /\ Forall writable sample_events /\
  read_back [] sample_events = [XStart [84; 101] [([105; 100], [34; 60; 9]); ([120], [])]; XText [97; 38; 98]; XStart [67] []; XEnd [67]; XEnd [84; 101]].
Proof.
  split; [|split; [|reflexivity]].
  - unfold sample_events. repeat constructor.
  - assert (L : forall c, 32 <= c <= 126 \/ c = 0 \/ c = 9 -> legal c /\ c <> 13) by (unfold legal, xml_char; lia).
    unfold sample_events. repeat (apply Forall_cons || apply Forall_nil); cbn [writable]; try (apply L; lia); try (repeat constructor; fail).
    split; [repeat constructor|]. split.
    { cbn [map fst]. constructor; [intros [H|[]]; discriminate|]. constructor; [intros []|constructor]. }
    repeat (apply Forall_cons || apply Forall_nil); cbn [fst snd]; (split; [repeat constructor|]);
        repeat (apply Forall_cons || apply Forall_nil); apply L; lia.
Qed.
