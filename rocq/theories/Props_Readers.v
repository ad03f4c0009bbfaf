(** C39 and C40: generator-backed readers and JSON arrays. *)
From Coq Require Import ZArith List Bool Lia.
From Verif Require Import Base BaseFacts Model_Readers Spec_Readers Proof_Readers.
Import ListNotations.
Open Scope Z_scope.

(** ** C39 *)

(** Any schedule of positive reads that ends with an empty answer delivered
    exactly the generated chunks. *)
Theorem C39_all_delivered : forall chunks sizes l r', Forall positive_size sizes ->
  reads (open_generator (chunks, Finished)) sizes = ((l ++ [[]], Finished), r') -> concat l = concat chunks.
Proof. intros chunks sizes l r' H E. exact (reads_until_empty sizes (open_generator (chunks, Finished)) l r' H eq_refl E). Qed.
Print Assumptions C39_all_delivered.

(** At every point of every schedule, delivered ++ remaining is everything. *)
Theorem C39_nothing_lost : forall chunks sizes g r', Forall positive_size sizes ->
  reads (open_generator (chunks, Finished)) sizes = (g, r') ->
  snd g = Finished /\ List.length (fst g) = List.length sizes /\ concat (fst g) ++ remaining r' = concat chunks.
Proof. intros chunks sizes g r' H E. exact (reads_conserve sizes (open_generator (chunks, Finished)) g r' H eq_refl E). Qed.
Print Assumptions C39_nothing_lost.

(** One read: empty exactly at the end. *)
Theorem C39_empty_only_at_end : forall r n d r', positive_size n -> g_end r = Finished -> greader_read r n = (Ok d, r') ->
  (d = [] <-> remaining r = []).
Proof. intros r n d r' H1 H2 H3. exact (proj2 (proj2 (read_conserves r n d r' H1 H2 H3))). Qed.
Print Assumptions C39_empty_only_at_end.

(** One sized read: exactly the first n of what remains while the generator is
    not exhausted, everything afterwards. *)
Theorem C39_sized_read : forall r n d r', 0 <= n -> g_end r = Finished -> greader_read r (Some n) = (Ok d, r') ->
  d = (match g_chunks r with [] => remaining r | _ => ztake n (remaining r) end) /\
  d ++ remaining r' = remaining r /\ g_end r' = Finished.
Proof. exact read_is. Qed.
Print Assumptions C39_sized_read.

Theorem C39_exceeds_only_exhausted : forall r n d r', 0 < n -> g_end r = Finished -> greader_read r (Some n) = (Ok d, r') ->
  zlen d > n -> g_chunks r = [] /\ d = remaining r /\ remaining r' = [].
Proof. exact read_exceeds_only_exhausted. Qed.
Print Assumptions C39_exceeds_only_exhausted.

(** It does happen: a sized read may return more than asked. *)
Theorem C39_size_respected_refuted : exists r n d r', 0 < n /\ greader_read r (Some n) = (Ok d, r') /\ zlen d > n.
Proof. exists (mkReader [] Finished [1; 2; 3]), 1, [1; 2; 3], (mkReader [] Finished []). repeat split; lia. Qed.
Print Assumptions C39_size_respected_refuted.

(** The extracting command copies everything and stops. *)
Theorem C39_cat_copies : forall chunks, exists n, forall fuel, (n <= fuel)%nat ->
  exists l, cat_loop fuel (open_generator (chunks, Finished)) = (l, Finished) /\ concat l = concat chunks /\ Forall (fun d => d <> []) l.
Proof.
  intros chunks. exists (S (List.length (concat chunks))). intros fuel Hf.
  apply cat_copies_all; [reflexivity|]. unfold remaining, zlen. cbn [g_buffer g_chunks app open_generator fst]. lia.
Qed.
Print Assumptions C39_cat_copies.

(** A failing generator: a sized read keeps what was generated so far for the
    next read; reading everything loses it. *)
Theorem C39_failure_keeps : forall r n e e' r', 0 < n -> g_end r = Failed e -> greader_read r (Some n) = (Raise e', r') ->
  e' = e /\ remaining r' = remaining r /\ g_end r' = Finished.
Proof. exact failing_read_keeps. Qed.
Print Assumptions C39_failure_keeps.

Theorem C39_failure_keeps_all_refuted : exists r e r', g_end r = Failed e /\ greader_read r None = (Raise e, r') /\ remaining r' <> remaining r.
Proof. exists (mkReader [[1]] (Failed IOError) [0]), IOError, (mkReader [] Finished []). repeat split. discriminate. Qed.
Print Assumptions C39_failure_keeps_all_refuted.

Example C39_case :
  let r := open_generator ([[1; 2; 3]; []; [4; 5]], Finished) in
  reads r (map Some [2; 2; 2; 1]) = (([[1; 2]; [3; 4]; [5]; []], Finished), mkReader [] Finished []) /\
  reads r [Some 1; None; Some 7] = (([[1]; [2; 3; 4; 5]; []], Finished), mkReader [] Finished []).
Proof. split; vm_compute; reflexivity. Qed.

(** ** C40 *)

Theorem C40_array : forall tokens, tokens <> [] -> Forall json_value tokens ->
  exists chunks, generate_json_array (tokens, Finished) = (chunks, Finished) /\ array_of tokens (concat chunks).
Proof. exact json_array_is. Qed.
Print Assumptions C40_array.

(** The elements of an array document are determined by its text. *)
Theorem C40_elements_unique : forall es es' t, array_of es t -> array_of es' t -> es = es'.
Proof. exact array_elements_unique. Qed.
Print Assumptions C40_elements_unique.

Theorem C40_array_is_json : forall es t, array_of es t -> json_text t.
Proof.
  intros es t H. exists [], t, []. cbn [app]. rewrite app_nil_r. split; [reflexivity|]. split; [constructor|]. split; [exact (array_is_value es t H)|constructor].
Qed.
Print Assumptions C40_array_is_json.

(** Objects rendered by a function that always gives JSON values. *)
Theorem C40_objects : forall A (f : A -> list Z) (objs : list A), objs <> [] -> (forall x, In x objs -> json_value (f x)) ->
  exists chunks, json_objects_generate (fun x => Ok (f x)) (objs, Finished) = (chunks, Finished) /\ array_of (map f objs) (concat chunks).
Proof. exact json_objects_is. Qed.
Print Assumptions C40_objects.

(** For the empty sequence the output is not JSON. *)
Theorem C40_empty_refuted : exists chunks, generate_json_array ([], Finished) = (chunks, Finished) /\ ~ json_text (concat chunks).
Proof. exact json_empty_invalid. Qed.
Print Assumptions C40_empty_refuted.

(** When the element stream fails the closing bracket is missing. *)
Theorem C40_failed : forall tokens e chunks o, generate_json_array (tokens, Failed e) = (chunks, o) ->
  o = Failed e /\ generate_json_array (tokens, Finished) = (chunks ++ [[10; 93]], Finished).
Proof. exact json_array_failed. Qed.
Print Assumptions C40_failed.

(** [1, "a,]"] : a string element containing the separator and the bracket. *)
Example C40_case :
  let tokens := [[49]; [34; 97; 44; 93; 34]] in
  Forall json_value tokens /\
  concat (fst (generate_json_array (tokens, Finished))) = [91; 10; 49; 44; 10; 34; 97; 44; 93; 34; 10; 93].
Proof.
  split; [|vm_compute; reflexivity]. constructor; [|constructor; [|constructor]].
  - apply jv_number; [discriminate|]. constructor; [left; unfold digit; lia|constructor].
  - apply jv_string. repeat (apply jstr_plain; [lia|lia|lia|]). apply jstr_close.
Qed.
