(** C44-C47: enumerating, unpacking and extending storages. *)
From Coq Require Import ZArith String List Bool Lia.
From Verif Require Import Base BaseFacts Model_Storage Spec_Storage Proof_Storage Proof_Ole Proof_Unpack.
Import ListNotations.
Open Scope string_scope.
Open Scope list_scope.
Open Scope Z_scope.

(** ** C44 *)

(** The leaves are exactly the files of the storage, each once, in order. *)
Theorem C44_leaves : forall x d, represents x d -> distinct d -> all_names no_slash d ->
  iter_storage_leafs x [] = (map (fun e => joined (fst e)) (files d), Finished) /\
  NoDup (map (fun e => joined (fst e)) (files d)).
Proof. intros x d H1 H2 H3. split; [exact (leaves_listed x d H1)|exact (leaves_distinct d H2 H3)]. Qed.
Print Assumptions C44_leaves.

(** Opening a listed path gives the contents of that file. *)
Theorem C44_openable : forall x d p b, represents x d -> all_names no_slash d -> In (p, b) (files d) ->
  exists y, open_storage_item x (joined p) = Ok y /\ open y = Ok b.
Proof. exact leaves_openable. Qed.
Print Assumptions C44_openable.

(** Names with slashes: two streams with one path. *)
Theorem C44_slash_refuted : exists x d, represents x d /\ distinct d /\ ~ NoDup (fst (iter_storage_leafs x [])).
Proof.
  exists (dir_item (DFile (zs "a/b") [1] (DDir (zs "a") (DFile (zs "b") [2] DNil) DNil))).
  exists (DFile (zs "a/b") [1] (DDir (zs "a") (DFile (zs "b") [2] DNil) DNil)).
  assert (HD : distinct (DFile (zs "a/b") [1] (DDir (zs "a") (DFile (zs "b") [2] DNil) DNil))) by (cbn; repeat split; auto; intros [H|[]]; discriminate).
  split; [now apply dir_item_represents|]. split; [exact HD|]. intros H. vm_compute in H. inversion H; subst. apply H2. now left.
Qed.
Print Assumptions C44_slash_refuted.

Definition sample : dir :=
  DFile (zs "FileHeader") [1; 2] (DDir (zs "BodyText") (DFile (zs "Section0") [3] (DDir (zs "deep") (DFile (zs "x") [4; 5] DNil) DNil)) (DDir (zs "empty") DNil (DFile (5 :: zs "Summary") [] DNil))).
Lemma sample_distinct : distinct sample.
Proof. cbn. repeat split; auto; intros H; repeat (destruct H as [H|H]; [discriminate|]); contradiction. Qed.
Lemma sample_no_slash : all_names no_slash sample.
Proof. cbn. unfold no_slash. repeat split; auto; cbn; intuition discriminate. Qed.
Example C44_case :
  (represents (dir_item sample) sample /\ distinct sample /\ all_names no_slash sample) /\
  fst (iter_storage_leafs (dir_item sample) []) = [zs "FileHeader"; zs "BodyText/Section0"; zs "BodyText/deep/x"; 5 :: zs "Summary"].
Proof. split; [|reflexivity]. split; [exact (dir_item_represents sample sample_distinct)|]. split; [exact sample_distinct|exact sample_no_slash]. Qed.

(** ** C45 *)

(** The root: every first component once, in order of first appearance. *)
Theorem C45_root : forall o fuel, Forall (fun p => p <> []) (ole_listdir o) ->
  exists l, iter (ole_storage fuel o []) = (l, Finished) /\ keep_first (map (fun p => hd [] p) (ole_listdir o)) l.
Proof. exact root_lists_tops. Qed.
Print Assumptions C45_root.

(** A storage: the names of the streams directly below it, in order. *)
Theorem C45_storage : forall o p fuel, p <> [] -> Forall (fun n => n <> [] /\ no_slash n) p ->
  ole_exists o (joined p) = true -> ole_type o (joined p) = 1 ->
  exists l, iter (ole_storage fuel o (joined p)) = (l, Finished) /\ directly_below p (ole_listdir o) l.
Proof. exact storage_lists_streams. Qed.
Print Assumptions C45_storage.

(** What does not exist or is not a storage cannot be listed. *)
Theorem C45_not_a_storage : forall o path fuel, path <> [] -> path <> [47] -> ole_exists o path = false \/ ole_type o path <> 1 ->
  iter (ole_storage fuel o path) = ([], Failed IOError).
Proof. exact not_a_storage. Qed.
Print Assumptions C45_not_a_storage.

(** Indexing: a stream, a storage, or KeyError. *)
Theorem C45_get : forall o fuel p n, Forall (fun n => n <> [] /\ no_slash n) p ->
  (ole_exists o (joined (p ++ [n])) = false -> get (ole_storage fuel o (joined p)) n = Raise KeyError) /\
  (ole_exists o (joined (p ++ [n])) = true -> ole_type o (joined (p ++ [n])) = 2 -> get (ole_storage fuel o (joined p)) n = Ok (stream_item (ole_open o (joined (p ++ [n]))) [])) /\
  (ole_exists o (joined (p ++ [n])) = true -> ole_type o (joined (p ++ [n])) = 1 -> get (ole_storage (S fuel) o (joined p)) n = Ok (ole_storage fuel o (joined (p ++ [n])))) /\
  (ole_type o (joined (p ++ [n])) <> 1 -> ole_type o (joined (p ++ [n])) <> 2 -> get (ole_storage fuel o (joined p)) n = Raise KeyError).
Proof. exact ole_get_cases. Qed.
Print Assumptions C45_get.

(** The leaves are the streams at most two levels deep, each once. *)
Theorem C45_leaves : forall o fuel, ole_ok o -> exists l, iter_storage_leafs (ole_storage (S fuel) o []) [] = (l, Finished) /\
  NoDup l /\ forall t, In t l <-> exists p, In p (ole_listdir o) /\ (List.length p <= 2)%nat /\ t = joined p.
Proof. exact ole_leaves. Qed.
Print Assumptions C45_leaves.

(** Streams at any depth can be opened. *)
Theorem C45_opens : forall o p b fuel, ole_ok o -> In p (ole_listdir o) -> ole_open o (joined p) = Ok b -> (List.length p <= fuel)%nat ->
  exists y, open_storage_item (ole_storage fuel o []) (joined p) = Ok y /\ is_storage y = false /\ open y = Ok b.
Proof. exact ole_opens. Qed.
Print Assumptions C45_opens.

Definition ole_sample : list (list name * list Z) :=
  [([zs "FileHeader"], [1]); ([zs "BodyText"; zs "Section0"], [2]); ([zs "BodyText"; zs "Section1"], [3]); ([zs "DocInfo"], [4]); ([zs "Scripts"; zs "deep"; zs "x"], [5])].
Lemma ole_sample_ok : ole_ok (ole_of ole_sample).
Proof.
  apply ole_of_ok. split; [|split].
  - cbn. repeat constructor; cbn; intuition discriminate.
  - intros p H. repeat (destruct H as [<-|H]; [split; [discriminate|repeat constructor; (discriminate || (unfold no_slash; cbn; intuition discriminate))]|]). contradiction.
  - intros p q HP HQ. cbn in HP. repeat (destruct HP as [<-|HP]; [cbn in HQ; repeat match type of HQ with _ \/ _ => destruct HQ as [HQ|HQ]; [first [discriminate HQ|injection HQ; intros <-; reflexivity]|] end; contradiction HQ|]). contradiction.
Qed.
(** A stream that is never listed, but can be opened. *)
Theorem C45_deep_refuted : exists o p b, ole_ok o /\ In p (ole_listdir o) /\
  (forall fuel, ~ In (joined p) (fst (iter_storage_leafs (ole_storage (S fuel) o []) []))) /\
  exists y, open_storage_item (ole_storage 3 o []) (joined p) = Ok y /\ open y = Ok b.
Proof.
  exists (ole_of ole_sample), [zs "Scripts"; zs "deep"; zs "x"], [5]. split; [exact ole_sample_ok|]. split; [cbn; tauto|]. split.
  - intros fuel HI. destruct (ole_leaves _ fuel ole_sample_ok) as (l & E & _ & HL). rewrite E in HI. apply HL in HI. destruct HI as (p & HP & HLen & HJ).
    cbn in HP. repeat (destruct HP as [<-|HP]; [vm_compute in HJ; try discriminate; cbn in HLen; lia|]). contradiction.
  - eexists. split; vm_compute; reflexivity.
Qed.
Print Assumptions C45_deep_refuted.

Example C45_case :
  ole_ok (ole_of ole_sample) /\
  fst (iter (ole_storage 3 (ole_of ole_sample) [])) = [zs "FileHeader"; zs "BodyText"; zs "DocInfo"; zs "Scripts"] /\
  fst (iter_storage_leafs (ole_storage 3 (ole_of ole_sample) []) []) = [zs "FileHeader"; zs "BodyText/Section0"; zs "BodyText/Section1"; zs "DocInfo"].
Proof. split; [exact ole_sample_ok|]. split; vm_compute; reflexivity. Qed.

(** ** C46 *)

(** Below the target there is afterwards exactly the contents of the storage
    (0x05 in file names spelled _05); everything else is as before. *)
Theorem C46_unpack : forall x d cwd outbase base f,
  represents x d -> all_names plain d -> dirs_without_05 d -> distinct (spell d) ->
  ~ In 5 outbase -> last outbase 0 <> 47 -> fs_resolve f cwd outbase = Ok base -> fs_lookup f base = Some Dir -> (forall n p, fs_lookup f (base ++ n :: p) = None) ->
  exists f', unpack x cwd outbase f = (f', Ok tt) /\
    (forall n p, fs_lookup f' (base ++ n :: p) = at_path (spell d) n p) /\
    (forall p, (forall n q, p <> base ++ n :: q) -> fs_lookup f' p = fs_lookup f p).
Proof. exact unpack_fresh. Qed.
Print Assumptions C46_unpack.

(** The command makes the target directory when there is none. *)
Theorem C46_command : forall x d cwd outdir base f,
  represents x d -> all_names plain d -> dirs_without_05 d -> distinct (spell d) ->
  ~ In 5 outdir -> last outdir 0 <> 47 -> base <> [] -> fs_resolve f cwd outdir = Ok base -> (fs_lookup f base = Some Dir \/ fs_lookup f base = None) -> (forall n p, fs_lookup f (base ++ n :: p) = None) ->
  exists f', unpack_main x cwd outdir f = (f', Ok tt) /\ fs_lookup f' base = Some Dir /\
    (forall n p, fs_lookup f' (base ++ n :: p) = at_path (spell d) n p) /\
    (forall p, p <> base -> (forall n q, p <> base ++ n :: q) -> fs_lookup f' p = fs_lookup f p).
Proof. exact unpack_main_fresh. Qed.
Print Assumptions C46_command.

(** Names that are not plain: a file written outside of the target. *)
Definition escaping : dir := DDir (zs "..") (DFile (zs "x") [1] DNil) DNil.
Theorem C46_escape_refuted : exists x d cwd outbase base f f' p,
  represents x d /\ fs_resolve f cwd outbase = Ok base /\ fs_lookup f base = Some Dir /\
  unpack x cwd outbase f = (f', Ok tt) /\ (forall n q, p <> base ++ n :: q) /\ fs_lookup f' p <> fs_lookup f p.
Proof.
  exists (dir_item escaping), escaping, [zs "w"], (zs "out"), [zs "w"; zs "out"], [([zs "w"; zs "out"], Dir); ([zs "w"], Dir)], [([zs "w"; zs "x"], File [1]); ([zs "w"; zs "out"], Dir); ([zs "w"], Dir)], [zs "w"; zs "x"].
  split; [apply dir_item_represents; cbn; tauto|]. repeat split; try (vm_compute; reflexivity); [intros n q; discriminate|vm_compute; discriminate].
Qed.
Print Assumptions C46_escape_refuted.

(** Names that are spelled alike: one file is lost. *)
Definition colliding : dir := DFile (5 :: zs "a") [1] (DFile (zs "_05a") [2] DNil).
Theorem C46_collision_refuted : exists x d cwd outbase base f f',
  represents x d /\ distinct d /\ all_names plain d /\ fs_resolve f cwd outbase = Ok base /\
  unpack x cwd outbase f = (f', Ok tt) /\ In ([5 :: zs "a"], [1]) (files d) /\ forall p, fs_lookup f' (base ++ p) <> Some (File [1]).
Proof.
  exists (dir_item colliding), colliding, [zs "w"], (zs "out"), [zs "w"; zs "out"], [([zs "w"; zs "out"], Dir); ([zs "w"], Dir)], [([zs "w"; zs "out"; zs "_05a"], File [2]); ([zs "w"; zs "out"; zs "_05a"], File [1]); ([zs "w"; zs "out"], Dir); ([zs "w"], Dir)].
  assert (HD : distinct colliding) by (cbn; intuition discriminate).
  split; [now apply dir_item_represents|]. split; [exact HD|]. split; [cbn; unfold plain; cbn; intuition discriminate|]. repeat split; try (vm_compute; reflexivity); [now left|].
  intros p HX. rewrite !lookup_cons in HX by discriminate. cbn [app] in HX.
  repeat match type of HX with (if ?c then _ else _) = _ => destruct c eqn:?; try discriminate end.
Qed.
Print Assumptions C46_collision_refuted.

(** A storage with 0x05 in its name that contains a stream cannot be unpacked. *)
Definition five_dir : dir := DDir (5 :: zs "d") (DFile (zs "x") [1] DNil) DNil.
Theorem C46_storage_05_refuted : exists x d cwd outbase base f,
  represents x d /\ all_names plain d /\ fs_resolve f cwd outbase = Ok base /\ fs_lookup f base = Some Dir /\ snd (unpack x cwd outbase f) = Raise IOError.
Proof.
  exists (dir_item five_dir), five_dir, [zs "w"], (zs "out"), [zs "w"; zs "out"], [([zs "w"; zs "out"], Dir); ([zs "w"], Dir)].
  split; [apply dir_item_represents; cbn; tauto|]. split; [cbn; unfold plain; cbn; intuition discriminate|]. repeat split; vm_compute; reflexivity.
Qed.
Print Assumptions C46_storage_05_refuted.

Example C46_case :
  (all_names plain sample /\ dirs_without_05 sample /\ distinct (spell sample)) /\
  (let f := [([zs "w"; zs "out"], Dir); ([zs "w"], Dir)] in
   fs_resolve f [zs "w"] (zs "out") = Ok [zs "w"; zs "out"] /\
   let f' := fst (unpack (dir_item sample) [zs "w"] (zs "out") f) in
   fs_lookup f' [zs "w"; zs "out"; zs "BodyText"; zs "deep"; zs "x"] = Some (File [4; 5]) /\
   fs_lookup f' [zs "w"; zs "out"; zs "_05Summary"] = Some (File [])).
Proof.
  split; [|repeat split; vm_compute; reflexivity]. split; [cbn; unfold plain; cbn; intuition discriminate|]. split; [cbn; intuition discriminate|]. cbn. intuition discriminate.
Qed.

(** ** C47 *)

(** Listed: every item, followed by its virtual streams. *)
Theorem C47_listing : forall x, listable x ->
  iter (extra x) = (flat_map (fun n => n :: map (app n) (suffixes x n)) (fst (iter x)), Finished).
Proof. exact extra_listing. Qed.
Print Assumptions C47_listing.

(** Items come first, then virtual streams; other names are unknown; what is
    listed can be looked up. *)
Theorem C47_get : forall x n, listable x ->
  (forall y, get x n = Ok y -> get (extra x) n = Ok (if is_storage y then extra y else y)) /\
  (~ In n (fst (iter x)) -> forall c, virtual x n c -> get (extra x) n = Ok (stream_item c [])) /\
  (~ In n (fst (iter (extra x))) -> get (extra x) n = Raise KeyError) /\
  (In n (fst (iter (extra x))) -> exists y, get (extra x) n = Ok y).
Proof. exact extra_get. Qed.
Print Assumptions C47_get.

Definition virtual_sample : item :=
  storage_item ([zs "PrvText"; zs "FileHeader"; zs "plain"], Finished)
    (fun n => if name_eqb n (zs "PrvText") then Ok (stream_item (Ok [1]) [(zs ".utf8", Ok [2])])
              else if name_eqb n (zs "FileHeader") then Ok (stream_item (Ok [3]) [(zs ".txt", Ok [4])])
              else if name_eqb n (zs "plain") then Ok (stream_item (Ok [5]) []) else Raise KeyError).
Example C47_case :
  listable virtual_sample /\
  fst (iter (extra virtual_sample)) = [zs "PrvText"; zs "PrvText.utf8"; zs "FileHeader"; zs "FileHeader.txt"; zs "plain"] /\
  virtual virtual_sample (zs "FileHeader.txt") (Ok [4]).
Proof.
  split; [|split; [reflexivity|]].
  - constructor; [reflexivity|cbn; repeat constructor; eexists; reflexivity|]. intros n H. cbn. cbn in H.
    rewrite !(proj2 (name_eqb_neq _ _)) by (intros ->; tauto). reflexivity.
  - exists [zs "PrvText"], (zs "FileHeader"), [zs "plain"], (stream_item (Ok [3]) [(zs ".txt", Ok [4])]), [], (zs ".txt"), []. repeat split; try reflexivity; [|constructor].
    intros r [<-|[]] [H|[]]. discriminate.
Qed.

(** A virtual stream with the name of an item: listed twice, not reachable. *)
Theorem C47_collision_refuted : exists x n c, listable x /\ virtual x n c /\ ~ NoDup (fst (iter (extra x))) /\ get (extra x) n <> Ok (stream_item c []).
Proof.
  exists (storage_item ([zs "a"; zs "a.txt"], Finished)
    (fun n => if name_eqb n (zs "a") then Ok (stream_item (Ok [1]) [(zs ".txt", Ok [2])])
              else if name_eqb n (zs "a.txt") then Ok (stream_item (Ok [3]) []) else Raise KeyError)), (zs "a.txt"), (Ok [2]).
  split; [|split; [|split]].
  - constructor; [reflexivity|cbn; repeat constructor; eexists; reflexivity|]. intros n H. cbn. cbn in H. rewrite !(proj2 (name_eqb_neq _ _)) by (intros ->; tauto). reflexivity.
  - exists [], (zs "a"), [zs "a.txt"], (stream_item (Ok [1]) [(zs ".txt", Ok [2])]), [], (zs ".txt"), []. repeat split; try reflexivity; [|constructor]. intros r [].
  - intros H. vm_compute in H. inversion H as [|? ? _ H']; subst. inversion H' as [|? ? H2 _]; subst. apply H2. now left.
  - vm_compute. discriminate.
Qed.
Print Assumptions C47_collision_refuted.
