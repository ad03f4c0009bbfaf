(** C54: the models of records.  C57: face names by language. *)
From Coq Require Import ZArith String List Bool Lia.
From Verif Require Import Base Model_Dataio Model_Record Model_Bintype Model_Layouts Model_Models Spec_Tree Spec_Bintype Spec_Models Proof_Models.
From Verif Require Spec_Record Proof_Record.
Import ListNotations.
Open Scope string_scope.
Open Scope list_scope.
Open Scope Z_scope.

(** C54.  For every sequence of records, and however it ends, what is read is
    what the specification says: the class by tag, the parent by level, the
    refinement by control id or by parent. *)
Theorem C54_models : forall version records o, Forall (fun r => all_bytes (r_payload r)) records ->
  exists f out o', models_of version o [] records out o' /\
    forall k, parse_models (f + k) version (records, o) = (out, o').
Proof. exact parse_models_is. Qed.
Print Assumptions C54_models.

(** The specification allows only one outcome. *)
Theorem C54_unique : forall version o records out o1 out2 o2,
  models_of version o [] records out o1 -> models_of version o [] records out2 o2 -> out = out2 /\ o1 = o2.
Proof. intros v o rs out o1 out2 o2. exact (models_of_fun v o rs [] nothing_done out o1 out2 o2). Qed.
Print Assumptions C54_unique.

(** Record by record: the models are those of the records in order; the [i]th is
    read with the parent determined by the records before it; reading stops at
    the first record whose level does not fit or that cannot be read. *)
Theorem C54_each_record : forall version o records out o', models_of version o [] records out o' ->
  map fst out = firstn (List.length out) records /\
  (forall i r m, nth_error out i = Some (r, m) -> exists parent,
     parent_of (r_level r) (firstn i out) parent /\ reads version parent (r_tagid r) (r_payload r) (Ok m)) /\
  (List.length out = List.length records /\ o' = o \/
   exists r e, nth_error records (List.length out) = Some r /\ o' = Failed e /\
     (too_deep out (r_level r) /\ e = InvalidLevel \/ above_first out (r_level r) /\ e = IndexError \/
      exists parent, parent_of (r_level r) out parent /\ reads version parent (r_tagid r) (r_payload r) (Raise e))).
Proof. intros v o rs out o' H. exact (each_record v o rs [] out o' H). Qed.
Print Assumptions C54_each_record.

(** One record. *)
Theorem C54_one_record : forall version parent tagid payload, all_bytes payload ->
  exists n r, reads version parent tagid payload r /\
    forall k, parse_model (n + k) version parent tagid payload = Some r.
Proof. exact parse_model_is. Qed.
Print Assumptions C54_one_record.

(** The unparsed part of a model is the end of the payload; the leaves reported
    for it tile what precedes. *)
Theorem C54_unparsed : forall version parent tagid payload m, all_bytes payload ->
  reads version parent tagid payload (Ok m) ->
  exists s', covers node (m_binevents m) (open_bytes payload) s' /\ s_rest s' = m_unparsed m /\
    exists b, payload = b ++ m_unparsed m /\ s_pos s' = zlen b.
Proof. exact reads_tiles. Qed.
Print Assumptions C54_unparsed.

(** A whole stream is read tree by tree. *)
Theorem C54_stream : forall version records groups, Forall (fun r => all_bytes (r_payload r)) records ->
  Spec_Record.is_grouping r_level records groups ->
  exists f out o', trees_of version Finished groups out o' /\
    forall k, stream_models (f + k) version (records, Finished) = (out, o').
Proof.
  intros v rs gs HB HG. destruct (chain_is v gs Finished) as (f & out & o' & T & C).
  - destruct HG as (<- & _). revert HB. induction gs as [|g gs IH]; intros HB; constructor.
    + apply Forall_forall. intros x Hx. rewrite Forall_forall in HB. apply HB. cbn. apply in_or_app. left. exact Hx.
    + apply IH. apply Forall_forall. intros x Hx. rewrite Forall_forall in HB. apply HB. cbn. apply in_or_app. right. exact Hx.
  - exists f, out, o'. split; [exact T|]. intros k. unfold stream_models.
    rewrite (proj2 (Proof_Record.grouping_correct _ r_level rs gs) HG). apply C.
Qed.
Print Assumptions C54_stream.

(** One tree of it can be read alone; without such a tree, a TypeError. *)
Theorem C54_one_tree : forall version records groups n, Forall (fun r => all_bytes (r_payload r)) records ->
  Spec_Record.is_grouping r_level records groups ->
  match nth_error groups n with
  | Some g => exists f out o', models_of version Finished [] g out o' /\
                forall k, treegroup_models (f + k) version n (records, Finished) = (out, o')
  | None => forall fuel, treegroup_models fuel version n (records, Finished) = ([], Failed TypeError)
  end.
Proof.
  intros v rs gs n HB HG. unfold treegroup_models. rewrite (proj2 (Proof_Record.tree_selection n rs gs HG)).
  destruct (nth_error gs n) as [g|] eqn:E; [|reflexivity]. apply parse_models_is. destruct HG as (<- & _).
  apply Forall_forall. intros x Hx. rewrite Forall_forall in HB. apply HB. apply nth_error_In in E. apply in_concat. eauto.
Qed.
Print Assumptions C54_one_tree.

(** If it begins with a top-level record, that is as if it were read at once. *)
Theorem C54_grouping_irrelevant : forall fuel version records,
  Forall (fun r => 0 <= r_level r) records ->
  (forall r rest, records = r :: rest -> r_level r = 0) ->
  stream_models fuel version (records, Finished) = parse_models fuel version (records, Finished).
Proof. exact grouping_irrelevant. Qed.
Print Assumptions C54_grouping_irrelevant.

(** A list header or the data of a control has no meaning at the top of a tree:
    it is a KeyError. *)
Theorem C54_needs_parent : forall version tagid payload r, (tagid = 72 \/ tagid = 87) ->
  reads version (mkNode None None false) tagid payload r -> exists e, r = Raise e.
Proof.
  intros v tagid payload r HT H. destruct HT as [-> | ->];
  (inversion H; subst; eauto;
   match goal with R : refined _ _ _ (Ok _) |- _ => inversion R; subst; cbn in *; try discriminate; try tauto end).
Qed.
Print Assumptions C54_needs_parent.

(** A small table: control, caption list header, body, cell list header; and the
    same records with a second table nested in the cell. *)
Definition lh : list Z := [1;0; 0;0; 0;0;0;0].
Definition tbl_payload : list Z := [32; 108; 98; 116] ++ repeat 0 42.
Definition cap_payload : list Z := lh ++ repeat 0 14.
Definition cell_payload : list Z := lh ++ repeat 0 30.
Definition body_payload : list Z := repeat 0 22.
Definition rec (tagid level : Z) (payload : list Z) : record := mkRecord tagid [] level (zlen payload) payload None.
Definition table_records : list record :=
  [rec 71 0 tbl_payload; rec 72 1 cap_payload; rec 77 1 body_payload; rec 72 1 cell_payload;
   rec 66 2 (repeat 0 22); rec 71 3 tbl_payload; rec 72 4 cap_payload; rec 77 4 body_payload; rec 72 4 cell_payload;
   rec 72 1 (cell_payload ++ [7; 8])].
Example C54_case :
  Forall (fun r => all_bytes (r_payload r)) table_records /\
  (let '(out, o) := parse_models 200 [5; 0; 2; 4] (table_records, Finished) in
   o = Finished /\
   map (fun rm => m_type (snd rm)) out =
     ["TableControl"; "TableCaption"; "TableBody"; "TableCell"; "Paragraph"; "TableControl"; "TableCaption"; "TableBody"; "TableCell"; "TableCell"] /\
   last (map (fun rm => m_unparsed (snd rm)) out) [] = [7; 8]) /\
  snd (parse_models 200 [5; 0; 2; 4] ([rec 71 0 tbl_payload; rec 72 2 lh], Finished)) = Failed InvalidLevel /\
  snd (parse_models 200 [5; 0; 2; 4] ([rec 66 1 (repeat 0 22); rec 66 0 (repeat 0 22)], Finished)) = Failed IndexError /\
  snd (parse_models 200 [5; 0; 2; 4] ([rec 72 0 lh], Finished)) = Failed KeyError.
Proof.
  split; [repeat (constructor; [apply Forall_forall; intros x Hx; cbn in Hx; unfold is_byte; repeat (destruct Hx as [<-|Hx]; [lia|]); contradiction|]); constructor|].
  vm_compute. repeat split.
Qed.

(** C57.  The face names by language: consecutive blocks of the face names, of
    the declared lengths, in the order of the languages. *)
Theorem C57_blocks : forall ms m counts, snd ms = Finished ->
  find (fun m => String.eqb (m_type m) "IdMappings") (map snd (fst ms)) = Some m -> declares m counts ->
  facenames_by_lang ms = Ok (combine languages (blocks counts (of_type "FaceName" (fst ms)))).
Proof. exact facenames_are. Qed.
Print Assumptions C57_blocks.

Theorem C57_concatenation : forall A counts (l : list A), concat (blocks counts l) = firstn (sum counts) l.
Proof. exact blocks_concat. Qed.
Print Assumptions C57_concatenation.

Theorem C57_whole : forall A counts (l : list A), sum counts = List.length l -> concat (blocks counts l) = l.
Proof. intros A counts l H. rewrite blocks_concat, H. apply firstn_all. Qed.
Print Assumptions C57_whole.

(** Block [i] begins where those before it end. *)
Theorem C57_nth_block : forall A counts (l : list A) i n, nth_error counts i = Some n ->
  nth_error (blocks counts l) i = Some (firstn n (skipn (sum (firstn i counts)) l)).
Proof. exact blocks_nth. Qed.
Print Assumptions C57_nth_block.

(** The face name of a character shape for a language: the entry of the face
    name list, counted from where the block of that language begins. *)
Theorem C57_face_of_charshape : forall ms m counts cs faces id lang j n i,
  snd ms = Finished ->
  find (fun m => String.eqb (m_type m) "IdMappings") (map snd (fst ms)) = Some m -> declares m counts ->
  nth_error (of_type "CharShape" (fst ms)) id = Some cs ->
  dict_get "font_face" (m_content cs) = Some (VDict faces) -> dict_get lang faces = Some (VInt (Z.of_nat i)) ->
  nth_error languages j = Some lang -> nth_error counts j = Some n ->
  charshape_lang_facename ms id lang =
    match (if Nat.ltb i n then nth_error (of_type "FaceName" (fst ms)) (sum (firstn j counts) + i)%nat else None) with
    | Some f => Ok f
    | None => Raise IndexError
    end.
Proof. exact face_of_charshape. Qed.
Print Assumptions C57_face_of_charshape.

(** Two Korean, one English and one user font; a character shape that uses the
    second Korean and the only user font. *)
Definition u32 (n : Z) : list Z := [n; 0; 0; 0].
Definition u16 (n : Z) : list Z := [n; 0].
Definition docinfo_records : list record :=
  [rec 17 0 (concat (map u32 [0; 2; 1; 0; 0; 0; 0; 1; 0; 1; 0; 0; 0; 0; 0]));
   rec 19 1 ([0] ++ u16 1 ++ u16 65); rec 19 1 ([0] ++ u16 1 ++ u16 66);
   rec 19 1 ([0] ++ u16 1 ++ u16 67); rec 19 1 ([0] ++ u16 1 ++ u16 68);
   rec 21 1 (concat (map u16 [1; 0; 0; 0; 0; 0; 0]) ++ repeat 0 54)].
Definition docinfo_models : gen (record * model) := stream_models 300 [5; 0; 1; 0] (docinfo_records, Finished).
Definition face (f : res model) : option value :=
  match f with Ok m => dict_get "name" (m_content m) | Raise _ => None end.
Example C57_case :
  snd docinfo_models = Finished /\
  (exists m, find (fun m => String.eqb (m_type m) "IdMappings") (map snd (fst docinfo_models)) = Some m /\
     declares m [2; 1; 0; 0; 0; 0; 1]%nat) /\
  face (charshape_lang_facename docinfo_models 0 "ko") = Some (VText [66]) /\
  face (charshape_lang_facename docinfo_models 0 "en") = Some (VText [67]) /\
  face (charshape_lang_facename docinfo_models 0 "user") = Some (VText [68]) /\
  charshape_lang_facename docinfo_models 0 "jp" = Raise IndexError.
Proof.
  split; [vm_compute; reflexivity|]. split; [|vm_compute; repeat split].
  eexists. split; [vm_compute; reflexivity|]. repeat constructor.
Qed.
