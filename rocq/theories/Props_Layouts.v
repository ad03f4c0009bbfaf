(** C67: what the members of every record are. *)
From Coq Require Import ZArith String List Bool Lia.
From Verif Require Import Base BaseFacts Model_Dataio Model_Record Model_Bintype Model_Layouts Model_Models Spec_Bintype Spec_Models Spec_Layouts Proof_Models Proof_Layouts.
From Verif Require Props_Models.
Import ListNotations.
Open Scope string_scope.
Open Scope list_scope.
Open Scope Z_scope.

(** C67.  The members of every record read from a stream, and what is left of
    its payload, are those of the description of its type, given the version of
    the file and the nearest record one level up. *)
Theorem C67_every_record : forall version o records out o', version_ok version ->
  Forall (fun r => all_bytes (r_payload r)) records -> models_of version o [] records out o' ->
  forall i r m, nth_error out i = Some (r, m) ->
  exists p, nearest (r_level r) (firstn i out) p /\
    parse_all version p (record_parts (r_tagid r) (m_type m)) [] (r_payload r) = Some (views (m_content m), m_unparsed m).
Proof.
  intros version o records out o' HV HB HM i r m HI.
  destruct (each_record version o records [] out o' HM) as (H1 & H2 & _).
  destruct (H2 i r m HI) as (n & HP & HR). destruct (nearest_is _ _ _ HP) as [N1 N2]. exists (seen_by n). split; [exact N1|].
  apply content_is; try assumption. rewrite Forall_forall in HB. apply HB.
  rewrite <- (firstn_skipn (List.length out) records). apply in_or_app. left. rewrite <- H1. apply nth_error_In in HI. exact (in_map fst _ _ HI).
Qed.
Print Assumptions C67_every_record.

(** The same for one record. *)
Theorem C67_one_record : forall version parent tagid payload m, version_ok version -> node_ok parent -> all_bytes payload ->
  reads version parent tagid payload (Ok m) ->
  parse_all version (seen_by parent) (record_parts tagid (m_type m)) [] payload = Some (views (m_content m), m_unparsed m).
Proof. exact content_is. Qed.
Print Assumptions C67_one_record.

(** A record cannot be read only if its payload does not fit the description, or
    if it is a list header or control data at the top of a tree. *)
Theorem C67_failure : forall version parent tagid payload e, version_ok version -> node_ok parent -> all_bytes payload ->
  reads version parent tagid payload (Raise e) ->
  n_type parent = None /\ (tagid = 72 \/ tagid = 87) \/
  parse_all version (seen_by parent) (record_parts tagid (type_of_tag tagid)) [] payload = None \/
  (exists t d, refined parent (type_of_tag tagid) d (Ok (Some t)) /\
     (exists r, parse_all version (seen_by parent) (record_parts tagid (type_of_tag tagid)) [] payload = Some (views d, r)) /\
     parse_all version (seen_by parent) (record_parts tagid t) [] payload = None).
Proof. exact failure_is. Qed.
Print Assumptions C67_failure.

(** Numbers are read back as they are written. *)
Theorem C67_numbers : forall w n rest, 0 <= n < 256 ^ Z.of_nat w -> unsigned w (le_encode w n ++ rest) = Some (n, rest).
Proof. exact unsigned_encode. Qed.
Print Assumptions C67_numbers.

(** C57: the counts of face names are the second to eighth number of the id
    mappings record, so that the blocks of C57 are determined by its bytes. *)
Theorem C57_declared_counts : forall version parent first counts more rest m, version_ok version -> node_ok parent ->
  List.length counts = 7%nat -> Forall (fun n => Z.of_nat n < 256 ^ 4) counts ->
  0 <= first < 256 ^ 4 -> Forall (fun n => 0 <= n < 256 ^ 4) more -> all_bytes rest ->
  reads version parent 17 (flat_map (le_encode 4) (first :: map Z.of_nat counts ++ more) ++ rest) (Ok m) ->
  declares m counts.
Proof. exact declared_counts. Qed.
Print Assumptions C57_declared_counts.

(** The nested tables of C54, a page definition with named bits, and a numbering
    whose last member appears with version 5.0.2.5 only. *)
Definition page_def : list Z := flat_map (le_encode 4) [59528; 84188; 8504; 8504; 5668; 4252; 4252; 4252; 0; 3].
Example C67_case :
  Forall (fun r => all_bytes (r_payload r)) (Props_Models.table_records) /\ version_ok [5; 0; 2; 4] /\
  (let '(out, o) := parse_models 200 [5; 0; 2; 4] (Props_Models.table_records, Finished) in
   o = Finished /\ List.length out = 10%nat /\
   map (fun rm => parse_all [5; 0; 2; 4] (Parent None None) (record_parts (r_tagid (fst rm)) (m_type (snd rm))) [] (r_payload (fst rm))) out =
   map (fun rm => Some (views (m_content (snd rm)), m_unparsed (snd rm))) out /\
   forallb (fun rm => negb (Nat.eqb (List.length (m_content (snd rm))) 0)) out = true) /\
  (exists d, parse_all [5; 0; 2; 4] (Parent (Some "SectionDef") (Some [])) (record_parts 73 "PageDef") [] (page_def ++ [9]) = Some (d, [9]) /\
     look "width" d = Some (Int 59528) /\
     look "attr" d = Some (Flags 3 [("orientation", (1, Some "LANDSCAPE")); ("bookbinding", (1, Some "RIGHT"))])) /\
  parse_all [5; 0; 2; 4] (Parent None None) (record_parts 73 "PageDef") [] (firstn 39 page_def) = None /\
  (exists d d', parse_all [5; 0; 1; 6] (Parent None None) (record_parts 17 "IdMappings") [] (repeat 1 64) = Some (d, [1; 1; 1; 1]) /\
     parse_all [5; 0; 1; 7] (Parent None None) (record_parts 17 "IdMappings") [] (repeat 1 64) = Some (d', []) /\
     d' = d ++ [("memoshapes", Int 16843009)]).
Proof.
  split; [exact (proj1 Props_Models.C54_case)|]. split; [split; [reflexivity|repeat (constructor; [unfold is_byte; lia|]); constructor]|].
  split; [|split; [eexists; vm_compute; repeat split|split; [vm_compute; reflexivity|do 2 eexists; vm_compute; repeat split]]].
  vm_compute. repeat split.
Qed.
Lemma id_mappings_bytes : all_bytes (flat_map (le_encode 4) [1; 2; 0; 3; 4; 5; 6; 7; 8; 9; 10; 11; 12; 13; 14; 15]).
Proof. rewrite flat_map_concat_map. apply Forall_concat, Forall_map, Forall_forall. intros x _. apply le_encode_bytes. Qed.
Example C57_declared_case :
  exists m, reads [5; 0; 2; 4] (mkNode None None false) 17 (flat_map (le_encode 4) [1; 2; 0; 3; 4; 5; 6; 7; 8; 9; 10; 11; 12; 13; 14; 15]) (Ok m) /\
    declares m [2; 0; 3; 4; 5; 6; 7]%nat.
Proof.
  destruct (parse_model_is [5; 0; 2; 4] (mkNode None None false) 17 (flat_map (le_encode 4) [1; 2; 0; 3; 4; 5; 6; 7; 8; 9; 10; 11; 12; 13; 14; 15])) as (n & r & H & E).
  { exact id_mappings_bytes. }
  specialize (E 100%nat). 
  destruct r as [m|e].
  - exists m. split; [exact H|]. apply (C57_declared_counts [5; 0; 2; 4] (mkNode None None false) 1 [2; 0; 3; 4; 5; 6; 7]%nat [8; 9; 10; 11; 12; 13; 14; 15] [] m).
    + split; [reflexivity|repeat (constructor; [unfold is_byte; lia|]); constructor].
    + exact I.
    + reflexivity.
    + repeat (constructor; [lia|]). constructor.
    + lia.
    + repeat (constructor; [lia|]). constructor.
    + constructor.
    + exact H.
  - exfalso. pose proof (C67_failure [5; 0; 2; 4] (mkNode None None false) _ _ e ltac:(split; [reflexivity|repeat (constructor; [unfold is_byte; lia|]); constructor]) I
      id_mappings_bytes H) as F.
    destruct F as [(_ & [F|F])|[F|(t & d & R & _)]]; [discriminate F|discriminate F|vm_compute in F; discriminate F|].
    change (type_of_tag 17) with "IdMappings" in R. inversion R.
Qed.
