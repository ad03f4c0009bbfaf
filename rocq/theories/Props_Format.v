(** C92: --format of hwp5proc find and models, and the names of files from
    standard input. *)
From Coq Require Import ZArith String List Bool Lia.
From Verif Require Import Base BaseFacts Model_Text Model_Dataio Model_Record Model_Bintype Model_Models Model_Storage Model_Readers Model_XmlText Model_Filestructure Model_Commands Model_Proc Model_Format.
From Verif Require Import Spec_Record Spec_Filestructure Spec_Storage Spec_Commands Spec_Proc Spec_Format Proof_Filestructure Proof_Commands Proof_Proc Proof_Format Props_Proc.
Import ListNotations.
Open Scope string_scope.
Open Scope list_scope.
Open Scope Z_scope.

(** find --format: a line for every model asked for, with the text of the format
    and the values in it. *)
Theorem C92_find : forall cpython other fuel ps f incomplete files, format_text ps <> [] -> Forall (fine_piece true) ps ->
  (forall t n, f = WithTag t -> int_text t n -> In n (map fst documented_tags)) -> files_of_bytes files ->
  exists ls o, find_main_with cpython other fuel (Some (format_text ps)) f incomplete files = (map (fun l => l ++ [10]) ls, o) /\
    files_say (item_models fuel) (wanted f incomplete) (fun fn st rm l => shows_all (Some (fn, st)) rm ps l) files ls o.
Proof. exact find_formatted. Qed.
Print Assumptions C92_find.

(** Without it, or with an empty one, find is that of C78. *)
Theorem C92_find_default : forall cpython other fuel format f incomplete files, format = None \/ format = Some [] ->
  find_main_with cpython other fuel format f incomplete files = find_main fuel f incomplete files.
Proof. exact find_default. Qed.
Print Assumptions C92_find_default.

(** models --format: for every model the text of the format, in which escapes
    are replaced first, with the values in it, and nothing between them. *)
Theorem C92_models : forall cpython other named fuel version s b fmt ps ms o, all_bytes b -> select_models fuel version s (read_records (open_bytes b)) = (ms, o) ->
  Forall (fun c => 0 <= c < 128) fmt -> reads_back fmt (format_text ps) -> code_text (format_text ps) -> Forall (fine_piece false) ps ->
  exists outs, models_format cpython other named fmt (select_models fuel version s (read_records (open_bytes b))) = (outs, o) /\ Forall2 (fun rm out => shows_all None rm ps out) ms outs.
Proof. exact models_formatted. Qed.
Print Assumptions C92_models.

(** That says what is shown. *)
Theorem C92_determined : forall at_ rm ps out out', shows_all at_ rm ps out -> shows_all at_ rm ps out' -> out = out'.
Proof. exact shows_all_det. Qed.
Print Assumptions C92_determined.

(** A name that no model has: nothing is printed. *)
Theorem C92_missing : forall cpython other named fuel version s b fmt ps key rest rm ms o, all_bytes b -> select_models fuel version s (read_records (open_bytes b)) = (rm :: ms, o) -> Forall (fine_piece false) ps -> ~ In 40 key -> ~ In 41 key ->
  ~ In key [zs "seqno"; zs "tagid"; zs "tagname"; zs "level"; zs "size"; zs "type"] -> other rm key = Raise KeyError ->
  Forall (fun c => 0 <= c < 128) fmt -> reads_back fmt (format_text ps ++ zs "%(" ++ key ++ zs ")" ++ rest) -> code_text (format_text ps ++ zs "%(" ++ key ++ zs ")" ++ rest) ->
  models_format cpython other named fmt (select_models fuel version s (read_records (open_bytes b))) = ([], Failed KeyError).
Proof.
  intros cpython other named fuel version s b fmt ps key rest rm ms o HB HM HF H1 H2 HK HO HA HR HC. pose proof (selected_sound fuel version s b HB) as HS. rewrite HM in HS |- *. inversion HS as [|? ? HS1 _]; subst. clear HS. rename HS1 into HS. cbn [fst] in HS. unfold models_format. rewrite (unescaped named fmt _ HA HR HC). cbn [fst snd map_gen].
  assert (H : exists outs, Forall2 (piece_out (fun key => lookup_key key (record_entries rm) (other rm))) ps outs).
  { clear -HF HS. induction HF as [|p ps HP _ (outs & I)]; [exists []; constructor|]. destruct (fine_shows other None rm p HS HP) as (out & O1 & _). exists (out :: outs). now constructor. }
  destruct H as (outs & H). unfold formatted. rewrite (missing_key _ ps outs key rest KeyError H H1 H2); [reflexivity|].
  unfold lookup_key, record_entries. cbn [find fst].
  assert (N : forall n, In n [zs "seqno"; zs "tagid"; zs "tagname"; zs "level"; zs "size"; zs "type"] -> name_eqb key n = false).
  { intros n HN. destruct (name_eqb key n) eqn:E; [|reflexivity]. apply name_eqb_iff in E. subst n. contradiction. }
  rewrite !N by (cbn; tauto). exact HO.
Qed.
Print Assumptions C92_missing.

(** Escapes in ASCII texts, as written by ls and the like, are read back. *)
Theorem C92_unescape : forall named t out, Forall (fun c => 0 <= c < 128) t -> reads_back t out -> code_text out -> unicode_unescape named t = Ok out.
Proof. exact unescaped. Qed.
Print Assumptions C92_unescape.
Theorem C92_escape_back : forall named t, code_text t -> unicode_unescape named (unicode_escape t) = Ok t.
Proof. exact unescape_escape. Qed.
Print Assumptions C92_escape_back.

(** A format with other letters is shown with different ones: each by two or
    more characters. *)
Theorem C92_unescape_refuted : forall named, exists t out, Forall (fun c => c <> 92) t /\ code_text t /\ unicode_unescape named t = Ok out /\ out <> t.
Proof.
  intros named. exists (zs "%(seqno)s" ++ [0xBC88]), (zs "%(seqno)s" ++ [0xEB; 0xB2; 0x88]). split; [change (Forall (fun c => c <> 92) [37; 40; 115; 101; 113; 110; 111; 41; 115; 0xBC88]); repeat (constructor; [discriminate|]); constructor|].
  split; [change (Forall (fun c => 0 <= c < 0x110000) [37; 40; 115; 101; 113; 110; 111; 41; 115; 0xBC88]); repeat (constructor; [lia|]); constructor|]. split; [vm_compute; reflexivity|discriminate].
Qed.
Print Assumptions C92_unescape_refuted.

(** find --from-stdin: one name in each line. *)
Theorem C92_stdin : forall names, Forall (fun n => ~ In 10 n) names -> filenames_from_stdin (concat (map (fun n => n ++ [10]) names)) = names.
Proof. exact names_read. Qed.
Print Assumptions C92_stdin.
(** A last line without line feed loses its last letter. *)
Theorem C92_stdin_last_refuted : forall names n, Forall (fun n => ~ In 10 n) names -> ~ In 10 n -> n <> [] ->
  filenames_from_stdin (concat (map (fun n => n ++ [10]) names) ++ n) = names ++ [removelast n] /\ removelast n <> n.
Proof.
  intros names n H HN HE. split; [now apply last_name|]. intros E. apply (f_equal (@List.length Z)) in E. rewrite (app_removelast_last 0 HE) in E at 2. rewrite app_length in E. cbn in E. lia.
Qed.
Print Assumptions C92_stdin_last_refuted.

Example C92_case :
  let fmt := [Lit (zs "# "); Val (zs "seqno") true (zs "4") true; Lit (zs " "); Val (zs "type") false (zs "10") false; Lit (zs " 100"); Percent] in
  let b := [67; 0; 128; 0; 65; 0; 92; 213; 34; 0; 13; 0; 255; 7; 16; 0; 7] in
  let none1 : list Z -> record * model -> res (list Z) := fun _ _ => Raise ValueError in
  let none2 : record * model -> list Z -> res value := fun _ _ => Raise KeyError in
  let none3 : list Z -> res (Z * nat) := fun _ => Raise ValueError in
  format_text fmt = zs "# %(seqno)04d %(type)10s 100%%" /\ Forall (fine_piece false) fmt /\
  models_format none1 none2 none3 (zs "# %(seqno)04d\t%(type)10s 100%%\n") (select_models 300 [5; 0; 0; 0] AllModels (read_records (open_bytes b))) =
    ([zs "# 0000" ++ [9] ++ zs "  ParaText 100%" ++ [10]; zs "# 0001" ++ [9] ++ zs "UnknownTagModel 100%" ++ [10]], Finished) /\
  models_format none1 none2 none3 (zs "%(name)s") (select_models 300 [5; 0; 0; 0] AllModels (read_records (open_bytes b))) = ([], Failed KeyError) /\
  find_main_with none1 none2 300 (Some (zs "%(stream)s:%(tagid)d")) AnyModel false [file_a] = (map (fun l => zs l ++ [10]) ["DocInfo:1023"; "BodyText/Section0:67"; "BodyText/Section0:1023"], Finished) /\
  filenames_from_stdin (zs "a.hwp" ++ [10] ++ zs "b.hwp") = [zs "a.hwp"; zs "b.hw"].
Proof.
  intros fmt b none1 none2 none3. split; [reflexivity|]. split.
  - repeat (constructor; [first [exact I | cbn; intuition discriminate | (split; [eexists; apply ws_some; [first [apply (num_digit 4); lia | apply (num_more [49] 1 0); [apply (num_digit 1); lia|lia|lia]]|lia]|cbn; tauto])]|]). constructor.
  - split; [vm_compute; reflexivity|]. split; [vm_compute; reflexivity|]. split; vm_compute; reflexivity.
Qed.
