(** C70: the XML of a section. *)
From Coq Require Import ZArith String List Bool Lia Permutation.
From Verif Require Import Base BaseFacts Model_Tree Spec_Tree Model_ParaText Spec_ParaText Model_Shape Spec_Shape Model_Lang Model_Classes Model_XmlModel.
From Verif Require Import Model_Text Model_Dataio Model_Record Model_Layouts Model_Models
  Model_XmlText Model_XmlElement Model_XmlFile Spec_XmlText Spec_Bintype Spec_Models Spec_Layouts Spec_XmlElement Spec_XmlModel Spec_Section Spec_XmlFile
  Proof_XmlText Proof_Models Proof_XmlDocument Proof_XmlSection.
From Verif Require Props_Models Props_Section.
Import ListNotations.
Open Scope string_scope.
Open Scope list_scope.
Open Scope Z_scope.

(** ** C70 *)

(** The nodes the document tree of a section is made from have the members of the
    records that were read, and those that the passes look at have the types they
    expect: whatever the bytes are. *)
Theorem C70_nodes : forall version parent tagid payload m ref, all_bytes payload -> reads version parent tagid payload (Ok m) ->
  seen_as m (pass_item ref m).
Proof. exact item_seen. Qed.
Print Assumptions C70_nodes.

(** Whatever the records of a section are: everything that the passes emit is
    written as [shown_event] says, so no exception comes from writing it, and the
    names are XML names.  This also holds if a record cannot be read, or a pass
    fails: what was emitted before is written. *)
Theorem C70_events : forall repr object version records out o' sid,
  Forall (fun r => all_bytes (r_payload r) /\ 0 <= r_level r) records -> (forall r rest, records = r :: rest -> r_level r = 0) ->
  models_of version Finished [] records out o' ->
  exists n ls, Forall2 (shown_event repr object) (fst (section_events sid (section_modelevents (out, o')))) ls /\
    forall k fuel, xmlevents (fun v => repr (view_of v)) object (4 + fuel) (section_mevents sid version (stream_models (n + k) version (records, Finished))) =
      (concat ls, snd (section_events sid (section_modelevents (out, o')))).
Proof. exact section_events_written. Qed.
Print Assumptions C70_events.

(** If the records have the documented shape (C34), the section is one element
    SectionDef in which the document tree of C34 is written; its bytes can be read
    back if all texts can be written. *)
Theorem C70_section : forall repr object version records out f sid,
  Forall (fun r => all_bytes (r_payload r) /\ 0 <= r_level r) records -> (forall r rest, records = r :: rest -> r_level r = 0) ->
  models_of version Finished [] records out Finished -> preorder 0 f = pass_items 1 out -> section_ok f ->
  exists n g t, section_tree sid f g /\ written (shown_node repr object) g [t] /\ root_name t = zs "SectionDef" /\ well_named t /\
    (forall k fuel, xmlevents (fun v => repr (view_of v)) object (4 + fuel) (section_mevents sid version (stream_models (n + k) version (records, Finished))) =
      (events_of t, Finished)) /\
    (writable_text t -> forall decl, exists chunks text body,
       xml_bytechunks decl (events_of t) = (chunks, Finished) /\ concat chunks = (if decl then xml_declaration else []) ++ body /\
       utf8_decode body = Some text /\ xml_read text = Some (read_back [] (events_of t))).
Proof. exact section_document. Qed.
Print Assumptions C70_section.

(** A section of one paragraph: a section definition and the letter a. *)
Definition one_section : list record :=
  [Props_Models.rec 66 0 ([9;0;0;0] ++ [4;0;0;0] ++ [1;0] ++ [2] ++ [3] ++ [1;0] ++ [0;0] ++ [1;0] ++ [0;0;0;0]);
   Props_Models.rec 67 1 ([2;0] ++ [100;99;101;115] ++ [0;0;0;0;0;0;0;0] ++ [2;0] ++ [97;0]);
   Props_Models.rec 68 1 ([0;0;0;0] ++ [7;0;0;0]);
   Props_Models.rec 69 1 ([0;0;0;0] ++ [1;0;0;0] ++ [2;0;0;0] ++ [3;0;0;0] ++ [4;0;0;0] ++ [5;0;0;0] ++ [6;0;0;0] ++ [7;0;0;0] ++ [0;0;6;0]);
   Props_Models.rec 71 1 ([100;99;101;115] ++ repeat 0 32)].
Definition the_models : list (record * model) := fst (stream_models 100 [5; 0; 2; 4] (one_section, Finished)).
Definition the_tree : forest item :=
  match map snd (pass_items 1 the_models) with
  | [p; t; c; l; s] => FCons p (FCons t FNil (FCons c FNil (FCons l FNil (FCons s FNil FNil)))) FNil
  | _ => FNil
  end.
Example C70_case : forall repr object,
  Forall (fun r => all_bytes (r_payload r) /\ 0 <= r_level r) one_section /\
  snd (stream_models 100 [5; 0; 2; 4] (one_section, Finished)) = Finished /\
  map (fun rm => m_type (snd rm)) the_models = ["Paragraph"; "ParaText"; "ParaCharShape"; "ParaLineSeg"; "SectionDef"] /\
  preorder 0 the_tree = pass_items 1 the_models /\ section_ok the_tree /\
  (let '(evs, o) := xmlevents repr object 4 (section_mevents (Some 0) [5; 0; 2; 4] (stream_models 100 [5; 0; 2; 4] (one_section, Finished))) in
   o = Finished /\ concat (xmlevents_to_textchunks evs) = zs
"<SectionDef chid=""secd"" flags=""00000000"" hide-header=""0"" hide-footer=""0"" hide-page=""0"" hide-border=""0"" hide-background=""0"" hide-pagenumber=""0"" show-border-on-first-page-only=""0"" show-background-on-first-page-only=""0"" text-direction=""0"" hide-blank-line=""0"" pagenum-on-split-section=""0"" squared-manuscript-paper=""0"" columnspacing=""0"" grid-vertical=""0"" grid-horizontal=""0"" defaultTabStops=""0"" numbering-shape-id=""0"" starting-pagenum=""0"" starting-picturenum=""0"" starting-tablenum=""0"" starting-equationnum=""0"" unknown1=""0"" unknown2=""0"" section-id=""0""><ColumnSet><Paragraph text=""00000009"" unknown=""0"" chars=""9"" controlmask=""00000004"" unknown1=""1"" control=""0"" new-number=""0"" parashape-id=""1"" style-id=""2"" split=""03"" new-section=""1"" new-columnsdef=""1"" new-page=""0"" new-column=""0"" charshapes=""1"" rangetags=""0"" linesegs=""1"" instance-id=""0""><LineSeg chpos=""0"" y=""1"" height=""2"" height-text=""3"" height-baseline=""4"" space-below=""5"" x=""6"" width=""7"" lineseg-flags=""00060000"" line-head=""1"" line-tail=""1"" indented=""0"" bullet=""0""><Text charshape-id=""7"" lang=""en"">a</Text></LineSeg></Paragraph></ColumnSet></SectionDef>").
Proof.
  intros repr object. split; [|split; [|split; [|split; [|split]]]].
  - repeat (constructor; [split; [apply Forall_forall; intros x Hx; cbn in Hx; unfold is_byte; repeat (destruct Hx as [<-|Hx]; [lia|]); contradiction|cbn; lia]|]). constructor.
  - vm_compute. reflexivity.
  - vm_compute. reflexivity.
  - vm_compute. reflexivity.
  - let t := eval vm_compute in the_tree in change the_tree with t.
    constructor; [reflexivity| |].
    + split; [|exact I]. split; [split; [now exists 3|split; [|reflexivity]]|].
      * eexists; exists (0, 7), [], (0, (0, [("chpos", 0); ("y", 1); ("height", 2); ("height_text", 3); ("height_baseline", 4); ("space_below", 5); ("x", 6); ("width", 7); ("lineseg_flags", 393216)])), []; constructor;
        [reflexivity|eexists; split; reflexivity|eexists; repeat split; reflexivity|cbn; lia|cbn; lia
        |split; repeat (apply Forall_cons; [first [left; eexists; reflexivity|right; repeat (apply Forall_cons; [cbn; lia|]); apply Forall_nil]|]); apply Forall_nil
        |repeat (apply Forall_cons; [first [exact I|eexists; reflexivity]|]); apply Forall_nil].
      * do 3 (split; [left; split; reflexivity|]). split; [right|exact I]. split; [left; reflexivity|]. split; [exact I|]. split; [constructor|reflexivity].
    + eexists. split; [do 4 (right); left; reflexivity|reflexivity].
  - vm_compute. split; reflexivity.
Qed.
