(** One file: the same text and the same styles. *)
From Coq Require Import ZArith String List Bool Lia.
From Verif Require Import Base Model_Text Model_XmlText Model_Plaintext Model_Html Spec_Text Spec_Html Proof_Html Proof_Html3 Model_Opendoc Spec_Opendoc Proof_Opendoc Proof_Opendoc2 Proof_Opendoc3 Proof_Opendoc4 Proof_Opendoc5 Proof_Opendoc6.
Import ListNotations.
Open Scope string_scope.
Open Scope list_scope.
Open Scope Z_scope.

Lemma part_length : forall {A} (l k : list A), part_of l k -> (List.length l <= List.length k)%nat.
Proof. intros A l k H. induction H; cbn [List.length]; lia. Qed.
Lemma part_whole : forall {A} (l k : list A), part_of l k -> List.length l = List.length k -> l = k.
Proof.
  intros A l k H. induction H as [k|x l k H IH|x l k H IH]; intros E.
  - symmetry. apply length_zero_iff_nil. rewrite <- E. reflexivity.
  - f_equal. apply IH. injection E as E. exact E.
  - exfalso. pose proof (part_length l k H) as L. rewrite E in L. cbn [List.length] in L. lia.
Qed.

Section One.
  Variable measure : string -> xnode -> list Z.
  Variable geometry : list xnode -> list attribute.
  Variable document : list xnode.
  Variables m d b : xnode.
  Hypothesis T : one_text document m d b.
  Hypothesis In_text : forall s, In s ["TableControl"; "ShapeComponent"] -> nodes_named_in s document = in_text s b.

  Lemma paths_same : forall s, In s ["TableControl"; "ShapeComponent"] -> in_sections s d b = everywhere document s.
  Proof.
    intros s I. apply part_whole; [exact (in_sections_part document m d b T s)|].
    rewrite <- (map_length self), <- (map_length self (everywhere document s)), everywhere_nodes, in_text_paths, (In_text s I). reflexivity.
  Qed.
  Ltac names := repeat match goal with |- context [name_is ?s (zs ?t)] => let v := eval vm_compute in (name_is s (zs t)) in change (name_is s (zs t)) with v end.
  Lemma flat_text : file_text (document_xml measure geometry document) = file_text (content_xml measure geometry document).
  Proof.
    rewrite (file_text_is measure geometry document m d b T). unfold file_text, document_xml. rewrite (ot_document _ _ _ _ T). cbn [flat_map map]. rewrite (ot_body _ _ _ _ T). cbn [map app flat_map].
    cbn [children_named elem filter]. names. cbv iota. cbn [app flat_map children_named filter]. names. cbv iota. cbn [app flat_map kids_of_node]. rewrite !app_nil_r. exact (app_nil_r _).
  Qed.
  Lemma flat_styles : file_styles (document_xml measure geometry document) (document_xml measure geometry document) =
    map (page_layout measure) (sections document) ++ file_styles (content_xml measure geometry document) (styles_xml measure document).
  Proof.
    rewrite (styles_are measure geometry document m d b T). unfold all_styles, automatic_styles. rewrite !paths_same by (cbn; auto).
    unfold file_styles, document_xml. rewrite (ot_document _ _ _ _ T). cbn [flat_map map]. rewrite (ot_body _ _ _ _ T). cbn [map app flat_map].
    cbn [children_named elem filter]. names. cbv iota. cbn [app flat_map kids_of_node elem]. rewrite !app_nil_r, <- !app_assoc. reflexivity.
  Qed.
  Lemma flat_named : forall family name, styles_named family name (file_styles (document_xml measure geometry document) (document_xml measure geometry document)) =
    styles_named family name (file_styles (content_xml measure geometry document) (styles_xml measure document)).
  Proof.
    intros family name. rewrite flat_styles. unfold styles_named. rewrite filter_app.
    match goal with |- ?l ++ _ = _ => assert (E : l = []) end; [|rewrite E; reflexivity].
    induction (sections document) as [|s r IH]; [reflexivity|]. cbn [map filter]. exact IH.
  Qed.
  Lemma flat_effective : forall n family name kind prop, effective n (file_styles (document_xml measure geometry document) (document_xml measure geometry document)) family name kind prop =
    effective n (file_styles (content_xml measure geometry document) (styles_xml measure document)) family name kind prop.
  Proof.
    induction n as [|n IH]; intros family name kind prop; [reflexivity|]. cbn [effective]. rewrite flat_named. destruct (styles_named family name _) as [|s [|? ?]]; try reflexivity.
    destruct (says_itself s kind prop); [reflexivity|]. destruct (attr "style:parent-style-name" s); [apply IH|reflexivity].
  Qed.
End One.
