(** Trees of elements: how the events of models become those of a document. *)
From Coq Require Import ZArith String List Bool Lia Permutation.
From Verif Require Import Base BaseFacts Model_Text Model_Dataio Model_Record Model_Tree Model_ParaText Model_Bintype Model_Classes Model_Layouts Model_Models
  Model_XmlText Model_XmlElement Spec_Tree Spec_XmlText Spec_Bintype Spec_Models Spec_Layouts Spec_XmlElement
  Proof_Tree Proof_XmlText Proof_Models Proof_Layouts Proof_XmlElement Proof_XmlEntry Proof_XmlParts Proof_XmlRecord.
Import ListNotations.
Open Scope string_scope.
Open Scope list_scope.
Open Scope Z_scope.

Definition root_name (t : xtree) : list Z := match t with Elem n _ _ _ => n end.

Lemma xtree_ind' : forall P : xtree -> Prop, (forall n a t kids, Forall P kids -> P (Elem n a t kids)) -> forall t, P t.
Proof.
  intros P H. fix IH 1. intros [n a t kids]. apply H. induction kids as [|k kids IHk]; constructor; [apply IH|exact IHk].
Qed.

(** ** Elements and their children *)
Lemma more_children : forall t ks, events_of (with_children t ks) = opening t ++ flat_map events_of ks ++ [XEnd (root_name t)].
Proof.
  intros [n a x kids] ks. cbn [with_children events_of opening root_name app]. rewrite flat_map_app, <- !app_assoc. reflexivity.
Qed.
Lemma no_more : forall t, with_children t [] = t.
Proof. intros [n a x k]. cbn. rewrite app_nil_r. reflexivity. Qed.

Section Document.
  Variable py_repr : value -> list Z.
  Variable object : list Z.
  Variable fuel : nat.

  Definition starts_as (it : mitem) (t : xtree) : Prop :=
    startelement py_repr object fuel (mi_version it) (mi_model it) (mi_attributes it) = (opening t, Finished) /\
    root_name t = zs (model_name (mi_model it)).

  Lemma gthen_fin : forall {A} (a : list A) g, gthen (a, Finished) g = gapp a g.
  Proof. reflexivity. Qed.

  Theorem document_written : forall f ts, written starts_as f ts -> forall rest o,
    modelevents_to_xmlevents py_repr object fuel (walk f ++ rest) o =
    gapp (flat_map events_of ts) (modelevents_to_xmlevents py_repr object fuel rest o).
  Proof.
    intros f ts H. induction H as [|x kids next t ks ts [S R] HK IHK HN IHN]; intros rest o.
    - cbn [walk app flat_map]. destruct (modelevents_to_xmlevents py_repr object fuel rest o); reflexivity.
    - cbn [walk app modelevents_to_xmlevents]. rewrite S, gthen_fin. rewrite <- app_assoc. cbn [app]. rewrite IHK. cbn [modelevents_to_xmlevents].
      rewrite IHN. cbn [flat_map]. rewrite more_children, R. unfold gapp, gcons. cbn [fst snd]. rewrite <- !app_assoc. reflexivity.
  Qed.

  (** ** Whatever is written is an element *)
  Inductive distinct_attributes : xtree -> Prop :=
  | da_elem : forall n a t kids, NoDup (map fst a) -> Forall distinct_attributes kids -> distinct_attributes (Elem n a t kids).

  Lemma uniq_nodup : forall l names r, uniqnames names l = Ok r -> r = l /\ NoDup (map fst l) /\ forall x, In x (map fst l) -> ~ In x names.
  Proof.
    induction l as [|[k v] l IH]; intros names r H; cbn [uniqnames] in H.
    - inversion H; subst. repeat split; [constructor|intros x []].
    - destruct (existsb _ names) eqn:E; [discriminate|]. destruct (uniqnames (k :: names) l) as [r'|] eqn:U; [|discriminate]. cbn [bind] in H. inversion H; subst.
      apply IH in U as (-> & N & D). cbn [map fst]. apply existsb_text_in in E. split; [reflexivity|]. split.
      + constructor; [|exact N]. intros HI. apply (D k HI). left. reflexivity.
      + intros x [<-|HI]; [exact E|]. intros HN. apply (D x HI). right. exact HN.
  Qed.
  Lemma plain_nodup : forall plain attrs, xmlattributes_for_plainvalues py_repr object plain = Ok attrs -> NoDup (map fst attrs).
  Proof.
    intros plain attrs H. unfold xmlattributes_for_plainvalues in H. destruct (expanded_all _ _ plain); [|discriminate]. cbn [bind] in H.
    apply uniq_nodup in H as (-> & N & _). exact N.
  Qed.
  Lemma gmap_elements : forall {A} (f : A -> gen xevent) l out,
    (forall x o, In x l -> f x = (o, Finished) -> exists ts, o = flat_map events_of ts /\ Forall distinct_attributes ts) ->
    gmap f l = (out, Finished) -> exists ts, out = flat_map events_of ts /\ Forall distinct_attributes ts.
  Proof.
    intros A f l. induction l as [|x l IH]; intros out HF H; cbn [gmap] in H.
    - inversion H; subst. exists []. split; [reflexivity|constructor].
    - unfold gthen in H. destruct (f x) as [o oc] eqn:E. destruct oc; try discriminate. destruct (gmap f l) as [o2 oc2] eqn:E2. unfold gapp in H. cbn [fst snd] in H. inversion H; subst.
      destruct (HF x o (or_introl eq_refl) E) as (t1 & -> & D1). destruct (IH o2) as (t2 & -> & D2); [intros y oy HI; apply HF; right; exact HI|reflexivity|].
      exists (t1 ++ t2). rewrite flat_map_app. split; [reflexivity|apply Forall_app; auto].
  Qed.

  Lemma gapp_fst : forall {A} (a : list A) g out, gapp a g = (out, Finished) -> exists b, g = (b, Finished) /\ out = a ++ b.
  Proof. intros A a [b o] out H. unfold gapp in H. cbn in H. inversion H; subst. eauto. Qed.
  Lemma gthen_fst : forall {A} (g k : gen A) out, gthen g k = (out, Finished) -> exists a b, g = (a, Finished) /\ k = (b, Finished) /\ out = a ++ b.
  Proof. intros A [a o] k out H. unfold gthen in H. destruct o; try discriminate. apply gapp_fst in H as (b & -> & ->). eauto. Qed.
  Lemma colors_nodup : forall n, NoDup (map fst (color_attributes n)).
  Proof. intros n. apply distinct_texts_sound. reflexivity. Qed.

  Theorem starts_an_element : forall k version m attributes out,
    startelement py_repr object k version m attributes = (out, Finished) ->
    exists t, out = opening t /\ root_name t = zs (model_name m) /\ distinct_attributes t.
  Proof.
    induction k as [|k IH]; intros version m attributes out H; cbn [startelement] in H; [discriminate|].
    match type of H with match ?x with _ => _ end = _ => destruct x as [l|]; [|discriminate] end.
    destruct (separate_plainvalues l [] []) as [complex plain].
    match type of H with match ?x with _ => _ end = _ => destruct x as [[text attrs]|] eqn:E; [|discriminate] end.
    assert (N : NoDup (map fst attrs)).
    { match type of E with bind ?x _ = _ => destruct x as [[t' p']|]; [|discriminate] end. cbn [bind] in E.
      destruct (xmlattributes_for_plainvalues py_repr object p') eqn:EP; [|discriminate]. cbn [bind] in E. inversion E; subst. exact (plain_nodup _ _ EP). }
    clear E. apply gapp_fst in H as (ko & EG & ->).
    assert (EL : forall v m a o, gthen (startelement py_repr object k v m a) ([XEnd (zs (model_name m))], Finished) = (o, Finished) ->
                 exists t, o = events_of t /\ distinct_attributes t).
    { intros v m' a o H. unfold gthen in H. destruct (startelement py_repr object k v m' a) as [o1 oc] eqn:ES. destruct oc; try discriminate. unfold gapp in H. cbn [fst snd] in H. inversion H; subst.
      destruct (IH _ _ _ _ ES) as (t & -> & R & D). exists t. split; [|exact D]. rewrite <- (no_more t) at 2. rewrite more_children. cbn [flat_map app]. rewrite R. reflexivity. }
    apply gmap_elements in EG as (kids & -> & DK).
    - exists (Elem (zs (model_name m)) attrs (match text with Some (Held (VText (c :: t))) => c :: t | _ => [] end) kids).
      split; [|split; [reflexivity|constructor; assumption]]. cbn [opening app]. f_equal. f_equal.
      destruct text as [[[]|]|]; try reflexivity. destruct t; reflexivity.
    - intros [name [a v]] o _ HF. destruct v as [v|]; [|discriminate]. destruct v; try discriminate.
      + destruct (item_of a) as [[ti fi]|]; [|discriminate].
        assert (C : gmap (fun i => match i with VInt n => ([XStart (zs name) (color_attributes n); XEnd (zs name)], Finished) | _ => ([], Failed TypeError) end) l0 = (o, Finished) ->
                    exists ts, o = flat_map events_of ts /\ Forall distinct_attributes ts).
        { intros HC. revert HC. apply gmap_elements. intros [] oi _ HI; try discriminate. inversion HI; subst. exists [Elem (zs name) (color_attributes n) [] []]. split; [reflexivity|].
          constructor; [constructor; [apply colors_nodup|constructor]|constructor]. }
        assert (S : forall ms cls fs, gapp [XStart (zs "Array") [(zs "name", zs name)]] (gthen (gmap (fun i => match i with
            | VDict d => gthen (startelement py_repr object k version (Struct_type cls [(ms, fs)]) d) ([XEnd (zs (model_name (Struct_type cls [(ms, fs)])))], Finished)
            | _ => ([], Failed TypeError) end) l0) ([XEnd (zs "Array")], Finished)) = (o, Finished) -> exists ts, o = flat_map events_of ts /\ Forall distinct_attributes ts).
        { intros ms cls fs HS. apply gapp_fst in HS as (b1 & HS & ->). apply gthen_fst in HS as (oa & b2 & EA & EB & ->). inversion EB; subst.
          apply gmap_elements in EA as (ts & -> & DT).
          - exists [Elem (zs "Array") [(zs "name", zs name)] [] ts]. split; [cbn [flat_map events_of app]; rewrite app_nil_r; reflexivity|].
            constructor; [|constructor]. constructor; [|exact DT]. constructor; [intros []|constructor].
          - intros [] oi _ HI; try discriminate. destruct (EL _ _ _ _ HI) as (t & -> & D). exists [t]. split; [cbn; rewrite app_nil_r; reflexivity|constructor; [exact D|constructor]]. }
        destruct ti; destruct fi; try discriminate; eauto.
      + destruct (item_of a) as [[ti fi]|]; [|discriminate].
        assert (C : gmap (fun i => match i with VInt n => ([XStart (zs name) (color_attributes n); XEnd (zs name)], Finished) | _ => ([], Failed TypeError) end) l0 = (o, Finished) ->
                    exists ts, o = flat_map events_of ts /\ Forall distinct_attributes ts).
        { intros HC. revert HC. apply gmap_elements. intros [] oi _ HI; try discriminate. inversion HI; subst. exists [Elem (zs name) (color_attributes n) [] []]. split; [reflexivity|].
          constructor; [constructor; [apply colors_nodup|constructor]|constructor]. }
        assert (S : forall ms cls fs, gapp [XStart (zs "Array") [(zs "name", zs name)]] (gthen (gmap (fun i => match i with
            | VDict d => gthen (startelement py_repr object k version (Struct_type cls [(ms, fs)]) d) ([XEnd (zs (model_name (Struct_type cls [(ms, fs)])))], Finished)
            | _ => ([], Failed TypeError) end) l0) ([XEnd (zs "Array")], Finished)) = (o, Finished) -> exists ts, o = flat_map events_of ts /\ Forall distinct_attributes ts).
        { intros ms cls fs HS. apply gapp_fst in HS as (b1 & HS & ->). apply gthen_fst in HS as (oa & b2 & EA & EB & ->). inversion EB; subst.
          apply gmap_elements in EA as (ts & -> & DT).
          - exists [Elem (zs "Array") [(zs "name", zs name)] [] ts]. split; [cbn [flat_map events_of app]; rewrite app_nil_r; reflexivity|].
            constructor; [|constructor]. constructor; [|exact DT]. constructor; [intros []|constructor].
          - intros [] oi _ HI; try discriminate. destruct (EL _ _ _ _ HI) as (t & -> & D). exists [t]. split; [cbn; rewrite app_nil_r; reflexivity|constructor; [exact D|constructor]]. }
        destruct ti; destruct fi; try discriminate; eauto.
      + assert (ONE : forall m', gthen (startelement py_repr object k version m' (dict_set "attribute-name" (VText (zs name)) d)) ([XEnd (zs (model_name m'))], Finished) = (o, Finished) ->
                      exists ts, o = flat_map events_of ts /\ Forall distinct_attributes ts).
        { intros m' HM. destruct (EL _ _ _ _ HM) as (t & -> & D). exists [t]. split; [cbn; rewrite app_nil_r; reflexivity|constructor; [exact D|constructor]]. }
        destruct a as [t f| |]; try discriminate; [|exact (ONE _ HF)]. destruct t; try discriminate. destruct f; try discriminate. exact (ONE _ HF).
  Qed.

  Lemma with_distinct : forall t ks, distinct_attributes t -> Forall distinct_attributes ks -> distinct_attributes (with_children t ks).
  Proof. intros t ks H HK. inversion H; subst. cbn. constructor; [assumption|]. apply Forall_app. auto. Qed.

  (** Every walk that is written at all is written as elements. *)
  Theorem document_elements : forall f rest o out, modelevents_to_xmlevents py_repr object fuel (walk f ++ rest) o = (out, Finished) ->
    exists ts, written starts_as f ts /\ Forall distinct_attributes ts.
  Proof.
    induction f as [|x kids IHK next IHN]; intros rest o out H.
    - exists []. split; constructor.
    - cbn [walk app modelevents_to_xmlevents] in H. unfold gthen in H. destruct (startelement _ _ _ _ _ _) as [o1 oc] eqn:E. destruct oc; try discriminate.
      apply gapp_fst in H as (b & H & ->). destruct (starts_an_element _ _ _ _ _ E) as (t & -> & R & D).
      rewrite <- app_assoc in H. destruct (IHK _ _ _ H) as (ks & WK & DK). rewrite (document_written _ _ WK) in H. apply gapp_fst in H as (b' & H & ->).
      cbn [app modelevents_to_xmlevents] in H. unfold gcons in H. destruct (modelevents_to_xmlevents py_repr object fuel (walk next ++ rest) o) as [b2 o2] eqn:E2. cbn [fst snd] in H. inversion H; subst.
      destruct (IHN _ _ _ E2) as (ts & WN & DN). exists (with_children t ks :: ts). split.
      + constructor; auto. split; assumption.
      + constructor; [|exact DN]. apply with_distinct; assumption.
  Qed.
End Document.

(** ** Elements are well nested, and can be written *)
Lemma nested_elements : forall ts st rest, nested st rest -> nested st (flat_map events_of ts ++ rest).
Proof.
  assert (A : forall t st rest, nested st rest -> nested st (events_of t ++ rest)).
  { induction t as [n a x kids IH] using xtree_ind'. intros st rest H. cbn [events_of app]. constructor. rewrite <- !app_assoc.
    assert (K : nested (n :: st) (flat_map events_of kids ++ [XEnd n] ++ rest)).
    { assert (E : nested (n :: st) ([XEnd n] ++ rest)) by (constructor; exact H). revert E. generalize ([XEnd n] ++ rest).
      induction IH as [|k kids HK _ IHk]; intros more E; [exact E|]. cbn [flat_map]. rewrite <- app_assoc. apply HK. apply IHk. exact E. }
    destruct x; [exact K|]. cbn [app]. constructor. exact K. }
  induction ts as [|t ts IH]; intros st rest H; [exact H|]. cbn [flat_map]. rewrite <- app_assoc. apply A, IH, H.
Qed.
Lemma writable_elements : forall ts, Forall well_named ts -> Forall writable_text ts -> Forall writable (flat_map events_of ts).
Proof.
  assert (A : forall t, well_named t -> writable_text t -> Forall writable (events_of t)).
  { induction t as [n a x kids IH] using xtree_ind'. intros W L. inversion W; subst. inversion L; subst. cbn [events_of]. constructor.
    - cbn [writable]. split; [assumption|]. split; [assumption|]. rewrite Forall_forall in *. intros kv HI. auto.
    - apply Forall_app. split; [destruct x; constructor; [assumption|constructor]|]. apply Forall_app. split; [|constructor; [assumption|constructor]].
      apply Forall_flat_map. rewrite Forall_forall in *. intros k HI. auto. }
  intros ts HW HL. apply Forall_flat_map. rewrite Forall_forall in *. auto.
Qed.
Lemma with_named : forall t ks, well_named t -> Forall well_named ks -> well_named (with_children t ks).
Proof. intros t ks H HK. inversion H; subst. cbn. constructor; auto. apply Forall_app. auto. Qed.
