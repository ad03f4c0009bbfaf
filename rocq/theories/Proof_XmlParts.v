(** All members of a record, and the element made of them. *)
From Coq Require Import ZArith String List Bool Lia Permutation.
From Verif Require Import Base BaseFacts Model_Text Model_Dataio Model_Record Model_ParaText Model_Bintype Model_Classes Model_Layouts Model_Models
  Model_XmlText Model_XmlElement Spec_Dataio Spec_Oleprops Spec_Bintype Spec_Models Spec_Layouts Spec_XmlElement
  Proof_Text Proof_Dataio Proof_OleText Proof_Bintype Proof_Models Proof_Embed Proof_Layouts Proof_Fits Proof_XmlElement Proof_XmlEntry.
Import ListNotations.
Open Scope string_scope.
Open Scope list_scope.
Open Scope Z_scope.

Section Parts.
  Variable repr : view -> list Z.
  Variable object : list Z.
  Let py_repr : value -> list Z := fun v => repr (view_of v).
  Variable version : list Z.
  Variable c : node.
  Variable fuel : nat.
  Variable okp : string -> list field_spec -> faces -> bool.
  Hypothesis parts_ok : forall cls fs fcs, okp cls fs fcs = true ->
    (forall key, In key ["<text>"; "attribute-name"; "inline"] -> extra_ok cls [fs] key = true) /\ NoDup (map fname fs) /\
    forall l x, fit_list version c cls fs [] l -> addable cls [fs] (views x) ->
    exists t, startelement py_repr object fuel version (Struct_type cls [(as_members fs, fcs)]) (l ++ x) = (opening t, Finished) /\
              Spec_XmlElement.element repr object cls (views (l ++ x)) t.

  Variable T : string.
  (** all attributes of the record *)
  Variable all : list (string * value).
  Hypothesis all_distinct : NoDup (map fst all).

  Definition gone (key : string) : list (list Z * list Z) :=
    if String.eqb T "BinData" && String.eqb key "bindata" then [(zs "bindata", object)]
    else if String.eqb T "TableBody" && String.eqb key "rowcols" then [(zs "rowcols", zs "()")] else [].

  (** What becomes of the members: in [p] the typed ones, [left] those that are
      not taken for members; for each its attributes, and the children. *)
  Inductive entries : list field_spec -> list (string * value) -> list typed -> list (string * value) ->
      list (list (list Z * list Z)) -> list (list Z * list Z) -> list (list Z * list Z) -> list (list Z * list Z) -> list xtree -> Prop :=
  | en_end : entries [] [] [] [] [] [] [] [] []
  | en_skip : forall f r l p left listed pa la ms kids, special T (fname f) = false ->
      entries r l p left listed pa la ms kids -> entries (f :: r) l p left listed pa la ms kids
  | en_there : forall f key v a attrs ks r l p left listed pa la ms kids, fname f = key ->
      entry repr object version fuel T (views all) key v a attrs ks ->
      attrs = [] \/ map fst attrs = attribute_names key (form_of T key) (snd f) -> In key (map fst all) ->
      entries r l p left listed pa la ms kids ->
      entries (f :: r) ((key, v) :: l) ((key, (a, Held v)) :: p) left (attrs :: listed) (attrs ++ pa) la ms (ks ++ kids)
  | en_left : forall f key t r l p left listed pa la ms kids, fname f = key -> form_of T key = Plain -> key <> "<text>" ->
      special T key = false -> entries r l p left listed pa la ms kids ->
      entries (f :: r) ((key, VText t) :: l) p ((key, VText t) :: left) ([(attribute_name key, t)] :: listed) pa ((attribute_name key, t) :: la) ms kids
  | en_missing : forall f key a h r l p left listed pa la ms kids, fname f = key -> ~ In key (map fst all) ->
      plain_entry repr object (key, (a, h)) (gone key) -> map fst (gone key) = attribute_names key (form_of T key) (snd f) ->
      entries r l p left listed pa la ms kids ->
      entries (f :: r) l ((key, (a, h)) :: p) left listed (gone key ++ pa) la (gone key ++ ms) kids.

  Lemma entries_app : forall fs l p left listed pa la ms kids, entries fs l p left listed pa la ms kids ->
    forall fs' l' p' left' listed' pa' la' ms' kids', entries fs' l' p' left' listed' pa' la' ms' kids' ->
    entries (fs ++ fs') (l ++ l') (p ++ p') (left ++ left') (listed ++ listed') (pa ++ pa') (la ++ la') (ms ++ ms') (kids ++ kids').
  Proof.
    intros fs l p left listed pa la ms kids H. induction H; intros; cbn [app]; try assumption; rewrite <- ?app_assoc.
    - apply en_skip; auto.
    - apply en_there; auto.
    - apply en_left; auto.
    - apply en_missing; auto.
  Qed.

  (** ** The members one by one *)
  Definition same_refs (env values : list (string * value)) : Prop :=
    forall m, referable m = true -> dict_get m env = dict_get m values /\ forall v, dict_get m env = Some v -> dict_get m all = Some v.

  Lemma refs_step : forall env values key x y, same_refs env values -> ~ In key (map fst env) ->
    (referable key = true -> x = y /\ In (key, y) all) -> same_refs (env ++ [(key, x)]) (dict_set key y values).
  Proof.
    intros env values key x y HS HN HR m HM. specialize (HS m HM). destruct HS as [HS1 HS2].
    rewrite dict_get_app, dict_get_set. cbn [dict_get]. destruct (String.eqb_spec m key) as [->|NE].
    - rewrite (dict_get_notin key env HN). destruct (HR HM) as [-> HI]. split; [reflexivity|].
      intros v E. injection E as <-. apply dict_get_in; assumption.
    - rewrite <- HS1. destruct (dict_get m env); split; try reflexivity; auto; intros; discriminate.
  Qed.
  Lemma refs_drop : forall env values key x, same_refs env values -> referable key = false -> same_refs (env ++ [(key, x)]) values.
  Proof.
    intros env values key x HS HN m HM. specialize (HS m HM). rewrite dict_get_app. cbn [dict_get].
    destruct (String.eqb_spec m key) as [->|NE]; [congruence|]. destruct (dict_get m env); [exact HS|exact HS].
  Qed.

  Definition known_ok (known : list (string * list group)) (values : list (string * value)) : Prop := knows known values.
  Lemma knows_set : forall known values key y, knows known values -> (referable key = true -> dict_get key values = None) -> knows known (dict_set key y values).
  Proof.
    intros known values key y HK HN m gs E. destruct (HK m gs E) as (R & n & EN). split; [exact R|]. exists n. rewrite dict_get_set.
    destruct (String.eqb_spec m key) as [->|NE]; [|exact EN]. rewrite (HN R) in EN. discriminate.
  Qed.

  Lemma resolves : forall known env values v t k f, same_refs env values -> knows known values -> depends_ok known v t k = true ->
    (always_there v t = true -> exists x, fits version c k env x) ->
    exists a, resolve (as_type k) f values = Ok a.
  Proof.
    intros known env values v t k f HS HK HD HF. assert (HE : forall m, referable m = true -> dict_get m env = dict_get m values) by (intros; apply HS; assumption).
    destruct k; try (eexists; reflexivity).
    - cbn [depends_ok] in HD. cbn [as_type resolve]. destruct n as [m|m|m g]; [|discriminate|].
      + apply andb_prop in HD as [H1 H2]. destruct (HF H1) as [x F]. inversion F; subst. rewrite <- (counts_agree c env values (Member m) HE H2), H2 || idtac.
        match goal with K : as_count _ _ _ = Ok _ |- _ => rewrite <- (counts_agree c env values (Member m) HE H2), K end. eexists. reflexivity.
      + apply andb_prop in HD as [H1 H2]. destruct (known_group known values m g HK H2) as [n E]. cbn [as_count]. unfold n_entries. rewrite E. eexists. reflexivity.
    - cbn [depends_ok] in HD. apply andb_prop in HD as [HD H3]. destruct (known_group known values member group HK H3) as [n E].
      rewrite as_type_choice. cbn [resolve]. rewrite E. eexists. reflexivity.
  Qed.

  Lemma special_always : forall key v t k, special_ok T key v t k = true -> special T key = true -> always_there v t = true.
  Proof.
    intros key v t k H S. unfold special_ok in H. unfold special in S. destruct (String.eqb T "BinData" && String.eqb key "bindata").
    - apply andb_prop in H as [H _]. exact H.
    - cbn [orb] in S. rewrite S in H. apply andb_prop in H as [H _]. apply andb_prop in H as [H _]. exact H.
  Qed.
  Definition now (t : test) (values : list (string * value)) : res bool :=
    match as_cond t with None => Ok true | Some f => f no_parent (VDict values) end.
  Lemma cond_now : forall key t k env values b, test_ok key t k T = true -> same_refs env values -> cond_is c t env b ->
    now t values = Ok b \/ (now t values = Ok false /\ key = "chid0" /\ k = Id4 /\ form_of T key = Plain).
  Proof.
    intros key t k env values b HT HS HC. assert (HE : forall m, referable m = true -> dict_get m env = dict_get m values) by (intros; apply HS; assumption).
    assert (P : plain_test t = true -> now t values = Ok b).
    { intros P. pose proof (tests_agree c env values HE t P) as A. unfold cond_is in HC. unfold now. destruct (as_cond t); congruence. }
    destruct t as [| | | |s|]; try (left; apply P; exact HT). cbn [test_ok] in HT. apply andb_prop in HT as [HT H3]. apply andb_prop in HT as [H1 H2].
    right. apply String.eqb_eq in H1. repeat split; [|exact H1| |].
    - unfold now. cbn [as_cond]. apply negb_true_iff in H2. destruct s; [discriminate|]. reflexivity.
    - destruct k, (form_of T key); congruence.
    - destruct k, (form_of T key); congruence.
  Qed.
  Lemma parse_step : forall name v t k r fcs attributes values a, resolve (as_type k) (face_of name fcs) values = Ok a ->
    parse_members version (as_members ((name, v, t, k) :: r)) fcs attributes values =
    if visible (Some version) (as_version v) then
      let? b := now t values in
      if b then
        let '(found, attributes') := dict_pop name attributes in
        let h := match found with Some x => Held x | None => default_of a end in
        let values' := match h with Held x => dict_set name x values | Object => values end in
        let? (l, others) := parse_members version (as_members r) fcs attributes' values' in
        Ok ((name, (a, h)) :: l, others)
      else parse_members version (as_members r) fcs attributes values
    else parse_members version (as_members r) fcs attributes values.
  Proof. intros name v t k r fcs attributes values a E. cbn [as_members parse_members]. rewrite E. reflexivity. Qed.

  Lemma group_looked : forall m g gs n x, dict_get m all = Some (VFlags (map group_field gs) n) ->
    forall values, dict_get m values = Some (VFlags (map group_field gs) n) ->
    ref_member_flag m g no_parent (VDict values) = Ok x -> look_group m g (views all) = Some x.
  Proof.
    intros m g gs n x EA values EV H. unfold look_group. rewrite look_views, EA. cbn [option_map view_of].
    unfold ref_member_flag, ref_member in H. rewrite EV in H. cbn [bind] in H.
    rewrite look_groups. match type of H with match ?d with _ => _ end = _ => destruct d as [[[lo hi] e]|] eqn:ED; [|discriminate] end.
    match type of ED with ?lhs = _ => match goal with |- context [option_map (fun f => _) ?d] => change d with lhs end end. rewrite ED. injection H as <-. reflexivity.
  Qed.

  Lemma learned_keep : forall key v t k known, always_there v t = false -> learned key v t k known = known.
  Proof. intros key v t k known H. unfold learned. destruct k; try reflexivity. rewrite H. reflexivity. Qed.

  Lemma member_entries : forall fs env l, fit_list version c T fs env l -> forall fcs known values L R,
    fields_ok okp T fcs known fs = true -> NoDup (map fname fs) ->
    same_refs env values -> knows known values ->
    (forall f, In f fs -> ~ In (fname f) (map fst env) /\ dict_get (fname f) values = None) ->
    (forall f, In f fs -> ~ In (fname f) (map fst L) /\ ~ In (fname f) (map fst R)) ->
    (forall f, In f fs -> In (fname f) (map fst all) -> In (fname f) (map fst l)) -> incl l all ->
    exists p left listed pa la ms kids, parse_members version (as_members fs) fcs (L ++ l ++ R) values = Ok (p, L ++ left ++ R) /\
      entries fs l p left listed pa la ms kids.
  Proof.
    intros fs env l H. induction H as [env|name v t k r env l HV H IH|name v t k r env l HV HC H IH|name v t k r env l x y HV HC HF HL H IH|v t k r env l x HT HV HC HF H IH|name v t k r env l HV HC HF H IH];
      intros fcs known values L R HO HN HS HK HE HD HA HI.
    - exists [], [], [], [], [], [], []. split; [reflexivity|constructor].
    - (* of a later version *)
      cbn [fields_ok] in HO. repeat (apply andb_prop in HO as [HO ?]). cbn [map] in HN. inversion HN as [|? ? HN1 HN2]; subst.
      assert (NA : always_there v t = false).
      { destruct (always_there v t) eqn:E; [|reflexivity]. destruct (always_sound version c v t env E). congruence. }
      rewrite learned_keep in * by exact NA.
      destruct (resolves known env values v t k (face_of name fcs) HS HK) as [a EA]; [assumption|congruence|].
      destruct (IH fcs known values L R) as (p & left & listed & pa & la & ms & kids & E1 & E2); auto.
      { intros f HF. apply HE. right. exact HF. } { intros f HF. apply HD. right. exact HF. } { intros f HF. apply HA. right. exact HF. }
      exists p, left, listed, pa, la, ms, kids. split.
      + rewrite (parse_step name v t k r fcs _ values a EA), HV. exact E1.
      + apply en_skip; [|exact E2]. destruct (special T (fname (name, v, t, k))) eqn:E; [|reflexivity]. apply (special_always _ v t k) in E; [congruence|assumption].
    - (* absent *)
      cbn [fields_ok] in HO. repeat (apply andb_prop in HO as [HO ?]). cbn [map] in HN. inversion HN as [|? ? HN1 HN2]; subst.
      assert (NA : always_there v t = false).
      { destruct (always_there v t) eqn:E; [|reflexivity]. destruct (always_sound version c v t env E) as [_ A]. specialize (A _ HC). discriminate. }
      rewrite learned_keep in * by exact NA.
      destruct (resolves known env values v t k (face_of name fcs) HS HK) as [a EA]; [assumption|congruence|].
      destruct (IH fcs known values L R) as (p & left & listed & pa & la & ms & kids & E1 & E2); auto.
      { intros f HF. apply HE. right. exact HF. } { intros f HF. apply HD. right. exact HF. } { intros f HF. apply HA. right. exact HF. }
      exists p, left, listed, pa, la, ms, kids. split.
      + rewrite (parse_step name v t k r fcs _ values a EA), HV.
        destruct (cond_now name t k env values false) as [->|[-> _]]; auto.
      + apply en_skip; [|exact E2]. destruct (special T (fname (name, v, t, k))) eqn:E; [|reflexivity]. apply (special_always _ v t k) in E; [congruence|assumption].
    - (* there *)
      cbn [fields_ok] in HO. apply andb_prop in HO as [HO O6]. apply andb_prop in HO as [HO O5]. apply andb_prop in HO as [HO O4].
      apply andb_prop in HO as [HO O3]. apply andb_prop in HO as [O1 O2]. cbn [map] in HN. inversion HN as [|? ? HN1 HN2]; subst.
      change (fname (name, v, t, k)) with name in *.
      destruct (HE _ (or_introl eq_refl)) as [HE1 HE2]. destruct (HD _ (or_introl eq_refl)) as [HD1 HD2]. change (fname (name, v, t, k)) with name in *.
      assert (ND : ~ In name ["<text>"; "attribute-name"; "inline"]) by (apply existsb_false_in, negb_true_iff; exact O5).
      assert (HR : forall f, In f r -> fname f <> name).
      { intros f HF' E. apply HN1. rewrite <- E. exact (in_map fname _ _ HF'). }
      destruct (resolves known env values v t k (face_of name fcs) HS HK O3) as [a EA]; [eauto|].
      assert (XY : referable name = true -> x = y).
      { intros RN. destruct HL as [->|(_ & -> & _)]; [reflexivity|discriminate]. }
      destruct (cond_now name t k env values true O2 HS HC) as [EC|(EC & -> & -> & EF)].
      + (* taken for a member *)
        destruct (entry_of repr object version c fuel okp parts_ok T (views all) name v t k (face_of name fcs) env values x y a) as (attrs & ks & EN & NM); auto.
        { intros ->. apply ND. left. reflexivity. }
        { intros m g alts -> n EG. cbn [depends_ok] in O3. apply andb_prop in O3 as [O3 O3b]. apply andb_prop in O3 as [_ O3a].
          assert (EG' : ref_member_flag m g no_parent (VDict values) = Ok n).
          { rewrite <- (groups_agree c env values m g); [exact EG|intros; apply HS; assumption|exact O3a]. }
          split; [exact EG'|]. unfold has_group in O3b. destruct (dict_get m known) as [gs|] eqn:EK; [|discriminate].
          destruct (HK m gs EK) as (RM & n0 & EN). destruct (HS m RM) as [S1 S2]. apply (group_looked m g gs n0 n) with (values := values); auto.
          apply S2. rewrite S1. exact EN. }
        destruct (IH fcs (learned name v t k known) (dict_set name y values) L R) as (p & left & listed & pa & la & ms & kids & E1 & E2); auto.
        * apply refs_step; auto. intros RN. split; [auto|]. apply HI. left. reflexivity.
        * assert (KK : knows known (dict_set name y values)) by (apply knows_set; auto).
          unfold learned. destruct k; try exact KK. destruct (always_there v t && referable name) eqn:AR; [|exact KK]. apply andb_prop in AR as [_ RN].
          intros m gs' EM. cbn [dict_get] in EM. destruct (String.eqb_spec m name) as [->|NE]; [|exact (KK m gs' EM)].
          injection EM as <-. split; [exact RN|]. rewrite <- (XY RN). inversion HF; subst. exists n. rewrite dict_get_set, String.eqb_refl. reflexivity.
        * intros f HF'. destruct (HE f (or_intror HF')) as [F1 F2]. rewrite map_app, in_app_iff, dict_get_set. cbn [map fst In]. split.
          -- intros [F|[F|[]]]; [contradiction|]. apply (HR f HF'). congruence.
          -- destruct (String.eqb_spec (fname f) name) as [E|E]; [|exact F2]. exfalso. exact (HR f HF' E).
        * intros f HF'. apply HD. right. exact HF'.
        * intros f HF' F. destruct (HA f (or_intror HF') F) as [F'|F']; [|exact F']. exfalso. apply (HR f HF'). symmetry. exact F'.
        * intros q HQ. apply HI. right. exact HQ.
        * exists ((name, (a, Held y)) :: p), left, (attrs :: listed), (attrs ++ pa), la, ms, (ks ++ kids). split.
          -- rewrite (parse_step name v t k r fcs _ values a EA), HV, EC. cbn [bind app]. rewrite (dict_pop_there name y L (l ++ R) HD1). cbv zeta. rewrite E1. reflexivity.
          -- apply en_there; auto. apply in_map_iff. exists (name, y). split; [reflexivity|]. apply HI. left. reflexivity.
      + (* left over *)
        inversion HF; subst. destruct HL as [->|(_ & E & _)]; [|discriminate].
        destruct (IH fcs known values (L ++ [("chid0", VText t0)]) R) as (p & left & listed & pa & la & ms & kids & E1 & E2); auto.
        * apply refs_drop; auto.
        * intros f HF'. destruct (HE f (or_intror HF')) as [F1 F2]. rewrite map_app, in_app_iff. split; [|exact F2]. cbn [map fst In].
          intros [F|[F|[]]]; [contradiction|]. apply (HR f HF'). congruence.
        * intros f HF'. destruct (HD f (or_intror HF')) as [F1 F2]. rewrite map_app, in_app_iff. split; [|exact F2]. cbn [map fst In].
          intros [F|[F|[]]]; [contradiction|]. apply (HR f HF'). congruence.
        * intros f HF' F. destruct (HA f (or_intror HF') F) as [F'|F']; [|exact F']. exfalso. apply (HR f HF'). symmetry. exact F'.
        * intros q HQ. apply HI. right. exact HQ.
        * exists p, (("chid0", VText t0) :: left), ([(attribute_name "chid0", t0)] :: listed), pa, ((attribute_name "chid0", t0) :: la), ms, kids. split.
          -- rewrite (parse_step "chid0" v t Id4 r fcs _ values a EA), HV, EC. cbn [bind].
             rewrite <- !app_assoc in E1. exact E1.
          -- apply en_left; auto; [discriminate|]. unfold special. cbn. rewrite !andb_false_r. reflexivity.
    - (* the row sizes, taken away *)
      cbn [fields_ok] in HO. apply andb_prop in HO as [HO O6]. apply andb_prop in HO as [HO O5]. apply andb_prop in HO as [HO O4].
      apply andb_prop in HO as [HO O3]. apply andb_prop in HO as [O1 O2]. cbn [map] in HN. inversion HN as [|? ? HN1 HN2]; subst.
      change (fname ("rowcols", v, t, k)) with "rowcols" in *.
      destruct (HE _ (or_introl eq_refl)) as [HE1 HE2]. destruct (HD _ (or_introl eq_refl)) as [HD1 HD2]. change (fname ("rowcols", v, t, k)) with "rowcols" in *.
      assert (HR : forall f, In f r -> fname f <> "rowcols").
      { intros f HF' E. apply HN1. rewrite <- E. exact (in_map fname _ _ HF'). }
      destruct (resolves known env values v t k (face_of "rowcols" fcs) HS HK O3) as [a EA]; [eauto|].
      unfold special_ok in O4. rewrite HT in O4. cbn in O4. apply andb_prop in O4 as [O4 O4c]. apply andb_prop in O4 as [O4a O4b].
      destruct k as [| | | | | | | | | | |cnt k|]; try discriminate. destruct k as [w| | | | | | | | | | | |]; try discriminate.
      assert (EC : now t values = Ok true).
      { destruct (cond_now "rowcols" t _ env values true O2 HS HC) as [EC|(_ & E & _)]; [exact EC|discriminate]. }
      assert (NL : ~ In "rowcols" (map fst l)).
      { intros F. apply HN1. apply (proj1 (fit_names _ _ _ _ _ _ H)). exact F. }
      destruct (IH fcs known (dict_set "rowcols" (VTuple []) values) L R) as (p & left & listed & pa & la & ms & kids & E1 & E2); auto.
      * apply refs_step; auto. discriminate.
      * apply knows_set; [exact HK|discriminate].
      * intros f HF'. destruct (HE f (or_intror HF')) as [F1 F2]. rewrite map_app, in_app_iff, dict_get_set. cbn [map fst In]. split.
        -- intros [F|[F|[]]]; [contradiction|]. apply (HR f HF'). congruence.
        -- destruct (String.eqb_spec (fname f) "rowcols") as [E|E]; [|exact F2]. exfalso. exact (HR f HF' E).
      * intros f HF'. apply HD. right. exact HF'.
      * intros f HF' F. exact (HA f (or_intror HF') F).
      * assert (EF : form_of T "rowcols" = Plain) by (rewrite HT; reflexivity).
        cbn [as_type resolve] in EA. destruct (as_count cnt no_parent (VDict values)) as [i|] eqn:EI; [|discriminate]. cbn [bind] in EA. injection EA as <-.
        assert (FC : face_of "rowcols" fcs = FPlain \/ face_of "rowcols" fcs = FArray FPlain).
        { rewrite EF in O1. cbn [form_ok] in O1. destruct (face_of "rowcols" fcs) as [| | | | | |[]|]; try discriminate; auto. }
        set (a := Declared_as (TFixed node (TPrim node (PFmt (FmtUInt w))) i) (face_of "rowcols" fcs)) in *.
        exists (("rowcols", (a, Held (VTuple []))) :: p), left, listed, (gone "rowcols" ++ pa), la, (gone "rowcols" ++ ms), kids. split.
        -- rewrite (parse_step "rowcols" v t _ r fcs _ values a), HV, EC.
           2:{ cbn [as_type resolve]. rewrite EI. reflexivity. }
           cbn [bind]. rewrite dict_pop_none.
           2:{ rewrite !map_app, !in_app_iff. tauto. }
           subst a. cbn [default_of]. rewrite E1. reflexivity.
        -- assert (G : gone "rowcols" = [(zs "rowcols", zs "()")]) by (unfold gone; rewrite HT; reflexivity).
           apply en_missing; auto.
           ++ intros F. apply NL. exact (HA _ (or_introl eq_refl) F).
           ++ rewrite G. split; [subst a; destruct FC as [->| ->]; reflexivity|]. exists [("rowcols", zs "()")]. split; [|reflexivity]. subst a. destruct FC as [->| ->]; reflexivity.
           ++ rewrite G, EF. reflexivity.
    - (* nothing chosen *)
      cbn [fields_ok] in HO. apply andb_prop in HO as [HO O6]. apply andb_prop in HO as [HO O5]. apply andb_prop in HO as [HO O4].
      apply andb_prop in HO as [HO O3]. apply andb_prop in HO as [O1 O2]. cbn [map] in HN. inversion HN as [|? ? HN1 HN2]; subst.
      change (fname (name, v, t, k)) with name in *.
      destruct (HE _ (or_introl eq_refl)) as [HE1 HE2]. destruct (HD _ (or_introl eq_refl)) as [HD1 HD2]. change (fname (name, v, t, k)) with name in *.
      destruct (resolves known env values v t k (face_of name fcs) HS HK O3) as [a EA]; [eauto|].
      assert (CH : exists m g alts, k = Choice m g alts) by (inversion HF; subst; eauto). destruct CH as (m & g & alts & ->).
      assert (SP : T = "BinData" /\ name = "bindata").
      { unfold special_ok in O4. destruct (String.eqb_spec T "BinData") as [ET|NT].
        - destruct (String.eqb_spec name "bindata") as [EN|NN]; [auto|]. cbn [andb] in O4. destruct (String.eqb T "TableBody" && String.eqb name "rowcols"); [|discriminate].
          rewrite andb_false_r in O4. discriminate.
        - cbn [andb] in O4. destruct (String.eqb T "TableBody" && String.eqb name "rowcols"); [|discriminate]. rewrite andb_false_r in O4. discriminate. }
      destruct SP as [ET ->].
      assert (EC : now t values = Ok true).
      { destruct (cond_now "bindata" t _ env values true O2 HS HC) as [EC|(_ & E & _)]; [exact EC|discriminate]. }
      assert (NL : ~ In "bindata" (map fst l)).
      { intros F. apply HN1. apply (proj1 (fit_names _ _ _ _ _ _ H)). exact F. }
      destruct (face_of "bindata" fcs) as [| | | | | | |fl] eqn:EFC; try discriminate.
      destruct (form_of T "bindata") as [| | | | | | | | | |m' g' names] eqn:EF; try discriminate.
      cbn [form_ok] in O1. apply andb_prop in O1 as [O1 O1c]. apply andb_prop in O1 as [O1a O1b].
      cbn [depends_ok] in O3. apply andb_prop in O3 as [O3 O3c]. apply andb_prop in O3 as [O3a O3b].
      assert (EM : a = Empty_struct).
      { inversion HF; subst.
        - pose proof (choose_ok okp alts fl names n O1c) as CH. match goal with K : find _ alts = Some _ |- _ => rewrite K in CH end.
          destruct CH as (fs' & ? & ? & -> & _). match goal with K : fits _ _ (Fields _) _ None |- _ => inversion K end.
        - pose proof (choose_ok okp alts fl names n O1c) as CH. match goal with K : find _ alts = None |- _ => rewrite K in CH end.
          rewrite as_type_choice in EA. cbn [resolve] in EA.
          match goal with K : ref_member_flag _ _ c _ = Ok _ |- _ => rewrite (groups_agree c env values m g) in K; [rewrite K in EA|intros; apply HS; assumption|exact O3b] end.
          cbn [bind] in EA. congruence. }
      subst a. destruct (IH fcs known values L R) as (p & left & listed & pa & la & ms & kids & E1 & E2); auto.
      * intros f HF'. apply HE. right. exact HF'.
      * intros f HF'. apply HD. right. exact HF'.
      * intros f HF' F. exact (HA f (or_intror HF') F).
      * assert (G : gone "bindata" = [(zs "bindata", object)]) by (unfold gone; rewrite ET; reflexivity).
        exists (("bindata", (Empty_struct, Object)) :: p), left, listed, (gone "bindata" ++ pa), la, (gone "bindata" ++ ms), kids. split.
        -- rewrite (parse_step "bindata" v t _ r fcs _ values Empty_struct), HV, EC.
           2:{ rewrite EFC. exact EA. }
           cbn [bind]. rewrite dict_pop_none.
           2:{ rewrite !map_app, !in_app_iff. tauto. }
           cbn [default_of]. rewrite E1. reflexivity.
        -- apply en_missing; auto.
           ++ intros F. apply NL. exact (HA _ (or_introl eq_refl) F).
           ++ rewrite G. split; [reflexivity|]. exists [("bindata", object)]. split; reflexivity.
           ++ rewrite G, EF. reflexivity.
  Qed.

  (** ** What follows *)
  Lemma en_names : forall fs l p left listed pa la ms kids, entries fs l p left listed pa la ms kids ->
    under (map fst p ++ map fst left) (map fname fs).
  Proof.
    intros fs l p left listed pa la ms kids H. assert (S : forall (x : string) (a b : list string), under a b -> under a (x :: b)).
    { intros x a b [I N]. split; [intros y HY; right; auto|]. intros H'. inversion H'; subst. auto. }
    induction H as [|? ? ? ? ? ? ? ? ? ? ? H IH|f key ? ? ? ? ? ? ? ? ? ? ? ? ? E ? ? ? H IH|f key ? ? ? ? ? ? ? ? ? ? E ? ? ? H IH|f key ? ? ? ? ? ? ? ? ? ? ? E ? ? ? H IH]; cbn [map fst app].
    - apply under_nil.
    - apply S. exact IH.
    - rewrite E. apply (under_app [key] [key]); [apply under_refl|exact IH].
    - rewrite E. apply under_perm with (a := [key] ++ (map fst p ++ map fst left)).
      + exact (Permutation_middle (map fst p) (map fst left) key).
      + apply (under_app [key] [key]); [apply under_refl|exact IH].
    - rewrite E. apply (under_app [key] [key]); [apply under_refl|exact IH].
  Qed.
  Lemma en_listed : forall fs l p left listed pa la ms kids, entries fs l p left listed pa la ms kids ->
    Forall2 (fun m a => attributes_of repr (form_of T (fst m)) (fst m) (snd m) a) (views l) listed.
  Proof.
    intros fs l p left listed pa la ms kids H.
    induction H as [|? ? ? ? ? ? ? ? ? ? ? H IH|f key ? ? ? ? ? ? ? ? ? ? ? ? ? E EN ? ? H IH|f key ? ? ? ? ? ? ? ? ? ? E EF NK ? H IH|f key ? ? ? ? ? ? ? ? ? ? ? E ? ? ? H IH]; try exact IH.
    - constructor.
    - constructor; [|exact IH]. cbn [fst snd]. apply EN.
    - constructor; [|exact IH]. cbn [fst snd view_of]. rewrite EF. apply ao_plain; [exact NK|constructor].
  Qed.
  Lemma en_children : forall fs l p left listed pa la ms kids, entries fs l p left listed pa la ms kids ->
    forall r ts, children repr object T (views all) r ts -> children repr object T (views all) (views l ++ r) (kids ++ ts).
  Proof.
    intros fs l p left listed pa la ms kids H.
    induction H as [|? ? ? ? ? ? ? ? ? ? ? H IH|f key ? ? ? ? ? ? ? ? ? ? ? ? ? E EN ? ? H IH|f key ? ? ? ? ? ? ? ? ? ? E EF NK ? H IH|f key ? ? ? ? ? ? ? ? ? ? ? E ? ? ? H IH]; intros r' ts HR; auto.
    - destruct EN as (_ & EN & _). rewrite <- app_assoc. apply (EN (views l ++ r')). apply IH. exact HR.
    - apply (ch_none _ _ T (views all) key). { rewrite EF. exact I. } apply IH. exact HR.
  Qed.
  Lemma en_order : forall fs l p left listed pa la ms kids, entries fs l p left listed pa la ms kids ->
    Permutation (pa ++ la) (concat listed ++ ms).
  Proof.
    intros fs l p left listed pa la ms kids H.
    induction H as [|? ? ? ? ? ? ? ? ? ? ? H IH|f key ? ? ? ? ? ? ? ? ? ? ? ? ? E EN ? ? H IH|f key ? ? ? ? ? ? ? ? ? ? E EF NK ? H IH|f key ? ? ? ? ? ? ? ? ? ? ? E ? ? ? H IH]; auto.
    - cbn [concat]. rewrite <- !app_assoc. apply Permutation_app_head. exact IH.
    - cbn [concat app]. rewrite <- Permutation_middle. apply perm_skip. exact IH.
    - rewrite <- app_assoc. rewrite IH. rewrite !app_assoc. apply Permutation_app_tail. apply Permutation_app_comm.
  Qed.
  Lemma en_possible : forall fs l p left listed pa la ms kids, entries fs l p left listed pa la ms kids ->
    under (map fst (pa ++ la)) (flat_map (fun f => match f with (key, _, _, k) => attribute_names key (form_of T key) k end) fs).
  Proof.
    intros fs l p left listed pa la ms kids H.
    assert (F : forall f : field_spec, (match f with (key, _, _, k) => attribute_names key (form_of T key) k end) = attribute_names (fname f) (form_of T (fname f)) (snd f)).
    { intros [[[? ?] ?] ?]. reflexivity. }
    induction H as [|? ? ? ? ? ? ? ? ? ? ? H IH|f key ? ? ? ? ? ? ? ? ? ? ? ? ? E EN NM ? H IH|f key ? ? ? ? ? ? ? ? ? ? E EF NK ? H IH|f key ? ? ? ? ? ? ? ? ? ? ? E ? ? NM H IH]; cbn [flat_map]; try rewrite F; try rewrite E.
    - apply under_nil.
    - apply (under_app [] _ _ _ (under_nil _) IH).
    - rewrite <- app_assoc, map_app. destruct NM as [->|NM].
      + apply (under_app [] _ _ _ (under_nil _) IH).
      + rewrite NM. apply under_app; [apply under_refl|exact IH].
    - rewrite EF. apply under_perm with (a := map fst ([(attribute_name key, t)] ++ pa ++ la)).
      + apply Permutation_map. exact (Permutation_middle pa la (attribute_name key, t)).
      + rewrite map_app. apply under_app; [|exact IH]. apply under_refl.
    - rewrite <- app_assoc, map_app, NM. apply under_app; [apply under_refl|exact IH].
  Qed.

  Definition here (key : string) : bool := existsb (String.eqb key) (map fst all).
  Lemma here_iff : forall key, here key = true <-> In key (map fst all).
  Proof.
    intros key. unfold here. rewrite existsb_exists. split.
    - intros (k & HI & E). apply String.eqb_eq in E. subst. exact HI.
    - intros HI. exists key. split; [exact HI|apply String.eqb_refl].
  Qed.
  Lemma en_missing_is : forall fs l p left listed pa la ms kids, entries fs l p left listed pa la ms kids ->
    ms = flat_map (fun key => if here key then [] else gone key) (map fname fs).
  Proof.
    assert (G : forall key, special T key = false -> gone key = []).
    { intros key HS. unfold special in HS. apply orb_false_iff in HS as [H1 H2]. unfold gone. rewrite H1, H2. reflexivity. }
    intros fs l p left listed pa la ms kids H.
    induction H as [|? ? ? ? ? ? ? ? ? ? HS H IH|f key ? ? ? ? ? ? ? ? ? ? ? ? ? E EN NM HA H IH|f key ? ? ? ? ? ? ? ? ? ? E EF NK HS H IH|f key ? ? ? ? ? ? ? ? ? ? ? E HA ? NM H IH]; cbn [map flat_map].
    - reflexivity.
    - rewrite (G _ HS). destruct (here (fname f)); exact IH.
    - rewrite E. apply here_iff in HA. rewrite HA. exact IH.
    - rewrite E, (G _ HS). destruct (here key); exact IH.
    - rewrite E. destruct (here key) eqn:EH; [apply here_iff in EH; contradiction|]. rewrite IH. reflexivity.
  Qed.
  Lemma only_one : forall {A} (g : string -> list A) k0 names, (forall k, k <> k0 -> g k = []) -> NoDup names -> In k0 names -> flat_map g names = g k0.
  Proof.
    intros A g k0 names HG HN HI. induction HN as [|k names HK HN IH]; [destruct HI|]. cbn [flat_map]. destruct (string_dec k k0) as [->|NE].
    - assert (Z : flat_map g names = []).
      { clear - HG HK. induction names as [|k names IH]; [reflexivity|]. cbn [flat_map]. rewrite (HG k), IH; auto; intros E; apply HK; [right; exact E|left; exact E]. }
      rewrite Z. apply app_nil_r.
    - rewrite (HG k NE). apply IH. destruct HI as [HI|HI]; [contradiction|exact HI].
  Qed.
  Lemma nothing : forall {A} (g : string -> list A) names, (forall k, g k = []) -> flat_map g names = [].
  Proof. intros A g names HG. induction names as [|k names IH]; [reflexivity|]. cbn [flat_map]. rewrite HG. exact IH. Qed.
  Lemma missing_is : forall names, NoDup names -> (T = "BinData" -> In "bindata" names) -> (T = "TableBody" -> In "rowcols" names) ->
    flat_map (fun key => if here key then [] else gone key) names = missing object T (views all).
  Proof.
    intros names HN H1 H2. unfold missing. rewrite !look_views.
    assert (L : forall {A} key (b : list A), (match option_map view_of (dict_get key all) with Some _ => [] | None => b end) = if here key then [] else b).
    { intros A key b. destruct (here key) eqn:E.
      - apply here_iff, in_map_iff in E as ((k & v) & E & HI). cbn in E. subst k. rewrite (dict_get_in key v all all_distinct HI). reflexivity.
      - rewrite (dict_get_notin key all); [reflexivity|]. intros HI. apply here_iff in HI. congruence. }
    assert (L' : forall {A} key (b : list A), (match option_map view_of (dict_get key all) with None => b | Some _ => [] end) = if here key then [] else b) by (intros; apply L).
    rewrite !L'. destruct (String.eqb_spec T "BinData") as [ET|NT].
    - rewrite (only_one _ "bindata"); auto.
      + unfold gone. rewrite ET. cbn. destruct (here "bindata"), (here "rowcols"); reflexivity.
      + intros k NE. unfold gone. rewrite ET. cbn. apply String.eqb_neq in NE. rewrite NE. destruct (here k); reflexivity.
    - destruct (String.eqb_spec T "TableBody") as [ET|NT'].
      + rewrite (only_one _ "rowcols"); auto.
        * unfold gone. rewrite ET. cbn. destruct (here "bindata"), (here "rowcols"); reflexivity.
        * intros k NE. unfold gone. rewrite ET. cbn. apply String.eqb_neq in NE. rewrite NE. destruct (here k); reflexivity.
      + rewrite nothing.
        * destruct (here "bindata"), (here "rowcols"); reflexivity.
        * intros k. unfold gone. apply String.eqb_neq in NT, NT'. rewrite NT, NT'. cbn. destruct (here k); reflexivity.
  Qed.

  (** the members that are elements, and those that are attributes *)
  Lemma en_kids : forall fs l p left listed pa la ms kids, entries fs l p left listed pa la ms kids ->
    gmap (child repr object version fuel) (filter is_part p) = (flat_map events_of kids, Finished).
  Proof.
    intros fs l p left listed pa la ms kids H.
    induction H as [|? ? ? ? ? ? ? ? ? ? ? H IH|f key ? ? ? ? ? ? ? ? ? ? ? ? ? E EN ? ? H IH|f key ? ? ? ? ? ? ? ? ? ? E EF NK ? H IH|f key ? ? ? ? ? ? ? ? ? ? ? E ? PE ? H IH]; auto.
    - cbn [filter]. destruct EN as (_ & _ & [[[EP _] ->]|(EP & _ & EC)]); rewrite EP; [exact IH|].
      cbn [gmap]. rewrite EC, IH, flat_map_app. reflexivity.
    - cbn [filter]. destruct PE as [-> _]. exact IH.
  Qed.
  Lemma expanded_app : forall a b, expanded_all py_repr object (a ++ b) =
    let? x := expanded_all py_repr object a in let? y := expanded_all py_repr object b in Ok (x ++ y).
  Proof.
    intros a b. induction a as [|x a IH]; cbn [app expanded_all].
    - cbn [bind]. destruct (expanded_all py_repr object b); reflexivity.
    - rewrite IH. destruct (expanded_xmlattribute py_repr object x); cbn [bind]; [|reflexivity]. destruct (expanded_all py_repr object a); cbn [bind]; [|reflexivity].
      destruct (expanded_all py_repr object b); cbn [bind]; [|reflexivity]. rewrite app_assoc. reflexivity.
  Qed.
  Lemma xattrs_app : forall a b, xattrs (a ++ b) = xattrs a ++ xattrs b.
  Proof. intros. apply map_app. Qed.
  Lemma en_plain : forall fs l p left listed pa la ms kids, entries fs l p left listed pa la ms kids ->
    (exists x, expanded_all py_repr object (filter (fun x => negb (is_part x)) p) = Ok x /\ xattrs x = pa) /\
    (exists x, expanded_all py_repr object (remnants left) = Ok x /\ xattrs x = la) /\
    Forall (fun x => is_part x = false) (remnants left).
  Proof.
    intros fs l p left listed pa la ms kids H.
    induction H as [|? ? ? ? ? ? ? ? ? ? ? H IH|f key ? ? ? ? ? ? ? ? ? ? ? ? ? E EN ? ? H IH|f key ? ? ? ? ? ? ? ? ? ? E EF NK ? H IH|f key ? ? ? ? ? ? ? ? ? ? ? E ? PE ? H IH]; auto.
    - repeat split; try (exists []; split; reflexivity). constructor.
    - destruct IH as (I1 & I2). split; [|exact I2]. destruct I1 as (x & E1 & <-). cbn [filter].
      destruct EN as (_ & _ & [[[EP (y & EX & <-)] _]|(EP & -> & _)]); rewrite EP; cbn [negb].
      + exists (y ++ x). cbn [expanded_all]. fold py_repr in EX. rewrite EX, E1. cbn [bind]. split; [reflexivity|apply xattrs_app].
      + exists x. split; [exact E1|reflexivity].
    - destruct IH as (I1 & (x & E1 & <-) & I3). split; [exact I1|]. split.
      + exists ((key, t) :: x). cbn [remnants map fst snd expanded_all expanded_xmlattribute bind]. unfold remnants in E1. rewrite E1. split; reflexivity.
      + constructor; [reflexivity|exact I3].
    - destruct IH as (I1 & I2). split; [|exact I2]. destruct I1 as (x & E1 & <-). cbn [filter]. destruct PE as (EP & y & EX & <-). rewrite EP. cbn [negb].
      exists (y ++ x). cbn [expanded_all]. fold py_repr in EX. rewrite EX, E1. cbn [bind]. split; [reflexivity|apply xattrs_app].
  Qed.

  (** ** All layouts of a type *)
  Lemma in_concat_map : forall f (parts : list (list field_spec * faces)), In f (concat (map fst parts)) -> exists p, In p parts /\ In f (fst p).
  Proof. intros f parts H. apply in_concat in H as (x & HX & HF). apply in_map_iff in HX as (p & <- & HP). eauto. Qed.

  Lemma part_names : forall (parts : list (list field_spec * faces)) ls, Forall2 (fun p l => fit_list version c T (fst p) [] l) parts ls ->
    under (map fst (concat ls)) (map fname (concat (map fst parts))).
  Proof.
    intros parts ls H. induction H as [|p l parts ls HP H IH]; cbn [map concat]; [apply under_nil|]. rewrite !map_app.
    apply under_app; [|exact IH]. apply (fit_names _ _ _ _ _ _ HP).
  Qed.
  Lemma parts_entries : forall (parts : list (list field_spec * faces)) ls, Forall2 (fun p l => fit_list version c T (fst p) [] l) parts ls -> forall L R,
    forallb (fun p => fields_ok okp T (snd p) [] (fst p)) parts = true -> NoDup (map fname (concat (map fst parts))) ->
    (forall f, In f (concat (map fst parts)) -> ~ In (fname f) (map fst L) /\ ~ In (fname f) (map fst R)) ->
    (forall f, In f (concat (map fst parts)) -> In (fname f) (map fst all) -> In (fname f) (map fst (concat ls))) -> incl (concat ls) all ->
    exists p left listed pa la ms kids,
      parse_all_members version (map (fun p => (as_members (fst p), snd p)) parts) (L ++ concat ls ++ R) = Ok (p, L ++ left ++ R) /\
      entries (concat (map fst parts)) (concat ls) p left listed pa la ms kids.
  Proof.
    intros parts ls H. induction H as [|[fs fcs] l parts ls HP H IH]; intros L R HO HN HD HA HI.
    - exists [], [], [], [], [], [], []. split; [reflexivity|constructor].
    - cbn [forallb fst snd] in HO. apply andb_prop in HO as [HO1 HO2]. cbn [map concat fst] in HN, HD, HA, HP. rewrite map_app in HN.
      apply nodup_app in HN as (N1 & N2 & N3). pose proof (part_names parts ls H) as [PN _].
      destruct (member_entries fs [] l HP fcs [] [] L (concat ls ++ R)) as (p1 & left1 & listed1 & pa1 & la1 & ms1 & kids1 & E1 & F1); auto.
      + intros m HM. split; [reflexivity|discriminate].
      + intros m gs E. discriminate.
      + intros f HF. destruct (HD f (in_or_app _ _ _ (or_introl HF))) as [D1 D2]. split; [exact D1|]. rewrite map_app, in_app_iff. intros [D|D]; [|contradiction].
        apply (N3 (fname f)); [exact (in_map fname _ _ HF)|]. apply PN. exact D.
      + intros f HF HIn. specialize (HA f (in_or_app _ _ _ (or_introl HF)) HIn). cbn [concat] in HA. rewrite map_app, in_app_iff in HA. destruct HA as [HA|HA]; [exact HA|].
        exfalso. apply (N3 (fname f)); [exact (in_map fname _ _ HF)|]. apply PN. exact HA.
      + intros q HQ. apply HI. cbn [concat]. apply in_or_app. left. exact HQ.
      + destruct (IH (L ++ left1) R) as (p2 & left2 & listed2 & pa2 & la2 & ms2 & kids2 & E2 & F2); auto.
        * intros f HF. destruct (HD f (in_or_app _ _ _ (or_intror HF))) as [D1 D2]. split; [|exact D2]. rewrite map_app, in_app_iff. intros [D|D]; [contradiction|].
          apply (N3 (fname f)); [|exact (in_map fname _ _ HF)]. apply (proj1 (en_names _ _ _ _ _ _ _ _ _ F1)). apply in_or_app. right. exact D.
        * intros f HF HIn. specialize (HA f (in_or_app _ _ _ (or_intror HF)) HIn). cbn [concat] in HA. rewrite map_app, in_app_iff in HA. destruct HA as [HA|HA]; [|exact HA].
          exfalso. apply (N3 (fname f)); [|exact (in_map fname _ _ HF)]. apply (proj1 (fit_names _ _ _ _ _ _ HP)). exact HA.
        * intros q HQ. apply HI. cbn [concat]. apply in_or_app. right. exact HQ.
        * exists (p1 ++ p2), (left1 ++ left2), (listed1 ++ listed2), (pa1 ++ pa2), (la1 ++ la2), (ms1 ++ ms2), (kids1 ++ kids2). split.
          -- cbn [map parse_all_members fst snd concat]. rewrite <- app_assoc, E1. cbn [bind]. rewrite <- app_assoc in E2. rewrite E2. cbn [bind].
             rewrite <- !app_assoc. reflexivity.
          -- cbn [map concat fst]. apply entries_app; assumption.
  Qed.
End Parts.

(** ** One element *)
Lemma separated : forall l d p, NoDup (map fst (p ++ l)) ->
  separate_plainvalues l d p = (d ++ filter is_part l, p ++ filter (fun x => negb (is_part x)) l).
Proof.
  induction l as [|[name [a v]] l IH]; intros d p HN; cbn [separate_plainvalues filter].
  - rewrite !app_nil_r. reflexivity.
  - assert (HD : dict_set name (a, v) p = p ++ [(name, (a, v))]).
    { apply dict_set_new, dict_get_notin. rewrite map_app in HN. apply nodup_app in HN as (_ & _ & HN). intros HI. apply (HN name HI). left. reflexivity. }
    assert (N1 : NoDup (map fst (dict_set name (a, v) p ++ l))) by (rewrite HD, <- app_assoc; exact HN).
    assert (N2 : NoDup (map fst (p ++ l))).
    { rewrite map_app in HN |- *. cbn [map] in HN. apply NoDup_remove_1 in HN. exact HN. }
    unfold is_part. cbn [fst snd]. destruct (is_margin a); cbn [negb andb].
    + rewrite IH by exact N1. rewrite HD, <- app_assoc. reflexivity.
    + destruct (is_complex_type a v); cbn [negb].
      * rewrite IH by exact N2. rewrite <- app_assoc. reflexivity.
      * rewrite IH by exact N1. rewrite HD, <- app_assoc. reflexivity.
Qed.
Lemma unique_names : forall l names, NoDup (map fst l) -> (forall k, In k (map fst l) -> ~ In k names) -> uniqnames names l = Ok l.
Proof.
  induction l as [|[k v] l IH]; intros names HN HD; [reflexivity|]. cbn [uniqnames]. cbn [map fst] in *. inversion HN; subst.
  destruct (existsb _ names) eqn:E.
  - exfalso. apply existsb_exists in E as (n & HI & E). destruct (list_eq_dec Z.eq_dec k n); [|discriminate]. subst. exact (HD n (or_introl eq_refl) HI).
  - rewrite IH; [reflexivity|assumption|]. intros k' HK [<-|HI]; [contradiction|]. exact (HD k' (or_intror HK) HI).
Qed.

(** Attributes added to those of the record. *)
Definition extra_attr (kv : string * value) : list (list Z * list Z) :=
  if String.eqb (fst kv) "<text>" then [] else
  match snd kv with
  | VInt n => [(attribute_name (fst kv), fmt_d n)]
  | VText t => [(attribute_name (fst kv), t)]
  | _ => []
  end.
Section Whole.
  Variable repr : view -> list Z.
  Variable object : list Z.
  Let py_repr : value -> list Z := fun v => repr (view_of v).
  Variable T : string.
  Variable parts : list (list field_spec).

  Lemma extra_values : forall X, addable T parts (views X) ->
    Forall (fun kv => (exists n, snd kv = VInt n /\ fst kv <> "<text>") \/ (exists t, snd kv = VText t)) X.
  Proof.
    intros X [_ H]. unfold views in H. rewrite Forall_map in H. eapply Forall_impl; [|exact H]. intros [k v] (_ & _ & _ & HV). cbn [fst snd] in *.
    destruct v; try contradiction; eauto.
  Qed.
  Lemma extra_plain : forall X, addable T parts (views X) -> Forall (fun x => is_part x = false) (remnants X).
  Proof.
    intros X H. apply extra_values in H. unfold remnants. apply Forall_map. eapply Forall_impl; [|exact H]. intros [k v] [(n & E & _)|(t & E)]; cbn [fst snd] in *; subst; reflexivity.
  Qed.
  Lemma extra_listed : forall X, addable T parts (views X) ->
    Forall2 (fun m a => attributes_of repr (form_of T (fst m)) (fst m) (snd m) a) (views X) (map extra_attr X).
  Proof.
    intros X H. pose proof (extra_values X H) as HV. destruct H as [_ H]. unfold views in *. rewrite Forall_map in H.
    induction X as [|[k v] X IH]; cbn [map]; constructor.
    - inversion H as [|? ? (EF & _) _]; subst. inversion HV as [|? ? V _]; subst. cbn [fst snd] in *. rewrite EF. unfold extra_attr. cbn [fst snd].
      destruct (String.eqb_spec k "<text>") as [->|NE]; [constructor|].
      destruct V as [(n & -> & _)|(t & ->)]; apply ao_plain; auto; constructor. apply decimal_ok.
    - inversion H; inversion HV; subst. apply IH; assumption.
  Qed.
  Lemma extra_children : forall all X, addable T parts (views X) -> children repr object T all (views X) [].
  Proof.
    intros all X [_ H]. induction (views X) as [|[k v] l IH]; constructor.
    - inversion H as [|? ? (EF & _) _]; subst. cbn [fst] in EF. rewrite EF. exact I.
    - inversion H; subst. auto.
  Qed.
  Lemma extra_expanded : forall X, addable T parts (views X) -> ~ In "<text>" (map fst X) ->
    exists x, expanded_all py_repr object (remnants X) = Ok x /\ xattrs x = concat (map extra_attr X).
  Proof.
    intros X H. apply extra_values in H. induction H as [|[k v] X HV H IH]; intros HN.
    - exists []. split; reflexivity.
    - cbn [map fst] in HN. destruct IH as (x & E1 & E2). { intros HI. apply HN. right. exact HI. }
      assert (NE : k <> "<text>") by (intros E; apply HN; left; exact E).
      unfold remnants in *. cbn [map concat expanded_all fst snd] in *. rewrite E1. unfold extra_attr at 1. cbn [fst snd]. apply String.eqb_neq in NE. rewrite NE.
      destruct HV as [(n & -> & _)|(t & ->)]; cbn [expanded_xmlattribute bind].
      + exists ((k, fmt_d n) :: x). split; [reflexivity|]. cbn [xattrs map fst snd app]. rewrite <- E2. reflexivity.
      + exists ((k, t) :: x). split; [reflexivity|]. cbn [xattrs map fst snd app]. rewrite <- E2. reflexivity.
  Qed.
  Lemma extra_names : forall X, addable T parts (views X) -> under (map fst (concat (map extra_attr X))) (map (fun kv => attribute_name (fst kv)) X).
  Proof.
    intros X H. apply extra_values in H. induction H as [|[k v] X HV H IH]; cbn [map concat]; [apply under_nil|]. rewrite map_app.
    change (attribute_name (fst (k, v)) :: map (fun kv => attribute_name (fst kv)) X) with ([attribute_name k] ++ map (fun kv => attribute_name (fst kv)) X).
    apply under_app; [|exact IH]. unfold extra_attr. cbn [fst snd]. destruct (String.eqb k "<text>"); [apply under_nil|].
    destruct HV as [(n & E & _)|(t & E)]; cbn [snd] in E; rewrite E; apply under_refl.
  Qed.
  Lemma views_names : forall X, map (fun m => attribute_name (fst m)) (views X) = map (fun kv : string * value => attribute_name (fst kv)) X.
  Proof. intros X. unfold views. rewrite map_map. reflexivity. Qed.
  Lemma extra_distinct : forall X, addable T parts (views X) -> NoDup (map fst X).
  Proof.
    intros X [H _]. rewrite views_names in H. rewrite <- (map_map fst attribute_name) in H. exact (NoDup_map_inv _ _ H).
  Qed.
End Whole.

(** character data *)
Lemma pop_text : forall X (q : list typed), ~ In "<text>" (map fst q) -> NoDup (map fst X) -> Forall (fun kv => fst kv = "<text>" -> exists t, snd kv = VText t) X ->
  exists X', ~ In "<text>" (map fst X') /\ (forall kv, In kv X' -> In kv X) /\ concat (map extra_attr X') = concat (map extra_attr X) /\
    match dict_get "<text>" X with
    | None => dict_pop "<text>" (q ++ remnants X) = (None, q ++ remnants X) /\ X' = X
    | Some v => dict_pop "<text>" (q ++ remnants X) = (Some (Type_of_value, Held v), q ++ remnants X') /\ exists t, v = VText t
    end.
Proof.
  intros X q HQ HN HT. assert (RN : forall X, map fst (remnants X) = map fst X) by (intros; unfold remnants; rewrite map_map; reflexivity).
  destruct (dict_get "<text>" X) as [v|] eqn:E.
  - assert (S : exists a b, X = a ++ ("<text>", v) :: b).
    { clear - E. induction X as [|[k x] X IH]; cbn [dict_get] in E; [discriminate|]. destruct (String.eqb_spec "<text>" k) as [<-|NE].
      - injection E as ->. exists [], X. reflexivity.
      - destruct (IH E) as (a & b & ->). exists ((k, x) :: a), b. reflexivity. }
    destruct S as (a & b & ->). exists (a ++ b). rewrite map_app in HN. cbn [map fst] in HN. pose proof (NoDup_remove_2 _ _ _ HN) as NI. repeat split.
    + rewrite map_app. exact NI.
    + intros kv HI. apply in_app_or in HI as [HI|HI]; apply in_or_app; cbn; auto.
    + rewrite !map_app, !concat_app. cbn [map concat]. reflexivity.
    + unfold remnants. rewrite !map_app, app_assoc. cbn [map fst snd]. rewrite dict_pop_there.
      * rewrite app_assoc. reflexivity.
      * rewrite map_app. intros HI. apply in_app_or in HI as [HI|HI]; [contradiction|]. apply NI, in_or_app. left. fold (remnants a) in HI. rewrite RN in HI. exact HI.
    + rewrite Forall_forall in HT. exact (HT ("<text>", v) ltac:(apply in_or_app; right; left; reflexivity) eq_refl).
  - assert (NI : ~ In "<text>" (map fst X)).
    { intros HI. apply in_map_iff in HI as ((k & v) & Ek & HI). cbn in Ek. subst k. rewrite (dict_get_in _ v X HN HI) in E. discriminate. }
    exists X. repeat split; auto. apply dict_pop_none. rewrite map_app, RN, in_app_iff. tauto.
Qed.

Lemma filter_parts : forall l, Forall (fun x => is_part x = false) l -> filter is_part l = [] /\ filter (fun x => negb (is_part x)) l = l.
Proof. intros l H. induction H as [|x l HX H [I1 I2]]; [split; reflexivity|]. cbn [filter]. rewrite HX. cbn [negb]. rewrite I2. auto. Qed.
Lemma under_filter : forall (f : typed -> bool) l, under (map fst (filter f l)) (map fst l).
Proof.
  intros f l. induction l as [|x l IH]; cbn [filter map]; [apply under_nil|]. destruct (f x); cbn [map].
  - apply (under_app [fst x] [fst x]); [apply under_refl|exact IH].
  - apply (under_app [] [fst x]); [apply under_nil|exact IH].
Qed.

Section Main.
  Variable repr : view -> list Z.
  Variable object : list Z.
  Let py_repr : value -> list Z := fun v => repr (view_of v).
  Variable version : list Z.
  Variable c : node.

  Lemma start_step : forall k T layouts attributes l, typed_struct_attributes version layouts attributes = Ok l ->
    startelement py_repr object (S k) version (Struct_type T layouts) attributes =
    let '(complex, plain) := separate_plainvalues l [] [] in
    let texts := if String.eqb T "Text" then
                   match dict_pop "text" plain with
                   | (None, _) => Raise KeyError
                   | (Some (_, v), plain') => Ok (Some v, plain')
                   end
                 else match dict_pop "<text>" plain with
                      | (None, _) => Ok (None, plain)
                      | (Some (_, v), plain') => Ok (Some v, plain')
                      end in
    match (let? (text, plain) := texts in let? attrs := xmlattributes_for_plainvalues py_repr object plain in Ok (text, attrs)) with
    | Raise e => ([], Failed e)
    | Ok (text, attrs) =>
        gapp (XStart (zs T) attrs ::
              match text with Some (Held (VText (c :: t))) => [XText (c :: t)] | _ => [] end)
          (gmap (child repr object version k) complex)
    end.
  Proof. intros k T layouts attributes l E. cbn [startelement]. rewrite E. reflexivity. Qed.

  Definition good (fuel : nat) (T : string) (parts : list (list field_spec * faces)) : Prop :=
    forall ls X, Forall2 (fun p l => fit_list version c T (fst p) [] l) parts ls -> addable T (map fst parts) (views X) ->
    exists t, startelement py_repr object fuel version (Struct_type T (map (fun p => (as_members (fst p), snd p)) parts)) (concat ls ++ X) = (opening t, Finished) /\
              Spec_XmlElement.element repr object T (views (concat ls ++ X)) t.

  Lemma in_existsb : forall x l, existsb (String.eqb x) l = true -> In x l.
  Proof. intros x l H. apply existsb_exists in H as (y & HI & E). apply String.eqb_eq in E. subst. exact HI. Qed.

  Lemma ok_good : forall n m T parts, ok n T parts = true -> good (n + m) T parts.
  Proof.
    induction n as [|n IH]; intros m T parts HO; [discriminate|]. cbn [ok] in HO.
    apply andb_prop in HO as [HO O7]. apply andb_prop in HO as [HO O6]. apply andb_prop in HO as [HO O5]. apply andb_prop in HO as [HO O4].
    apply andb_prop in HO as [HO O3]. apply andb_prop in HO as [O1 O2].
    apply distinct_names_sound in O2. apply distinct_texts_sound in O3. apply negb_true_iff in O5.
    unfold member_names in O2. change (fun f : field_spec => fst (fst (fst f))) with fname in O2.
    set (okp := fun T fs fcs => ok n T [(fs, fcs)] && forallb (extra_ok T [fs]) ["<text>"; "attribute-name"; "inline"]) in *.
    assert (PO : forall cls fs fcs, okp cls fs fcs = true ->
      (forall key, In key ["<text>"; "attribute-name"; "inline"] -> extra_ok cls [fs] key = true) /\ NoDup (map fname fs) /\
      forall l x, fit_list version c cls fs [] l -> addable cls [fs] (views x) ->
      exists t, startelement py_repr object (n + m) version (Struct_type cls [(as_members fs, fcs)]) (l ++ x) = (opening t, Finished) /\
                Spec_XmlElement.element repr object cls (views (l ++ x)) t).
    { intros cls fs fcs HP. unfold okp in HP. apply andb_prop in HP as [HP HX]. pose proof (IH m cls [(fs, fcs)] HP) as G. split; [|split].
      - rewrite forallb_forall in HX. exact HX.
      - destruct n; [discriminate|]. cbn [ok] in HP. repeat (apply andb_prop in HP as [HP ?]).
        match goal with K : distinct_names _ = true |- _ => apply distinct_names_sound in K; unfold member_names in K; cbn [map fst concat] in K; rewrite app_nil_r in K; exact K end.
      - intros l x HF HA. specialize (G [l] x). cbn [concat map fst snd] in G. rewrite app_nil_r in G. apply G; [|exact HA]. constructor; [exact HF|constructor]. }
    intros ls X HF HA. set (all := concat ls ++ X).
    pose proof (part_names version c T parts ls HF) as PN.
    assert (XN : forall key, In key (map fst X) -> ~ In key (map fname (concat (map fst parts)))).
    { intros key HI. destruct HA as [_ HA]. unfold views in HA. rewrite Forall_map, Forall_forall in HA. apply in_map_iff in HI as (kv & <- & HI).
      specialize (HA kv HI) as (_ & HA & _). exact HA. }
    assert (AD : NoDup (map fst all)).
    { subst all. rewrite map_app. apply nodup_app. repeat split; [apply (proj2 PN O2)|exact (extra_distinct _ _ X HA)|].
      intros key HI HX. exact (XN key HX (proj1 PN key HI)). }
    destruct (parts_entries repr object version c (n + m) okp PO T all AD parts ls HF [] X) as (p & left & listed & pa & la & ms & kids & E1 & EN); auto.
    { intros f HI. split; [intros []|]. intros HX. apply (XN _ HX). exact (in_map fname _ _ HI). }
    { intros f HI HIn. subst all. rewrite map_app in HIn. apply in_app_or in HIn as [HIn|HIn]; [exact HIn|]. exfalso. apply (XN _ HIn). exact (in_map fname _ _ HI). }
    { intros q HQ. apply in_or_app. left. exact HQ. }
    cbn [app] in E1. pose proof (en_names _ _ _ _ _ _ _ _ _ _ _ _ _ _ _ EN) as NM.
    destruct (en_plain _ _ _ _ _ _ _ _ _ _ _ _ _ _ _ EN) as ((xp & EP1 & EP2) & (xl & EL1 & EL2) & EL3).
    pose proof (en_kids _ _ _ _ _ _ _ _ _ _ _ _ _ _ _ EN) as EK.
    pose proof (en_possible _ _ _ _ _ _ _ _ _ _ _ _ _ _ _ EN) as PS.
    pose proof (en_order _ _ _ _ _ _ _ _ _ _ _ _ _ _ _ EN) as PO'.
    pose proof (en_missing_is _ _ _ _ _ _ _ _ _ _ _ _ _ _ _ EN) as MS.
    rewrite (missing_is object T all AD) in MS; [|exact O2| |].
    2:{ intros E. rewrite E in O6. rewrite String.eqb_refl in O6. apply in_existsb in O6. exact O6. }
    2:{ intros E. rewrite E in O7. rewrite String.eqb_refl in O7. apply in_existsb in O7. exact O7. }
    subst ms.
    assert (RA : forall a b, remnants (a ++ b) = remnants a ++ remnants b) by (intros; apply map_app).
    assert (RN : forall a, map fst (remnants a) = map fst a) by (intros; unfold remnants; rewrite map_map; reflexivity).
    assert (NT : ~ In "<text>" (map fname (concat (map fst parts)))).
    { apply extra_sound in O4 as (_ & O4 & _). exact O4. }
    set (q := filter (fun x => negb (is_part x)) p ++ remnants left).
    assert (QN : ~ In "<text>" (map fst q)).
    { subst q. rewrite map_app, RN. intros HI. apply NT. apply (proj1 NM). apply in_app_or in HI as [HI|HI]; apply in_or_app; [left|right; exact HI].
      exact (proj1 (under_filter _ p) _ HI). }
    assert (SEP : separate_plainvalues (p ++ remnants (left ++ X)) [] [] = (filter is_part p, q ++ remnants X)).
    { rewrite separated.
      - cbn [app]. rewrite RA, !filter_app. destruct (filter_parts _ EL3) as [-> ->]. destruct (filter_parts _ (extra_plain _ _ X HA)) as [-> ->].
        subst q. cbn [app]. rewrite !app_nil_r, <- app_assoc. reflexivity.
      - cbn [app]. rewrite map_app, RN, map_app, app_assoc. apply nodup_app. repeat split; [apply (proj2 NM O2)|exact (extra_distinct _ _ X HA)|].
        intros key HI HX. exact (XN key HX (proj1 NM key HI)). }
    destruct (pop_text X q QN (extra_distinct _ _ X HA)) as (X' & XT & XI & XE & XP).
    { eapply Forall_impl; [|exact (extra_values _ _ X HA)]. intros [k v] [(i & E & NE)|(t & E)] Ek; cbn [fst snd] in *; [contradiction|eauto]. }
    set (attrs := pa ++ la ++ concat (map extra_attr X)).
    assert (AN : NoDup (map fst attrs)).
    { subst attrs. rewrite app_assoc, map_app. apply nodup_app. pose proof (extra_names _ _ X HA) as [U1 U2]. destruct HA as [HA1 HA2]. repeat split.
      - apply (proj2 PS). exact O3.
      - apply U2. rewrite <- views_names. exact HA1.
      - intros key HI HX. apply (proj1 PS) in HI. apply U1 in HX. apply in_map_iff in HX as (kv & <- & HX).
        unfold views in HA2. rewrite Forall_map, Forall_forall in HA2. specialize (HA2 kv HX) as (_ & _ & HA2 & _). exact (HA2 HI). }
    assert (AX : addable T (map fst parts) (views X')).
    { (* the rest of what was added *)
      split.
      - rewrite views_names. assert (U : under (map fst (concat (map extra_attr X'))) (map (fun kv => attribute_name (fst kv)) X)).
        { rewrite XE. apply (extra_names T (map fst parts)). exact HA. }
        assert (E : map fst (concat (map extra_attr X')) = map (fun kv => attribute_name (fst kv)) X').
        { pose proof (extra_values _ _ X HA) as V. rewrite Forall_forall in V. clear - XT XI V. induction X' as [|[k v] X' IHX]; [reflexivity|]. cbn [map concat]. rewrite map_app.
          rewrite IHX; [|intros H; apply XT; right; exact H|intros kv HI; apply XI; right; exact HI].
          unfold extra_attr. cbn [fst snd]. destruct (String.eqb_spec k "<text>") as [->|NE]; [exfalso; apply XT; left; reflexivity|].
          destruct (V (k, v) (XI _ (or_introl eq_refl))) as [(i & E & _)|(t & E)]; cbn [snd] in E; rewrite E; reflexivity. }
        rewrite <- E. apply (proj2 U). rewrite <- views_names. exact (proj1 HA).
      - destruct HA as [_ HA]. unfold views in *. rewrite Forall_map, Forall_forall in *. intros kv HI. apply HA, XI, HI. }
    destruct (extra_expanded repr object T (map fst parts) X' AX XT) as (xx & EX1 & EX2).
    assert (PL : xmlattributes_for_plainvalues py_repr object (q ++ remnants X') = Ok attrs).
    { unfold xmlattributes_for_plainvalues. subst q. unfold py_repr. rewrite !expanded_app. rewrite EP1, EL1. cbn [bind]. rewrite EX1. cbn [bind].
      change (map (fun kv => (dashed (zs (fst kv)), snd kv)) ((xp ++ xl) ++ xx)) with (xattrs ((xp ++ xl) ++ xx)). rewrite !xattrs_app, EP2, EL2, EX2, XE.
      rewrite <- app_assoc. fold attrs. apply unique_names; [exact AN|]. intros key _ []. }
    assert (CD : character_data (views all) = match dict_get "<text>" X with Some (VText t) => t | _ => [] end).
    { unfold character_data. rewrite look_views. subst all. rewrite dict_get_app. rewrite (dict_get_notin "<text>" (concat ls)).
      2:{ intros HI. apply NT. exact (proj1 PN _ HI). }
      destruct (dict_get "<text>" X) as [v|]; [|reflexivity]. destruct XP as [_ (t & ->)]. reflexivity. }
    exists (Elem (zs T) attrs (character_data (views all)) kids). split.
    - change (S n + m)%nat with (S (n + m)). rewrite (start_step (n + m) T _ _ (p ++ remnants (left ++ X))).
      2:{ unfold typed_struct_attributes. fold all in E1; rewrite E1. reflexivity. }
      rewrite SEP. cbv zeta. rewrite O5. rewrite EK. cbn [opening]. rewrite CD.
      destruct (dict_get "<text>" X) as [v|].
      + destruct XP as [-> (t & ->)]. cbn [bind]. rewrite PL. cbn [bind]. unfold gapp. cbn [fst snd]. destruct t; reflexivity.
      + destruct XP as [-> ->]. cbn [bind]. rewrite PL. cbn [bind]. reflexivity.
    - apply (el repr object T (views all) (listed ++ map extra_attr X)).
      + unfold all, views. rewrite map_app. apply Forall2_app; [exact (en_listed _ _ _ _ _ _ _ _ _ _ _ _ _ _ _ EN)|exact (extra_listed repr _ _ X HA)].
      + subst attrs. rewrite concat_app. rewrite app_assoc, PO'. rewrite <- !app_assoc. apply Permutation_app_head. apply Permutation_app_comm.
      + exact AN.
      + unfold all at 2. unfold views at 2. rewrite map_app. rewrite <- (app_nil_r kids). apply (en_children _ _ _ _ _ _ _ _ _ _ _ _ _ _ _ EN). apply (extra_children repr object T (map fst parts)). exact HA.
  Qed.
End Main.
