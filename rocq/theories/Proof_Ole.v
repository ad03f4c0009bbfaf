(** Proofs about OLE storages. *)
From Coq Require Import ZArith String List Bool Lia.
From Verif Require Import Base BaseFacts Model_Storage Spec_Storage Proof_Storage.
Import ListNotations.
Open Scope Z_scope.

Lemma mem_name_in : forall n l, mem_name n l = true <-> In n l.
Proof.
  intros n l. unfold mem_name. rewrite existsb_exists. split; [intros (m & H & E); apply name_eqb_eq in E; now subst|]. intros H. exists n. split; [exact H|apply name_eqb_refl].
Qed.

(** ** The root *)
Lemma top_names_keep : forall streams yielded, Forall (fun p => p <> []) streams ->
  exists l, top_names yielded streams = (l, Finished) /\
    keep_first (filter (fun n => negb (mem_name n yielded)) (map (fun p => hd [] p) streams)) l.
Proof.
  induction streams as [|[|t p] r IH]; intros yielded H; [exists []; split; [reflexivity|constructor]|inversion H; congruence|]. inversion H; subst. cbn [top_names map hd filter].
  destruct (mem_name t yielded) eqn:E; cbn [negb]; [now apply IH|]. destruct (IH (yielded ++ [t]) H3) as (l & EL & HK). exists (t :: l). rewrite EL. split; [reflexivity|]. constructor.
  assert (HF : forall a : list name, filter (fun y => negb (name_eqb t y)) (filter (fun n => negb (mem_name n yielded)) a) = filter (fun n => negb (mem_name n (yielded ++ [t]))) a).
  { clear. induction a as [|n a IHa]; [reflexivity|]. cbn [filter]. assert (mem_name n (yielded ++ [t]) = mem_name n yielded || (name_eqb n t || false)) as -> by (unfold mem_name; now rewrite existsb_app).
    destruct (mem_name n yielded); cbn [negb filter orb]; [assumption|]. rewrite orb_false_r.
    assert (name_eqb n t = name_eqb t n) as -> by (unfold name_eqb; destruct (list_eq_dec Z.eq_dec n t), (list_eq_dec Z.eq_dec t n); congruence).
    destruct (name_eqb t n); cbn [negb]; now rewrite IHa. }
  now rewrite HF.
Qed.
Lemma filter_true : forall A (l : list A), filter (fun _ => true) l = l.
Proof. induction l as [|a l IH]; cbn; [reflexivity|now rewrite IH]. Qed.
Theorem root_lists_tops : forall o fuel, Forall (fun p => p <> []) (ole_listdir o) ->
  exists l, iter (ole_storage fuel o []) = (l, Finished) /\ keep_first (map (fun p => hd [] p) (ole_listdir o)) l.
Proof.
  intros o fuel H. destruct (top_names_keep (ole_listdir o) [] H) as (l & E & HK). exists l. split; [destruct fuel; exact E|].
  change (fun n => negb (mem_name n [])) with (fun _ : name => true) in HK. now rewrite filter_true in HK.
Qed.

Lemma keep_first_in : forall xs ys, keep_first xs ys -> NoDup ys /\ forall y, In y ys <-> In y xs.
Proof.
  intros xs ys H. induction H as [|x xs ys H [IH1 IH2]]; [split; [constructor|reflexivity]|]. split.
  - constructor; [|assumption]. intros HI. apply IH2, filter_In in HI. destruct HI as [_ HI]. now rewrite name_eqb_refl in HI.
  - intros y. cbn [In]. rewrite IH2, filter_In. split; [tauto|]. intros [->|HI]; [now left|]. destruct (name_eqb x y) eqn:E; [left; now apply name_eqb_eq|right; now split].
Qed.

(** ** A storage *)
Lemma sub_names_below : forall p l, directly_below p l (sub_names p l).
Proof.
  intros p. induction l as [|s r IH]; [constructor|]. cbn [sub_names]. destruct ((zlen s =? zlen p + 1) && path_eqb (removelast s) p) eqn:E.
  - apply andb_true_iff in E. destruct E as [E1 E2]. apply path_eqb_eq in E2. assert (HS : s <> []) by (intros ->; apply Z.eqb_eq in E1; unfold zlen in E1; cbn in E1; lia).
    assert (HA : s = p ++ [last s []]) by (rewrite <- E2; exact (app_removelast_last ([] : name) HS)). rewrite HA at 1. now constructor.
  - apply db_miss; [|exact IH]. intros n ->. rewrite removelast_last in E. assert (zlen (p ++ [n]) =? zlen p + 1 = true) as E1 by (apply Z.eqb_eq; rewrite zlen_app; reflexivity).
    rewrite E1 in E. cbn [andb] in E. destruct (path_eqb p p) eqn:E2; [discriminate|]. pose proof (proj2 (path_eqb_eq p p) eq_refl). congruence.
Qed.
Lemma not_root : forall n, n <> [] -> n <> [SLASH] -> is_root n = false.
Proof. intros n H1 H2. unfold is_root. now rewrite (proj2 (name_eqb_neq _ _) H1), (proj2 (name_eqb_neq _ _) H2). Qed.
Lemma joined_not_root : forall p, p <> [] -> Forall (fun n => n <> [] /\ no_slash n) p -> is_root (joined p) = false.
Proof.
  intros p HP HF. assert (HN : Forall no_slash p) by (eapply Forall_impl; [|exact HF]; now intros n []).
  apply not_root; intros E.
  - assert (HX : split_slash (joined p) = p) by now apply split_joined. rewrite E in HX. cbn in HX. subst p. inversion HF; subst. now destruct H1.
  - assert (HX : split_slash (joined p) = p) by now apply split_joined. rewrite E in HX. cbn in HX. subst p. inversion HF; subst. now destruct H1.
Qed.
Lemma joined_app : forall p n, p <> [] -> joined (p ++ [n]) = joined p ++ SLASH :: n.
Proof.
  induction p as [|m p IH]; intros n H; [congruence|]. destruct p as [|k p]; [reflexivity|]. cbn [app]. rewrite joined_cons by (destruct p; discriminate).
  change (k :: p ++ [n]) with ((k :: p) ++ [n]). rewrite IH by discriminate. rewrite (joined_cons m (k :: p)) by discriminate. rewrite <- app_assoc. reflexivity.
Qed.
Theorem storage_lists_streams : forall o p fuel, p <> [] -> Forall (fun n => n <> [] /\ no_slash n) p ->
  ole_exists o (joined p) = true -> ole_type o (joined p) = 1 ->
  exists l, iter (ole_storage fuel o (joined p)) = (l, Finished) /\ directly_below p (ole_listdir o) l.
Proof.
  intros o p fuel HP HF HE HT. assert (HN : Forall no_slash p) by (eapply Forall_impl; [|exact HF]; now intros n []).
  exists (sub_names p (ole_listdir o)). split; [|apply sub_names_below].
  assert (E : olefile_listdir o (joined p) = (sub_names p (ole_listdir o), Finished)); [|destruct fuel; exact E].
  unfold olefile_listdir. rewrite joined_not_root, HE, HT by assumption. cbn [negb]. now rewrite split_joined.
Qed.
Lemma below_in : forall p l ns, directly_below p l ns -> forall n, In n ns <-> In (p ++ [n]) l.
Proof.
  intros p l ns H. induction H as [|n r ns H IH|s r ns HM H IH]; intros m; [reflexivity| |].
  - cbn [In]. rewrite IH. split; [intros [->|HI]; [now left|now right]|]. intros [HE|HI]; [left; apply app_inv_head in HE; now injection HE|now right].
  - cbn [In]. rewrite IH. split; [now right|]. intros [HE|HI]; [now apply HM in HE|assumption].
Qed.
Lemma below_nodup : forall p l ns, directly_below p l ns -> NoDup l -> NoDup ns.
Proof.
  intros p l ns H. induction H as [|n r ns H IH|s r ns HM H IH]; intros HD; inversion HD; subst; [constructor| |auto]. constructor; [|auto]. intros HI. apply (below_in _ _ _ H) in HI. contradiction.
Qed.

(** ** Looking up *)
Lemma ole_get : forall fuel o (p : list name) (n : name), (p = [] \/ (p <> [] /\ Forall (fun n => n <> [] /\ no_slash n) p)) ->
  get (ole_storage (S fuel) o (joined p)) n =
  (let q := joined (p ++ [n]) in
   if negb (ole_exists o q) then Raise KeyError
   else if ole_type o q =? 1 then Ok (ole_storage fuel o q)
   else if ole_type o q =? 2 then Ok (stream_item (ole_open o q) [])
   else Raise KeyError).
Proof.
  intros fuel o p n H. cbn [ole_storage get storage_item]. assert (E : (if is_root (joined p) then n else joined p ++ [SLASH] ++ n) = joined (p ++ [n])).
  { destruct H as [->|[H HF]]; [reflexivity|]. rewrite joined_not_root by assumption. rewrite joined_app by assumption. reflexivity. }
  now rewrite E.
Qed.
Lemma ole_get_stream : forall fuel o (p : list name) (n : name), (p = [] \/ (p <> [] /\ Forall (fun n => n <> [] /\ no_slash n) p)) ->
  ole_exists o (joined (p ++ [n])) = true -> ole_type o (joined (p ++ [n])) = 2 ->
  get (ole_storage fuel o (joined p)) n = Ok (stream_item (ole_open o (joined (p ++ [n]))) []).
Proof.
  intros fuel o p n H HE HT. assert (E : (if is_root (joined p) then n else joined p ++ [SLASH] ++ n) = joined (p ++ [n])).
  { destruct H as [->|[H HF]]; [reflexivity|]. rewrite joined_not_root by assumption. rewrite joined_app by assumption. reflexivity. }
  assert (HX : forall q, q = joined (p ++ [n]) -> (if negb (ole_exists o q) then Raise KeyError else if ole_type o q =? 1 then match fuel with O => Raise (OtherError 0) | S k => Ok (ole_storage k o q) end else if ole_type o q =? 2 then Ok (stream_item (ole_open o q) []) else Raise KeyError) = Ok (stream_item (ole_open o (joined (p ++ [n]))) [])) by (intros q ->; now rewrite HE, HT).
  specialize (HX _ E). destruct fuel; exact HX.
Qed.

(** Streams at any depth can be opened by path. *)
Theorem ole_opens : forall o p b fuel, ole_ok o -> In p (ole_listdir o) -> ole_open o (joined p) = Ok b -> (List.length p <= fuel)%nat ->
  exists y, open_storage_item (ole_storage fuel o []) (joined p) = Ok y /\ is_storage y = false /\ open y = Ok b.
Proof.
  intros o p b fuel HO HIn HB HL. destruct (ole_names o HO p HIn) as [HP HF]. assert (HN : Forall no_slash p) by (eapply Forall_impl; [|exact HF]; now intros n []).
  unfold open_storage_item. rewrite split_joined by assumption.
  assert (HG : forall q p' fuel, p = p' ++ q -> q <> [] -> (List.length q <= fuel)%nat -> exists y, get_path (ole_storage fuel o (joined p')) q = Ok y /\ is_storage y = false /\ open y = Ok b).
  { clear fuel HL. induction q as [|n q IH]; intros p' fuel HE HQ HL; [congruence|]. rewrite get_path_cons.
    assert (HP' : p' = [] \/ (p' <> [] /\ Forall (fun n => n <> [] /\ no_slash n) p')).
    { destruct p' as [|m p']; [now left|right]. split; [discriminate|]. rewrite HE in HF. now apply Forall_app in HF. }
    destruct q as [|m q].
    - subst p. destruct (ole_streams o HO _ HIn) as [E1 E2]. rewrite (ole_get_stream fuel o p' n HP' E1 E2). cbn. eauto.
    - destruct fuel as [|fuel]; [cbn in HL; lia|].
      destruct (ole_storages o HO (p' ++ [n]) (m :: q)) as [E1 E2]; [discriminate|now destruct p'|rewrite <- app_assoc; cbn; now rewrite <- HE|].
      rewrite ole_get by exact HP'. cbn zeta. rewrite E1, E2. cbn [negb Z.eqb Pos.eqb bind]. apply IH; [rewrite <- app_assoc; exact HE|discriminate|cbn in *; lia]. }
  apply (HG p [] fuel); auto.
Qed.

(** ** The leaves that are enumerated *)
Definition ole_leaf_tops (o : olefile) (c : name) : list name :=
  if existsb (path_eqb [c]) (ole_listdir o) then [c] else map (fun n => joined [c; n]) (sub_names [c] (ole_listdir o)).

Lemma in_path : forall p l, existsb (path_eqb p) l = true <-> In p l.
Proof. intros p l. rewrite existsb_exists. split; [intros (q & H & E); apply path_eqb_eq in E; now subst|]. intros H. exists p. split; [exact H|now apply path_eqb_eq]. Qed.

Lemma leafs_top : forall o fuel, ole_ok o -> forall tops, Forall (fun c => exists q, In (c :: q) (ole_listdir o)) tops ->
  leafs_loop (get (ole_storage (S fuel) o [])) Finished [] tops = (flat_map (ole_leaf_tops o) tops, Finished).
Proof.
  intros o fuel HO. induction tops as [|c tops IH]; intros H; [reflexivity|]. inversion H as [|? ? [q HQ] HT]; subst. cbn [leafs_loop flat_map].
  fold (leafs_loop (get (ole_storage (S fuel) o [])) Finished []). rewrite (IH HT).
  destruct (ole_names o HO _ HQ) as [_ HF]. inversion HF as [|? ? HC _]; subst.
  assert (HCF : Forall (fun n => n <> [] /\ no_slash n) [c]) by now repeat constructor.
  destruct (existsb (path_eqb [c]) (ole_listdir o)) eqn:E.
  - assert (HLT : ole_leaf_tops o c = [c]) by (unfold ole_leaf_tops; now rewrite E). rewrite HLT. apply in_path in E. destruct (ole_streams o HO _ E) as [E1 E2].
    pose proof (ole_get_stream (S fuel) o [] c (or_introl eq_refl) E1 E2) as HG. change (joined []) with (@nil Z) in HG. rewrite HG. reflexivity.
  - destruct q as [|m q]; [apply in_path in HQ; congruence|]. destruct (ole_storages o HO [c] (m :: q)) as [E1 E2]; [discriminate|discriminate|exact HQ|].
    assert (HLT : ole_leaf_tops o c = map (fun n => joined [c; n]) (sub_names [c] (ole_listdir o))) by (unfold ole_leaf_tops; now rewrite E). rewrite HLT.
    pose proof (ole_get fuel o [] c (or_introl eq_refl)) as HG. cbn [app] in HG. cbn zeta in HG. rewrite E1, E2 in HG. cbn [negb Z.eqb Pos.eqb] in HG. change (joined []) with (@nil Z) in HG. rewrite HG.
    assert (HS : is_storage (ole_storage fuel o (joined [c])) = true) by (destruct fuel; reflexivity). rewrite HS.
    assert (HI : iter (ole_storage fuel o (joined [c])) = (sub_names [c] (ole_listdir o), Finished)).
    { assert (EL : olefile_listdir o (joined [c]) = (sub_names [c] (ole_listdir o), Finished)); [|destruct fuel; exact EL].
      unfold olefile_listdir. rewrite joined_not_root, E1, E2 by (assumption || discriminate). cbn [negb]. rewrite split_joined; [reflexivity|discriminate|]. repeat constructor. now destruct HC. }
    rewrite leafs_eq, HI. cbn [fst snd].
    assert (HSub : forall ns, Forall (fun n => In [c; n] (ole_listdir o)) ns ->
      leafs_loop (get (ole_storage fuel o (joined [c]))) Finished ([] ++ c ++ [SLASH]) ns = (map (fun n => joined [c; n]) ns, Finished)).
    { induction ns as [|n ns IHn]; intros HA; [reflexivity|]. inversion HA as [|? ? HIn HA']; subst. destruct (ole_streams o HO _ HIn) as [F1 F2]. cbn [leafs_loop map].
      rewrite (ole_get_stream fuel o [c] n); [|right; split; [discriminate|exact HCF]|exact F1|exact F2]. cbn [is_storage stream_item].
      fold (leafs_loop (get (ole_storage fuel o (joined [c]))) Finished ([] ++ c ++ [SLASH])). rewrite (IHn HA'). unfold gcons. cbn [fst snd]. f_equal. f_equal. cbn [app joined]. now rewrite <- app_assoc. }
    rewrite HSub; [reflexivity|]. apply Forall_forall. intros n HIn. now apply (below_in _ _ _ (sub_names_below [c] (ole_listdir o))) in HIn.
Qed.

Theorem ole_leaves : forall o fuel, ole_ok o -> exists l, iter_storage_leafs (ole_storage (S fuel) o []) [] = (l, Finished) /\
  NoDup l /\ forall t, In t l <-> exists p, In p (ole_listdir o) /\ (List.length p <= 2)%nat /\ t = joined p.
Proof.
  intros o fuel HO. assert (HNE : Forall (fun p => p <> []) (ole_listdir o)) by (apply Forall_forall; intros p HP; now destruct (ole_names o HO p HP)).
  destruct (root_lists_tops o (S fuel) HNE) as (tops & HI & HK). destruct (keep_first_in _ _ HK) as [HD HM].
  assert (HT : Forall (fun c => exists q, In (c :: q) (ole_listdir o)) tops).
  { apply Forall_forall. intros c HC. apply HM, in_map_iff in HC. destruct HC as ([|c' q] & HE & HIn); [rewrite Forall_forall in HNE; now apply HNE in HIn|]. cbn in HE. subst c'. eauto. }
  exists (flat_map (ole_leaf_tops o) tops). rewrite leafs_eq, HI. cbn [fst snd]. split; [now apply leafs_top|].
  assert (HNS : forall p, In p (ole_listdir o) -> Forall no_slash p) by (intros p HP; destruct (ole_names o HO p HP) as [_ HF]; eapply Forall_impl; [|exact HF]; now intros n []).
  (* every leaf is the path of a stream *)
  assert (HL : forall c t, In t (ole_leaf_tops o c) <-> exists p, In p (ole_listdir o) /\ (List.length p <= 2)%nat /\ t = joined p /\ hd [] p = c).
  { intros c t. unfold ole_leaf_tops. destruct (existsb (path_eqb [c]) (ole_listdir o)) eqn:E.
    - apply in_path in E. split.
      + intros [<-|[]]. exists [c]. repeat split; [exact E|cbn; lia].
      + intros ([|a [|b [|d p]]] & HP & HLen & -> & HH); cbn in HH; try (cbn in HLen; lia); [rewrite Forall_forall in HNE; now apply HNE in HP|subst a; now left|].
        subst a. exfalso. destruct (ole_streams o HO _ E) as [_ T2]. destruct (ole_storages o HO [c] [b]) as [_ T1]; [discriminate|discriminate|exact HP|]. congruence.
    - rewrite in_map_iff. split.
      + intros (n & <- & HN). apply (below_in _ _ _ (sub_names_below [c] (ole_listdir o))) in HN. exists [c; n]. repeat split; [exact HN|cbn; lia].
      + intros ([|a [|b [|d p]]] & HP & HLen & -> & HH); cbn in HH; try (cbn in HLen; lia); [rewrite Forall_forall in HNE; now apply HNE in HP|subst a; apply in_path in HP; congruence|].
        subst a. exists b. split; [reflexivity|]. now apply (below_in _ _ _ (sub_names_below [c] (ole_listdir o))). }
  split.
  - assert (HN1 : forall c, In c tops -> NoDup (ole_leaf_tops o c)).
    { intros c HC. unfold ole_leaf_tops. destruct (existsb (path_eqb [c]) (ole_listdir o)); [repeat constructor; now intros []|].
      pose proof (below_nodup _ _ _ (sub_names_below [c] (ole_listdir o)) (ole_nodup o HO)) as HB. apply nodup_map_inj; [|exact HB].
      intros a b HA HB' HJ. cbn in HJ. apply app_inv_head in HJ. now injection HJ. }
    clear HI HK HM HT. induction tops as [|c tops IH]; [constructor|]. inversion HD; subst. cbn [flat_map]. apply nodup_app; [apply HN1; now left|apply IH; [assumption|intros d Hd; apply HN1; now right]|].
    intros t HA HB. apply HL in HA. destruct HA as (p & HP & _ & -> & HC). apply in_flat_map in HB. destruct HB as (d & HDin & HB). apply HL in HB. destruct HB as (q & HQ & _ & HJ & HC').
    apply joined_inj in HJ; [subst q; apply H1; rewrite <- HC, HC'; exact HDin| | | |]; auto; rewrite Forall_forall in HNE; auto.
  - intros t. rewrite in_flat_map. split.
    + intros (c & HC & HIn). apply HL in HIn. destruct HIn as (p & H1 & H2 & H3 & _). eauto.
    + intros (p & H1 & H2 & H3). exists (hd [] p). split; [apply HM, in_map_iff; eauto|]. apply HL. eauto.
Qed.

(** ** Files with given streams *)
Lemma prefixes_in : forall A (q p : list A), p <> [] -> In p (prefixes (p ++ q)).
Proof.
  intros A q. induction p as [|n p IH]; intros H; [congruence|]. cbn [app prefixes]. destruct p as [|m p]; [now left|right]. apply in_map. apply IH. discriminate.
Qed.
Theorem ole_of_ok : forall streams, streams_ok streams -> ole_ok (ole_of streams).
Proof.
  intros streams (HD & HN & HB). 
  assert (HNS : forall p q, In (p ++ q) (map fst streams) -> Forall no_slash p).
  { intros p q HP. destruct (HN _ HP) as [_ HF]. apply Forall_app in HF. destruct HF as [HF _]. eapply Forall_impl; [|exact HF]. now intros n []. }
  assert (HEx : forall p q, p <> [] -> In (p ++ q) (map fst streams) -> ole_exists (ole_of streams) (joined p) = true).
  { intros p q HP HI. cbn [ole_of ole_exists]. apply in_map_iff in HI. destruct HI as (s & HE & HI). apply existsb_exists. exists s. split; [exact HI|]. apply existsb_exists. exists p. split; [rewrite HE; now apply prefixes_in|apply name_eqb_refl]. }
  constructor; cbn [ole_listdir ole_of].
  - intros p HP. split; [apply (HEx p []); [now destruct (HN p HP)|now rewrite app_nil_r]|]. cbn [ole_type ole_of]. apply in_map_iff in HP. destruct HP as (s & <- & HP).
    assert (existsb (fun s0 => name_eqb (joined (fst s0)) (joined (fst s))) streams = true) as ->; [|reflexivity]. apply existsb_exists. exists s. split; [exact HP|apply name_eqb_refl].
  - intros p q HQ HP HI. split; [now apply (HEx p q)|]. cbn [ole_type ole_of].
    destruct (existsb (fun s0 => name_eqb (joined (fst s0)) (joined p)) streams) eqn:E; [|reflexivity]. exfalso. apply existsb_exists in E. destruct E as (s & HS & E). apply name_eqb_eq in E.
    assert (HS' : In (fst s) (map fst streams)) by now apply in_map. apply joined_inj in E; [|now destruct (HN _ HS')|exact HP|apply (HNS _ []); now rewrite app_nil_r|now apply (HNS p q)].
    rewrite E in HS'. now apply HQ, (HB p q).
  - exact HN.
  - exact HD.
Qed.

Theorem not_a_storage : forall o path fuel, path <> [] -> path <> [47] -> ole_exists o path = false \/ ole_type o path <> 1 ->
  iter (ole_storage fuel o path) = ([], Failed IOError).
Proof.
  intros o path fuel H1 H2 H. assert (E : olefile_listdir o path = ([], Failed IOError)); [|destruct fuel; exact E]. unfold olefile_listdir. rewrite (not_root path H1 H2).
  destruct (ole_exists o path) eqn:EE; [|reflexivity]. cbn [negb]. destruct H as [H|H]; [discriminate|]. apply Z.eqb_neq in H. now rewrite H.
Qed.
Theorem ole_get_cases : forall o fuel (p : list name) (n : name), Forall (fun n => n <> [] /\ no_slash n) p ->
  (ole_exists o (joined (p ++ [n])) = false -> get (ole_storage fuel o (joined p)) n = Raise KeyError) /\
  (ole_exists o (joined (p ++ [n])) = true -> ole_type o (joined (p ++ [n])) = 2 -> get (ole_storage fuel o (joined p)) n = Ok (stream_item (ole_open o (joined (p ++ [n]))) [])) /\
  (ole_exists o (joined (p ++ [n])) = true -> ole_type o (joined (p ++ [n])) = 1 -> get (ole_storage (S fuel) o (joined p)) n = Ok (ole_storage fuel o (joined (p ++ [n])))) /\
  (ole_type o (joined (p ++ [n])) <> 1 -> ole_type o (joined (p ++ [n])) <> 2 -> get (ole_storage fuel o (joined p)) n = Raise KeyError).
Proof.
  intros o fuel p n HF. assert (HP : p = [] \/ (p <> [] /\ Forall (fun n => n <> [] /\ no_slash n) p)) by (destruct p; [now left|right; split; [discriminate|exact HF]]).
  assert (E : (if is_root (joined p) then n else joined p ++ [SLASH] ++ n) = joined (p ++ [n])).
  { destruct HP as [->|[H HF']]; [reflexivity|]. rewrite joined_not_root by assumption. rewrite joined_app by assumption. reflexivity. }
  assert (HX : forall q, q = joined (p ++ [n]) -> ole_exists o (joined (p ++ [n])) = false \/ (ole_type o (joined (p ++ [n])) <> 1 /\ ole_type o (joined (p ++ [n])) <> 2) ->
    (if negb (ole_exists o q) then Raise KeyError else if ole_type o q =? 1 then match fuel with O => Raise (OtherError 0) | S k => Ok (ole_storage k o q) end else if ole_type o q =? 2 then Ok (stream_item (ole_open o q) []) else Raise KeyError) = Raise KeyError).
  { intros q -> [->|[H1 H2]]; [reflexivity|]. apply Z.eqb_neq in H1, H2. rewrite H1, H2. now destruct (ole_exists o (joined (p ++ [n]))). }
  specialize (HX _ E). split; [|split; [|split]].
  - intros H. specialize (HX (or_introl H)). destruct fuel; exact HX.
  - now apply ole_get_stream.
  - intros H1 H2. rewrite ole_get by exact HP. cbn zeta. now rewrite H1, H2.
  - intros H1 H2. specialize (HX (or_intror (conj H1 H2))). destruct fuel; exact HX.
Qed.
