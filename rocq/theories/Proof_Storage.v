(** Proofs about storages. *)
From Coq Require Import ZArith String List Bool Lia Permutation.
From Verif Require Import Base BaseFacts Model_Storage Spec_Storage.
Import ListNotations.
Open Scope Z_scope.

Lemma name_eqb_eq : forall a b, name_eqb a b = true <-> a = b.
Proof. intros a b. unfold name_eqb. destruct (list_eq_dec Z.eq_dec a b); split; congruence. Qed.
Lemma name_eqb_refl : forall a, name_eqb a a = true.
Proof. intros a. now apply name_eqb_eq. Qed.
Lemma name_eqb_neq : forall a b, name_eqb a b = false <-> a <> b.
Proof. intros a b. unfold name_eqb. destruct (list_eq_dec Z.eq_dec a b); split; congruence. Qed.
Lemma path_eqb_eq : forall a b, path_eqb a b = true <-> a = b.
Proof. intros a b. unfold path_eqb. destruct (list_eq_dec (list_eq_dec Z.eq_dec) a b); split; congruence. Qed.

(** ** Paths *)
Lemma split_cons : forall n r, no_slash n -> split_slash (n ++ SLASH :: r) = n :: split_slash r.
Proof.
  induction n as [|c n IH]; intros r H; cbn [app split_slash].
  - rewrite Z.eqb_refl. reflexivity.
  - assert (Hc : c =? SLASH = false) by (apply Z.eqb_neq; intros ->; apply H; now left). rewrite Hc, IH; [reflexivity|]. intros HI. apply H. now right.
Qed.
Lemma split_single : forall n, no_slash n -> split_slash n = [n].
Proof.
  induction n as [|c n IH]; intros H; [reflexivity|]. cbn [split_slash].
  assert (Hc : c =? SLASH = false) by (apply Z.eqb_neq; intros ->; apply H; now left). rewrite Hc, IH; [reflexivity|]. intros HI. apply H. now right.
Qed.
Lemma joined_cons : forall n p, p <> [] -> joined (n :: p) = n ++ SLASH :: joined p.
Proof. intros n [|m p] H; [congruence|reflexivity]. Qed.
Lemma split_joined : forall p, p <> [] -> Forall no_slash p -> split_slash (joined p) = p.
Proof.
  induction p as [|n p IH]; intros H HF; [congruence|]. inversion HF; subst. destruct p as [|m p].
  - now apply split_single.
  - rewrite joined_cons by discriminate. rewrite split_cons by assumption. rewrite IH; [reflexivity|discriminate|assumption].
Qed.
Lemma joined_inj : forall p q, p <> [] -> q <> [] -> Forall no_slash p -> Forall no_slash q -> joined p = joined q -> p = q.
Proof. intros p q H1 H2 H3 H4 H. rewrite <- (split_joined p), <- (split_joined q) by assumption. now rewrite H. Qed.

Lemma files_paths : forall P d, all_names P d -> Forall (fun e => fst e <> [] /\ Forall P (fst e)) (files d).
Proof.
  induction d as [|n b r IH|n s IHs r IHr]; cbn [all_names files]; intros H; [constructor| |].
  - destruct H as [H1 H2]. constructor; [|auto]. split; [discriminate|]. now repeat constructor.
  - destruct H as (H1 & H2 & H3). apply Forall_app. split; [|auto]. apply Forall_map. eapply Forall_impl; [|exact (IHs H2)]. cbn. intros [p b] (_ & HP). split; [discriminate|]. now constructor.
Qed.
Lemma files_nonempty : forall d, Forall (fun e => fst e <> []) (files d).
Proof.
  intros d. assert (H : all_names (fun _ => True) d) by (induction d; cbn; auto). eapply Forall_impl; [|exact (files_paths _ _ H)]. now intros e [].
Qed.

(** ** Leaves *)
Definition leafs_loop (g : name -> res item) (o : outcome) (basepath : name) : list name -> gen name :=
  fix loop (names : list name) : gen name :=
    match names with
    | [] => ([], o)
    | n :: r =>
        match g n with
        | Raise e => ([], Failed e)
        | Ok y => if is_storage y then gthen (iter_storage_leafs y (basepath ++ n ++ [SLASH])) (loop r)
                  else gcons (basepath ++ n) (loop r)
        end
    end.
Lemma leafs_eq : forall x base, iter_storage_leafs x base = leafs_loop (get x) (snd (iter x)) base (fst (iter x)).
Proof. intros [s i g st o f] base. reflexivity. Qed.

Lemma leafs_of : forall d x base, entries x d ->
  leafs_loop (get x) Finished base (dnames d) = (map (fun e => base ++ joined (fst e)) (files d), Finished).
Proof.
  induction d as [|n b r IH|n s IHs r IHr]; intros x base HE; cbn [dnames files leafs_loop]; [reflexivity| |].
  - destruct HE as [(y & HG & HS & HO) HE]. cbn [leafs_loop]. rewrite HG, HS. fold (leafs_loop (get x) Finished base). rewrite (IH x base HE). reflexivity.
  - destruct HE as [(y & HG & HS & HI & HM & HEs) HE]. cbn [leafs_loop]. rewrite HG, HS. fold (leafs_loop (get x) Finished base). rewrite (IHr x base HE), leafs_eq, HI. cbn [fst snd].
    rewrite (IHs y _ HEs). unfold gthen, gapp. cbn [fst snd]. rewrite map_app, map_map. f_equal. f_equal.
    apply map_ext_in. intros [p b] HIn. cbn [fst]. pose proof (files_nonempty s) as HF. rewrite Forall_forall in HF. specialize (HF _ HIn). cbn in HF.
    rewrite joined_cons by exact HF. rewrite <- !app_assoc. reflexivity.
Qed.

Theorem leaves_listed : forall x d, represents x d -> iter_storage_leafs x [] = (map (fun e => joined (fst e)) (files d), Finished).
Proof. intros x d (_ & HI & _ & HE). rewrite leafs_eq, HI. cbn [fst snd]. apply (leafs_of d x [] HE). Qed.

Lemma get_path_cons : forall x n p, get_path x (n :: p) = bind (get x n) (fun y => get_path y p).
Proof. reflexivity. Qed.
Lemma path_found : forall d x p b, entries x d -> In (p, b) (files d) -> exists y, get_path x p = Ok y /\ is_storage y = false /\ open y = Ok b.
Proof.
  induction d as [|n c r IH|n s IHs r IHr]; intros x p b HE HIn; cbn [files] in HIn; [contradiction| |].
  - destruct HE as [(y & HG & HS & HO) HE]. destruct HIn as [HIn|HIn]; [|now apply IH]. injection HIn as <- <-. exists y. rewrite get_path_cons, HG. now repeat split.
  - destruct HE as [(y & HG & HS & HI & HM & HEs) HE]. apply in_app_iff in HIn. destruct HIn as [HIn|HIn]; [|now apply IHr].
    apply in_map_iff in HIn. destruct HIn as ([q c] & HQ & HIn). injection HQ as <- <-. destruct (IHs y q c HEs HIn) as (z & HZ). exists z. cbn [fst snd]. rewrite get_path_cons, HG. exact HZ.
Qed.

Theorem leaves_openable : forall x d p b, represents x d -> all_names no_slash d -> In (p, b) (files d) ->
  exists y, open_storage_item x (joined p) = Ok y /\ open y = Ok b.
Proof.
  intros x d p b (_ & _ & _ & HE) HN HIn. unfold open_storage_item. pose proof (files_paths _ _ HN) as HF. rewrite Forall_forall in HF. destruct (HF _ HIn) as [H1 H2].
  cbn [fst] in *. rewrite split_joined by assumption. destruct (path_found d x p b HE HIn) as (y & HG & _ & HO). eauto.
Qed.

Lemma nodup_map_inj : forall A B (f : A -> B) l, (forall a b, In a l -> In b l -> f a = f b -> a = b) -> NoDup l -> NoDup (map f l).
Proof.
  induction l as [|a l IH]; intros HI HN; [constructor|]. inversion HN; subst. cbn [map]. constructor.
  - intros HIn. apply in_map_iff in HIn. destruct HIn as (b & HB & HIn). apply HI in HB; [subst b; contradiction|now right|now left].
  - apply IH; [|assumption]. intros x y Hx Hy. apply HI; now right.
Qed.
Lemma nodup_app : forall A (l m : list A), NoDup l -> NoDup m -> (forall a, In a l -> In a m -> False) -> NoDup (l ++ m).
Proof.
  induction l as [|a l IH]; intros m H1 H2 HD; [exact H2|]. inversion H1; subst. cbn [app]. constructor.
  - intros HIn. apply in_app_iff in HIn. destruct HIn; [contradiction|]. apply (HD a); [now left|assumption].
  - apply IH; [assumption|assumption|]. intros b Hb. apply HD. now right.
Qed.
Lemma files_heads : forall d p b, In (p, b) (files d) -> exists n q, p = n :: q /\ In n (dnames d).
Proof.
  induction d as [|n c r IH|n s IHs r IHr]; intros p b HIn; cbn [files dnames] in *; [contradiction| |].
  - destruct HIn as [HIn|HIn]; [injection HIn as <- <-; exists n, []; split; [reflexivity|now left]|]. destruct (IH _ _ HIn) as (m & q & -> & H). exists m, q. split; [reflexivity|now right].
  - apply in_app_iff in HIn. destruct HIn as [HIn|HIn].
    + apply in_map_iff in HIn. destruct HIn as ([q c] & HQ & HIn). injection HQ as <- <-. exists n, q. split; [reflexivity|now left].
    + destruct (IHr _ _ HIn) as (m & q & -> & H). exists m, q. split; [reflexivity|now right].
Qed.
Lemma files_distinct : forall d, distinct d -> NoDup (map fst (files d)).
Proof.
  induction d as [|n c r IH|n s IHs r IHr]; cbn [distinct files map]; intros H; [constructor| |].
  - destruct H as [H1 H2]. cbn [fst]. constructor; [|auto]. intros HIn. apply in_map_iff in HIn. destruct HIn as ([p b] & HP & HIn). cbn in HP. subst p.
    destruct (files_heads _ _ _ HIn) as (m & q & HE & HM). injection HE as <- <-. contradiction.
  - destruct H as (H1 & H2 & H3). rewrite map_app, map_map. apply nodup_app; [|auto|].
    + specialize (IHs H2). cbn [fst]. rewrite <- (map_map fst (fun p => n :: p)). apply nodup_map_inj; [|exact IHs]. congruence.
    + intros p HP HQ. apply in_map_iff in HP. destruct HP as (e & <- & _). apply in_map_iff in HQ. destruct HQ as ([q b] & HE & HIn). cbn [fst] in HE. subst q.
      destruct (files_heads _ _ _ HIn) as (m & q & HE & HM). injection HE as <- <-. contradiction.
Qed.
Theorem leaves_distinct : forall d, distinct d -> all_names no_slash d -> NoDup (map (fun e => joined (fst e)) (files d)).
Proof.
  intros d HD HN. rewrite <- (map_map fst joined). apply nodup_map_inj; [|now apply files_distinct]. pose proof (files_paths _ _ HN) as HF. rewrite Forall_forall in HF.
  intros p q HP HQ. apply in_map_iff in HP. destruct HP as (e & <- & HP). apply in_map_iff in HQ. destruct HQ as (e' & <- & HQ). apply HF in HP. apply HF in HQ. destruct HP, HQ. now apply joined_inj.
Qed.

(** Every directory with distinct names is the contents of some storage. *)
Definition look : dir -> name -> res item :=
  fix look (d : dir) (n : name) : res item :=
        match d with
        | DNil => Raise KeyError
        | DFile m b r => if name_eqb m n then Ok (stream_item (Ok b) []) else look r n
        | DDir m s r => if name_eqb m n then Ok (dir_item s) else look r n
        end.
Lemma dir_item_eq : forall d, dir_item d = storage_item (dnames d, Finished) (look d).
Proof. intros []; reflexivity. Qed.
Lemma look_missing : forall d m, ~ In m (dnames d) -> look d m = Raise KeyError.
Proof.
  induction d as [|n b r IH|n s _ r IH]; intros m H; cbn [look dnames] in *; [reflexivity| |]; destruct (name_eqb n m) eqn:E;
    try (apply name_eqb_eq in E; subst; exfalso; apply H; now left); apply IH; intros HI; apply H; now right.
Qed.
Lemma look_entries : forall d, distinct d -> forall x e, (forall n, In n (dnames d) -> get x n = look e n) -> 
  (forall n, In n (dnames d) -> look e n = look d n) -> entries x d.
Proof.
  induction d as [|n b r IH|n s IHs r IHr]; intros HD x e HG HL; [exact I| |].
  - destruct HD as [H1 H2]. split.
    + exists (stream_item (Ok b) []). rewrite HG, HL by now left. cbn [look]. rewrite name_eqb_refl. now repeat split.
    + apply (IH H2 x e); intros m Hm; [apply HG; now right|]. rewrite HL by now right. cbn [look]. destruct (name_eqb n m) eqn:E; [apply name_eqb_eq in E; subst; contradiction|reflexivity].
  - destruct HD as (H1 & H2 & H3). split.
    + exists (dir_item s). rewrite HG, HL by now left. cbn [look]. rewrite name_eqb_refl, dir_item_eq. repeat split.
      * intros m Hm. cbn. now apply look_missing.
      * apply (IHs H2 _ s); reflexivity.
    + apply (IHr H3 x e); intros m Hm; [apply HG; now right|]. rewrite HL by now right. cbn [look]. destruct (name_eqb n m) eqn:E; [apply name_eqb_eq in E; subst; contradiction|reflexivity].
Qed.
Theorem dir_item_represents : forall d, distinct d -> represents (dir_item d) d.
Proof.
  intros d HD. rewrite dir_item_eq. repeat split; [intros m Hm; cbn; now apply look_missing|]. apply (look_entries d HD _ d); reflexivity.
Qed.

(** ** Virtual streams *)
Lemma extra_names_list : forall g names, Forall (fun n => exists y, g n = Ok y) names ->
  extra_names g names Finished =
  (flat_map (fun n => n :: map (app n) (match g n with Ok y => map fst (formats y) | Raise _ => [] end)) names, Finished).
Proof.
  intros g. induction names as [|n r IH]; intros H; [reflexivity|]. inversion H as [|? ? [y HY] HR]; subst. cbn [extra_names flat_map]. rewrite HY, (IH HR).
  unfold gcons, gapp. cbn [fst snd app]. now rewrite map_map.
Qed.
Lemma get_extra : forall x n, get (extra x) n = match get x n with
   | Ok y => Ok (if is_storage y then extra y else y)
   | Raise KeyError => extra_search (get x) n (fst (iter x)) (snd (iter x))
   | Raise e => Raise e end.
Proof. intros [s i g st o f] n. reflexivity. Qed.
Lemma iter_extra : forall x, iter (extra x) = extra_names (get x) (fst (iter x)) (snd (iter x)).
Proof. intros [s i g st o f]. reflexivity. Qed.

Theorem extra_listing : forall x, listable x ->
  iter (extra x) = (flat_map (fun n => n :: map (app n) (suffixes x n)) (fst (iter x)), Finished).
Proof. intros x [H1 H2 _]. rewrite iter_extra, H1. unfold suffixes. now apply extra_names_list. Qed.

Lemma find_format : forall root n (fs : list (name * res (list Z))),
  (exists fs1 ext c fs2, fs = fs1 ++ (ext, c) :: fs2 /\ root ++ ext = n /\ Forall (fun f => root ++ fst f <> n) fs1 /\
                 find (fun f => name_eqb (root ++ fst f) n) fs = Some (ext, c)) \/
  (Forall (fun f => root ++ fst f <> n) fs /\ find (fun f => name_eqb (root ++ fst f) n) fs = None).
Proof.
  intros root n. induction fs as [|[ext c] l IHl]; [right; split; [constructor|reflexivity]|]. cbn [find fst]. destruct (name_eqb (root ++ ext) n) eqn:E.
  - left. exists [], ext, c, l. apply name_eqb_eq in E. repeat split; auto.
  - apply name_eqb_neq in E. destruct IHl as [(fs1 & ext' & c' & fs2 & -> & H1 & H2 & H3)|[H1 H2]].
    + left. exists ((ext, c) :: fs1), ext', c', fs2. repeat split; auto.
    + right. split; [now constructor|assumption].
Qed.
Lemma not_suffix : forall r n (fs : list (name * res (list Z))), Forall (fun f => r ++ fst f <> n) fs -> ~ In n (map (app r) (map fst fs)).
Proof. intros r n fs H HIn. rewrite map_map in HIn. apply in_map_iff in HIn. destruct HIn as (f & HF & HIn). rewrite Forall_forall in H. now apply (H f HIn). Qed.

Lemma extra_search_found : forall x n names after0 o, Forall (fun n => exists y, get x n = Ok y) names ->
  (exists before root after y fs1 ext c fs2, names = before ++ root :: after /\ get x root = Ok y /\ formats y = fs1 ++ (ext, c) :: fs2 /\ root ++ ext = n /\
     (forall r, In r before -> ~ In n (map (app r) (suffixes x r))) /\ Forall (fun f => root ++ fst f <> n) fs1 /\
     extra_search (get x) n (names ++ after0) o = Ok (stream_item c []))
  \/ ((forall r, In r names -> ~ In n (map (app r) (suffixes x r))) /\ extra_search (get x) n (names ++ after0) o = extra_search (get x) n after0 o).
Proof.
  intros x n. induction names as [|root r IH]; intros after0 o H; [right; split; [contradiction|reflexivity]|]. inversion H as [|? ? [y HY] HR]; subst. cbn [extra_search app]. rewrite HY.
  destruct (find_format root n (formats y)) as [(fs1 & ext & c & fs2 & H1 & H2 & H3 & H4)|[H1 H2]].
  - left. exists [], root, r, y, fs1, ext, c, fs2. rewrite H4. repeat split; auto.
  - rewrite H2. assert (HRT : ~ In n (map (app root) (suffixes x root))) by (unfold suffixes; rewrite HY; now apply not_suffix).
    destruct (IH after0 o HR) as [(before & root' & after & z & fs1 & ext & c & fs2 & -> & G1 & G2 & G3 & G4 & G5 & G6)|[G1 G2]].
    + left. exists (root :: before), root', after, z, fs1, ext, c, fs2. repeat split; auto. intros s [<-|Hs]; [exact HRT|now apply G4].
    + right. split; [|assumption]. intros s [<-|Hs]; [exact HRT|now apply G1].
Qed.

Theorem extra_get : forall x n, listable x ->
  (forall y, get x n = Ok y -> get (extra x) n = Ok (if is_storage y then extra y else y)) /\
  (~ In n (fst (iter x)) -> forall c, virtual x n c -> get (extra x) n = Ok (stream_item c [])) /\
  (~ In n (fst (iter (extra x))) -> get (extra x) n = Raise KeyError) /\
  (In n (fst (iter (extra x))) -> exists y, get (extra x) n = Ok y).
Proof.
  intros x n HL. pose proof HL as [H1 H2 H3]. rewrite (extra_listing x HL). cbn [fst].
  assert (HNF : (forall r, In r (fst (iter x)) -> ~ In n (map (app r) (suffixes x r))) -> ~ In n (fst (iter x)) -> ~ In n (flat_map (fun n => n :: map (app n) (suffixes x n)) (fst (iter x)))).
  { intros HA HB HIn. apply in_flat_map in HIn. destruct HIn as (r & HR & [->|HIn]); [contradiction|]. now apply (HA r HR). }
  assert (HIF : ~ In n (flat_map (fun n => n :: map (app n) (suffixes x n)) (fst (iter x))) -> ~ In n (fst (iter x)) /\ (forall r, In r (fst (iter x)) -> ~ In n (map (app r) (suffixes x r)))).
  { intros HA. split; [|intros r HR]; intros HIn; apply HA, in_flat_map; [exists n; split; [assumption|now left]|exists r; split; [assumption|now right]]. }
  rewrite get_extra. repeat split.
  - intros y HY. now rewrite HY.
  - intros HM c (before & root & after & y & fs1 & ext & fs2 & HN & HY & HF & HE & HB & HF1). rewrite (H3 n HM), HN.
    rewrite HN in H2. apply Forall_app in H2. destruct H2 as [H2 H4].
    destruct (extra_search_found x n before (root :: after) (snd (iter x)) H2) as [(b' & root' & a' & z & fs1' & ext' & c' & fs2' & -> & G1 & G2 & G3 & _)|[_ G]].
    + exfalso. apply (HB root'); [apply in_or_app; right; now left|]. unfold suffixes. rewrite G1, G2, map_app, map_app. apply in_or_app. right. left. exact G3.
    + rewrite G. cbn [extra_search]. rewrite HY. destruct (find_format root n (formats y)) as [(g1 & e' & c' & g2 & K1 & K2 & K3 & K4)|[K1 K2]].
      * rewrite K4. assert (ext = e') by (apply (app_inv_head root); congruence). subst e'. rewrite K1 in HF.
        assert (HC : forall (l1 l2 m1 m2 : list (name * res (list Z))) a b, l1 ++ (ext, a) :: l2 = m1 ++ (ext, b) :: m2 ->
                  Forall (fun f => root ++ fst f <> n) l1 -> Forall (fun f => root ++ fst f <> n) m1 -> root ++ ext = n -> a = b).
        { clear. induction l1 as [|u l1 IH]; intros l2 [|v m1] m2 a b HE HA HB HN; cbn [app] in HE.
          - now injection HE as ->.
          - injection HE as <- _. inversion HB; subst. now cbn in *.
          - injection HE as -> _. inversion HA; subst. now cbn in *.
          - injection HE as -> HE. inversion HA; inversion HB; subst. eapply IH; eauto. }
        rewrite (HC _ _ _ _ _ _ HF K3 HF1 HE). reflexivity.
      * exfalso. rewrite HF in K1. apply Forall_app in K1. destruct K1 as [_ K1]. inversion K1; subst. now cbn in *.
  - intros HM. destruct (HIF HM) as [HA HB]. rewrite (H3 n HA), H1.
    destruct (extra_search_found x n (fst (iter x)) [] Finished H2) as [(b' & root' & a' & z & fs1' & ext' & c' & fs2' & E & G1 & G2 & G3 & _)|[_ G]].
    + exfalso. apply (HB root'); [rewrite E; apply in_or_app; right; now left|]. unfold suffixes. rewrite G1, G2, map_app, map_app. apply in_or_app. right. left. exact G3.
    + rewrite app_nil_r in G. rewrite G. reflexivity.
  - intros HIn. destruct (in_dec (list_eq_dec Z.eq_dec) n (fst (iter x))) as [HI|HI].
    + rewrite Forall_forall in H2. destruct (H2 n HI) as (y & ->). eauto.
    + rewrite (H3 n HI), H1. destruct (extra_search_found x n (fst (iter x)) [] Finished H2) as [(b' & root' & a' & z & fs1' & ext' & c' & fs2' & E & G1 & G2 & G3 & _ & _ & G)|[HB _]].
      * rewrite app_nil_r in G. rewrite G. eauto.
      * exfalso. now apply (HNF HB HI).
Qed.
