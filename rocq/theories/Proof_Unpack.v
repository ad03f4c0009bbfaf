(** Proofs about unpacking a storage into a directory. *)
From Coq Require Import ZArith String List Bool Lia.
From Verif Require Import Base BaseFacts Model_Storage Spec_Storage Proof_Storage.
Import ListNotations.
Open Scope Z_scope.

(** ** The file system *)
Lemma lookup_cons : forall f q x p, p <> [] -> fs_lookup ((q, x) :: f) p = if path_eqb q p then Some x else fs_lookup f p.
Proof. intros f q x [|n p] H; [congruence|]. cbn [fs_lookup find fst]. destruct (path_eqb q (n :: p)); reflexivity. Qed.
Lemma lookup_same : forall f q x, q <> [] -> fs_lookup ((q, x) :: f) q = Some x.
Proof. intros f q x H. rewrite lookup_cons by exact H. now rewrite (proj2 (path_eqb_eq q q) eq_refl). Qed.
Lemma lookup_other : forall f q x p, p <> q -> fs_lookup ((q, x) :: f) p = fs_lookup f p.
Proof.
  intros f q x p H. destruct p as [|n p]; [reflexivity|]. rewrite lookup_cons by discriminate. destruct (path_eqb q (n :: p)) eqn:E; [|reflexivity]. apply path_eqb_eq in E. congruence.
Qed.

Definition grows (f f' : fs) : Prop := forall p, is_dir f p = true -> is_dir f' p = true.
Lemma walk_grows : forall f f', grows f f' -> forall segs cur q, fs_walk f cur segs = Ok q -> fs_walk f' cur segs = Ok q.
Proof.
  intros f f' HG. induction segs as [|s r IH]; intros cur q H; [exact H|]. cbn [fs_walk] in *. destruct (is_dir f cur) eqn:E; [|discriminate]. rewrite (HG _ E).
  destruct (name_eqb s [] || name_eqb s (zs ".")); [now apply IH|]. destruct (name_eqb s (zs "..")); now apply IH.
Qed.
Lemma walk_app : forall f a cur b, fs_walk f cur (a ++ b) = bind (fs_walk f cur a) (fun c => fs_walk f c b).
Proof.
  induction a as [|s r IH]; intros cur b; [reflexivity|]. cbn [app fs_walk]. destruct (is_dir f cur); [|reflexivity].
  destruct (name_eqb s [] || name_eqb s (zs ".")); [apply IH|]. destruct (name_eqb s (zs "..")); apply IH.
Qed.

(** The path name [ob] denotes the directory [base]. *)
Record leads (f : fs) (cwd : list name) (ob : name) (base : list name) : Prop := {
  ld_resolve : fs_resolve f cwd ob = Ok base;
  ld_dir : is_dir f base = true;
  ld_last : last ob 0 <> SLASH }.
Lemma leads_grows : forall f f' cwd ob base, grows f f' -> leads f cwd ob base -> leads f' cwd ob base.
Proof.
  intros f f' cwd ob base HG [H1 H2 H3]. constructor; [|now apply HG|exact H3]. unfold fs_resolve in *. destruct (existsb (Z.eqb 0) ob); [discriminate|]. destruct ob as [|c ob]; [discriminate|]. eapply walk_grows; eauto.
Qed.
Lemma leads_nonempty : forall f cwd ob base, leads f cwd ob base -> ob <> [].
Proof. intros f cwd ob base [H _ _] ->. discriminate. Qed.
Lemma split_last : forall ob n, ~ In SLASH n -> split_slash (ob ++ SLASH :: n) = split_slash ob ++ [n].
Proof.
  induction ob as [|c ob IH]; intros n H; cbn [app split_slash].
  - rewrite Z.eqb_refl. now rewrite split_single.
  - rewrite IH by assumption. destruct (c =? SLASH); [reflexivity|]. destruct (split_slash ob) eqn:E; [exfalso; destruct ob as [|a ob]; cbn in E; [discriminate|]; destruct (a =? SLASH); [discriminate|]; destruct (split_slash ob); discriminate|reflexivity].
Qed.
Lemma no_nul : forall p, existsb (Z.eqb 0) p = false <-> ~ In 0 p.
Proof.
  intros p. rewrite <- not_true_iff_false, existsb_exists. split; intros H HI; apply H; [exists 0; split; [exact HI|reflexivity]|]. destruct HI as (x & HI & HE). apply Z.eqb_eq in HE. now subst.
Qed.
Lemma join_plain : forall ob n, ob <> [] -> last ob 0 <> SLASH -> plain n -> path_join ob n = ob ++ SLASH :: n.
Proof.
  intros ob n HO HL (H1 & _ & _ & H4 & _). unfold path_join. destruct n as [|c n]; [congruence|]. assert (c =? SLASH = false) as -> by (apply Z.eqb_neq; intros ->; apply H4; now left).
  destruct ob as [|a ob]; [congruence|]. apply Z.eqb_neq in HL. rewrite HL. reflexivity.
Qed.
Lemma leads_child : forall f cwd ob base n, leads f cwd ob base -> plain n -> fs_resolve f cwd (path_join ob n) = Ok (base ++ [n]).
Proof.
  intros f cwd ob base n HL HP. pose proof (leads_nonempty _ _ _ _ HL) as HN. destruct HL as [H1 H2 H3]. rewrite join_plain by assumption. destruct HP as (P1 & P2 & P3 & P4 & P5).
  unfold fs_resolve in *. destruct (existsb (Z.eqb 0) ob) eqn:EN; [discriminate|]. rewrite existsb_app, EN. cbn [existsb orb]. rewrite (proj2 (no_nul n) P5). change (0 =? SLASH) with false. cbn [orb].
  destruct ob as [|c ob]; [congruence|]. cbn [app]. change (c :: ob ++ SLASH :: n) with ((c :: ob) ++ SLASH :: n). rewrite split_last by exact P4. rewrite walk_app, H1. cbn [bind fs_walk]. rewrite H2.
  rewrite (proj2 (name_eqb_neq n []) P1), (proj2 (name_eqb_neq n (zs ".")) P2), (proj2 (name_eqb_neq n (zs "..")) P3). reflexivity.
Qed.

(** ** Spelling *)
Lemma spelled_in : forall c n, In c (spelled n) -> In c n \/ c = 95 \/ c = 48 \/ c = 53.
Proof.
  intros c n H. unfold spelled in H. apply in_flat_map in H. destruct H as (x & HX & HC). destruct (x =? 5); cbn in HC; [intuition|]. destruct HC as [->|[]]. now left.
Qed.
Lemma spelled_short : forall n, (forall c, In c n -> c <> 5) -> spelled n = n.
Proof. induction n as [|c n IH]; intros H; [reflexivity|]. cbn. assert (c =? 5 = false) as -> by (apply Z.eqb_neq; apply H; now left). cbn [app]. f_equal. apply IH. intros d Hd. apply H. now right. Qed.
Lemma spelled_plain : forall n, plain n -> plain (spelled n).
Proof.
  intros n (P1 & P2 & P3 & P4 & P5). repeat split.
  - destruct n as [|c n]; [congruence|]. cbn. destruct (c =? 5); discriminate.
  - intros E. destruct (in_dec Z.eq_dec 5 n) as [HI|HI].
    + apply in_split in HI. destruct HI as (a & b & ->). unfold spelled in E. rewrite flat_map_app in E. cbn in E. destruct (flat_map _ a) as [|x [|y l]]; cbn in E; try discriminate.
    + rewrite spelled_short in E by (intros c HC ->; contradiction). congruence.
  - intros E. destruct (in_dec Z.eq_dec 5 n) as [HI|HI].
    + assert (HIn : In 95 (spelled n)) by (unfold spelled; apply in_flat_map; exists 5; split; [exact HI|now left]). rewrite E in HIn. cbn in HIn. lia.
    + rewrite spelled_short in E by (intros c HC ->; contradiction). congruence.
  - intros HI. apply spelled_in in HI. destruct HI as [HI|HI]; [contradiction|lia].
  - intros HI. apply spelled_in in HI. destruct HI as [HI|HI]; [contradiction|lia].
Qed.
Lemma replace_app : forall a b, replace_05 (a ++ b) = replace_05 a ++ replace_05 b.
Proof. intros a b. apply flat_map_app. Qed.
Lemma replace_spelled : forall n, replace_05 n = spelled n.
Proof. reflexivity. Qed.
Lemma replace_none : forall p, ~ In 5 p -> replace_05 p = p.
Proof. intros p H. rewrite replace_spelled. apply spelled_short. intros c HC ->. contradiction. Qed.

(** ** Names of a directory *)
Lemma at_path_names : forall d n p x, at_path d n p = Some x -> In n (dnames d).
Proof.
  induction d as [|m b r IH|m s _ r IH]; intros n p x H; cbn [at_path dnames] in *; [discriminate| |];
    (destruct (name_eqb m n) eqn:E; [left; now apply name_eqb_eq|right; eauto]).
Qed.
Lemma at_path_missing : forall d n p, ~ In n (dnames d) -> at_path d n p = None.
Proof. intros d n p H. destruct (at_path d n p) eqn:E; [|reflexivity]. apply at_path_names in E. contradiction. Qed.
Lemma app_cons_inj : forall A (b : list A) n p m q, b ++ n :: p = b ++ m :: q -> n = m /\ p = q.
Proof. intros A b n p m q H. apply app_inv_head in H. injection H. auto. Qed.

(** ** Unpacking *)
Definition unpack_loop (g : name -> res item) (o : outcome) (cwd : list name) (outbase : name) : list name -> fs -> fs * res unit :=
  fix loop (names : list name) (f : fs) : fs * res unit :=
    match names with
    | [] => (f, match o with Failed e => Raise e | _ => Ok tt end)
    | n :: r =>
        let outpath := path_join outbase n in
        match g n with
        | Raise e => (f, Raise e)
        | Ok y =>
            if is_storage y then
              let made := if fs_exists f cwd outpath then (f, Ok tt) else fs_mkdir f cwd outpath in
              match made with
              | (f1, Raise e) => (f1, Raise e)
              | (f1, Ok _) =>
                  match unpack y cwd outpath f1 with
                  | (f2, Raise e) => (f2, Raise e)
                  | (f2, Ok _) => loop r f2
                  end
              end
            else
              match open y with
              | Raise e => (f, Raise e)
              | Ok b =>
                  match fs_write f cwd (replace_05 outpath) b with
                  | (f1, Raise e) => (f1, Raise e)
                  | (f1, Ok _) => loop r f1
                  end
              end
        end
    end.
Lemma unpack_eq : forall x cwd ob f, unpack x cwd ob f = unpack_loop (get x) (snd (iter x)) cwd ob (fst (iter x)) f.
Proof. intros []. reflexivity. Qed.

Record unpacked (d : dir) (base : list name) (f f' : fs) : Prop := {
  up_below : forall n p, fs_lookup f' (base ++ n :: p) = match at_path d n p with Some x => Some x | None => fs_lookup f (base ++ n :: p) end;
  up_else : forall p, (forall n q, p <> base ++ n :: q) -> fs_lookup f' p = fs_lookup f p }.

Lemma unpacked_grows : forall d base f f', (forall n p, In n (dnames d) -> fs_lookup f (base ++ n :: p) = None) -> unpacked d base f f' -> grows f f'.
Proof.
  intros d base f f' HF [H1 H2] p HP. unfold is_dir in *. destruct (list_eq_dec (list_eq_dec Z.eq_dec) (firstn (List.length base) p) base) as [E|E].
  - destruct (skipn (List.length base) p) as [|n q] eqn:ES.
    + assert (HX : p = base) by (rewrite <- (firstn_skipn (List.length base) p), ES, app_nil_r; exact E). subst p. rewrite H2; [exact HP|]. intros n q HE. assert (HL : List.length base = List.length (base ++ n :: q)) by now rewrite <- HE. rewrite app_length in HL. cbn in HL. lia.
    + assert (HX : p = base ++ n :: q) by (rewrite <- (firstn_skipn (List.length base) p), ES; f_equal; exact E). subst p. rewrite H1. destruct (at_path d n q) eqn:EA; [|exact HP]. rewrite HF in HP; [discriminate|]. eapply at_path_names; eauto.
  - rewrite H2; [exact HP|]. intros n q ->. apply E. now rewrite firstn_app, Nat.sub_diag, firstn_all, firstn_O, app_nil_r.
Qed.

Lemma base_app_ne : forall A (b : list A) n q, b ++ n :: q <> b.
Proof. intros A b n q H. assert (HL : List.length (b ++ n :: q) = List.length b) by now rewrite H. rewrite app_length in HL. cbn in HL. lia. Qed.

Lemma unpack_dir : forall d x cwd ob base f,
  entries x d -> all_names plain d -> dirs_without_05 d -> distinct (spell d) -> ~ In 5 ob ->
  leads f cwd ob base -> (forall n p, In n (dnames (spell d)) -> fs_lookup f (base ++ n :: p) = None) ->
  exists f', unpack_loop (get x) Finished cwd ob (dnames d) f = (f', Ok tt) /\ unpacked (spell d) base f f'.
Proof.
  induction d as [|n b r IHr|n s IHs r IHr]; intros x cwd ob base f HE HP H5 HD HO HL HF.
  - exists f. split; [reflexivity|]. constructor; reflexivity.
  - destruct HE as ((y & E1 & E2 & E3) & HE). destruct HP as [HPn HP]. destruct HD as [HN HD]. cbn [dirs_without_05] in H5. cbn [spell dnames] in HF.
    cbn [dnames unpack_loop]. rewrite E1, E2, E3. cbn zeta.
    rewrite join_plain; [|exact (leads_nonempty _ _ _ _ HL)|exact (ld_last _ _ _ _ HL)|exact HPn].
    rewrite replace_app, (replace_none ob HO). change (SLASH :: n) with ([SLASH] ++ n). rewrite replace_app. change (replace_05 [SLASH]) with [SLASH]. rewrite replace_spelled. cbn [app].
    rewrite <- (join_plain ob (spelled n)); [|exact (leads_nonempty _ _ _ _ HL)|exact (ld_last _ _ _ _ HL)|now apply spelled_plain].
    unfold fs_write. rewrite (leads_child _ _ _ _ _ HL (spelled_plain _ HPn)). rewrite (HF (spelled n) []) by now left.
    fold (unpack_loop (get x) Finished cwd ob). set (f1 := (base ++ [spelled n], File b) :: f).
    assert (HU1 : unpacked (DFile (spelled n) b DNil) base f f1).
    { constructor; [intros m p|intros p HNE]; unfold f1.
      - cbn [at_path]. destruct (name_eqb (spelled n) m) eqn:EM.
        + apply name_eqb_eq in EM. subst m. destruct p as [|k p]; [apply lookup_same; now destruct base|apply lookup_other]. intros HX. apply app_cons_inj in HX. now destruct HX.
        + apply name_eqb_neq in EM. apply lookup_other. intros HX. apply app_cons_inj in HX. destruct HX. congruence.
      - apply lookup_other. apply HNE. }
    assert (HG : grows f f1) by (eapply unpacked_grows; [|exact HU1]; intros m p [<-|[]]; apply HF; now left).
    destruct (IHr x cwd ob base f1 HE HP H5 HD HO (leads_grows _ _ _ _ _ HG HL)) as (f' & EU & HU).
    { intros m p HM. rewrite (up_below _ _ _ _ HU1). cbn [at_path]. destruct (name_eqb (spelled n) m) eqn:EM; [apply name_eqb_eq in EM; subst m; contradiction|]. apply HF. now right. }
    exists f'. split; [exact EU|]. constructor.
    + intros m p. rewrite (up_below _ _ _ _ HU), (up_below _ _ _ _ HU1). cbn [spell at_path]. destruct (name_eqb (spelled n) m) eqn:EM; [|reflexivity].
      apply name_eqb_eq in EM. subst m. now rewrite (at_path_missing _ _ _ HN).
    + intros p HNE. rewrite (up_else _ _ _ _ HU) by exact HNE. now apply (up_else _ _ _ _ HU1).
  - destruct HE as ((y & E1 & E2 & E3 & _ & E4) & HE). destruct HP as (HPn & HPs & HP). destruct HD as (HN & HDs & HD). destruct H5 as (H5n & H5s & H5). cbn [spell dnames] in HF.
    cbn [dnames unpack_loop]. rewrite E1, E2. cbn zeta.
    pose proof (leads_child _ _ _ _ _ HL HPn) as HC. unfold fs_exists, fs_mkdir. rewrite HC. rewrite (HF n []) by now left.
    set (f1 := (base ++ [n], Dir) :: f).
    assert (HU1 : unpacked (DDir n DNil DNil) base f f1).
    { constructor; [intros m p|intros p HNE]; unfold f1.
      - cbn [at_path]. destruct (name_eqb n m) eqn:EM.
        + apply name_eqb_eq in EM. subst m. destruct p as [|k p]; [apply lookup_same; now destruct base|cbn [at_path]; apply lookup_other]. intros HX. apply app_cons_inj in HX. now destruct HX.
        + apply name_eqb_neq in EM. apply lookup_other. intros HX. apply app_cons_inj in HX. destruct HX. congruence.
      - apply lookup_other. apply HNE. }
    assert (HG : grows f f1) by (eapply unpacked_grows; [|exact HU1]; intros m p [<-|[]]; apply HF; now left).
    pose proof (leads_grows _ _ _ _ _ HG HL) as HL1. rewrite unpack_eq, E3. cbn [fst snd].
    assert (HJ : path_join ob n = ob ++ SLASH :: n) by (apply join_plain; [exact (leads_nonempty _ _ _ _ HL)|exact (ld_last _ _ _ _ HL)|exact HPn]).
    destruct (IHs y cwd (path_join ob n) (base ++ [n]) f1 E4 HPs H5s HDs) as (f2 & EU2 & HU2).
    { rewrite HJ. intros HI. apply in_app_or in HI. destruct HI as [HI|[HI|HI]]; [contradiction|discriminate|contradiction]. }
    { constructor; [now apply leads_child|unfold is_dir, f1; rewrite lookup_same by (now destruct base); reflexivity|].
      rewrite HJ. destruct HPn as (P1 & _ & _ & P4 & _). intros HX. apply P4. destruct (exists_last P1) as (a & c & ->). assert (HY : last ((ob ++ SLASH :: a) ++ [c]) 0 = SLASH) by (rewrite <- app_assoc; exact HX). rewrite last_last in HY. subst c. apply in_or_app. right. now left. }
    { intros m p HM. rewrite <- app_assoc. cbn [app]. rewrite (up_below _ _ _ _ HU1). cbn [at_path]. rewrite name_eqb_refl. apply HF. now left. }
    rewrite EU2. fold (unpack_loop (get x) Finished cwd ob).
    assert (HU3 : unpacked (DDir n (spell s) DNil) base f f2).
    { constructor.
      - intros m p. cbn [at_path]. destruct (name_eqb n m) eqn:EM.
        + apply name_eqb_eq in EM. subst m. destruct p as [|k p].
          * rewrite (up_else _ _ _ _ HU2); [unfold f1; apply lookup_same; now destruct base|]. intros m q HX. symmetry in HX. now apply base_app_ne in HX.
          * pose proof (up_below _ _ _ _ HU2 k p) as HB. rewrite <- app_assoc in HB. cbn [app] in HB. rewrite HB. destruct (at_path (spell s) k p); [reflexivity|]. rewrite (up_below _ _ _ _ HU1). cbn [at_path]. now rewrite name_eqb_refl.
        + rewrite (up_else _ _ _ _ HU2); [|intros k q HX; rewrite <- app_assoc in HX; cbn [app] in HX; apply app_cons_inj in HX; apply name_eqb_neq in EM; destruct HX; congruence].
          rewrite (up_below _ _ _ _ HU1). cbn [at_path]. now rewrite EM.
      - intros p HNE. rewrite (up_else _ _ _ _ HU2); [now apply (up_else _ _ _ _ HU1)|]. intros k q ->. apply (HNE n (k :: q)). now rewrite <- app_assoc. }
    assert (HG3 : grows f f2) by (eapply unpacked_grows; [|exact HU3]; intros m p [<-|[]]; apply HF; now left).
    destruct (IHr x cwd ob base f2 HE HP H5 HD HO (leads_grows _ _ _ _ _ HG3 HL)) as (f' & EU & HU).
    { intros m p HM. rewrite (up_below _ _ _ _ HU3). cbn [at_path]. destruct (name_eqb n m) eqn:EM; [apply name_eqb_eq in EM; subst m; contradiction|]. apply HF. now right. }
    exists f'. split; [exact EU|]. constructor.
    + intros m p. rewrite (up_below _ _ _ _ HU), (up_below _ _ _ _ HU3). cbn [spell at_path]. destruct (name_eqb n m) eqn:EM; [|reflexivity].
      apply name_eqb_eq in EM. subst m. now rewrite (at_path_missing _ _ _ HN).
    + intros p HNE. rewrite (up_else _ _ _ _ HU) by exact HNE. now apply (up_else _ _ _ _ HU3).
Qed.

Theorem unpack_fresh : forall x d cwd ob base f,
  represents x d -> all_names plain d -> dirs_without_05 d -> distinct (spell d) ->
  ~ In 5 ob -> last ob 0 <> 47 -> fs_resolve f cwd ob = Ok base -> fs_lookup f base = Some Dir -> (forall n p, fs_lookup f (base ++ n :: p) = None) ->
  exists f', unpack x cwd ob f = (f', Ok tt) /\
    (forall n p, fs_lookup f' (base ++ n :: p) = at_path (spell d) n p) /\
    (forall p, (forall n q, p <> base ++ n :: q) -> fs_lookup f' p = fs_lookup f p).
Proof.
  intros x d cwd ob base f (_ & HI & _ & HE) HP H5 HD HO HLast HR HDir HF. rewrite unpack_eq, HI. cbn [fst snd].
  destruct (unpack_dir d x cwd ob base f HE HP H5 HD HO) as (f' & EU & HU); [constructor; [exact HR|unfold is_dir; now rewrite HDir|exact HLast]|intros; apply HF|].
  exists f'. split; [exact EU|]. split; [|apply (up_else _ _ _ _ HU)]. intros n p. rewrite (up_below _ _ _ _ HU), HF. now destruct (at_path (spell d) n p).
Qed.

(** With the output directory made first. *)
Theorem unpack_main_fresh : forall x d cwd ob base f,
  represents x d -> all_names plain d -> dirs_without_05 d -> distinct (spell d) ->
  ~ In 5 ob -> last ob 0 <> 47 -> base <> [] -> fs_resolve f cwd ob = Ok base -> (fs_lookup f base = Some Dir \/ fs_lookup f base = None) -> (forall n p, fs_lookup f (base ++ n :: p) = None) ->
  exists f', unpack_main x cwd ob f = (f', Ok tt) /\ fs_lookup f' base = Some Dir /\
    (forall n p, fs_lookup f' (base ++ n :: p) = at_path (spell d) n p) /\
    (forall p, p <> base -> (forall n q, p <> base ++ n :: q) -> fs_lookup f' p = fs_lookup f p).
Proof.
  intros x d cwd ob base f HR HP H5 HD HO HLast HB HRes HDir HF. unfold unpack_main, fs_exists, fs_mkdir. rewrite HRes. destruct HDir as [HDir|HDir]; rewrite HDir.
  - destruct (unpack_fresh x d cwd ob base f HR HP H5 HD HO HLast HRes HDir HF) as (f' & E & H1 & H2). exists f'. repeat split; auto. rewrite H2; [exact HDir|]. intros n q HX. symmetry in HX. now apply base_app_ne in HX.
  - set (f1 := (base, Dir) :: f). assert (HG : grows f f1).
    { intros p HPd. unfold is_dir in *. destruct (list_eq_dec (list_eq_dec Z.eq_dec) p base) as [->|HN]; [rewrite HDir in HPd; discriminate|]. unfold f1. now rewrite lookup_other. }
    destruct (unpack_fresh x d cwd ob base f1 HR HP H5 HD HO HLast) as (f' & E & H1 & H2).
    + unfold fs_resolve in *. destruct (existsb (Z.eqb 0) ob); [discriminate|]. destruct ob as [|c ob]; [discriminate|]. eapply walk_grows; eauto.
    + now apply lookup_same.
    + intros n p. unfold f1. rewrite lookup_other by apply base_app_ne. apply HF.
    + exists f'. repeat split; auto.
      * rewrite H2; [now apply lookup_same|]. intros n q HX. symmetry in HX. now apply base_app_ne in HX.
      * intros p HN HNE. rewrite H2 by exact HNE. now apply lookup_other.
Qed.
