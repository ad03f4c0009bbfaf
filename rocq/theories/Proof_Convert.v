(** Proofs about the converters. *)
From Coq Require Import ZArith String List Bool Lia.
From Verif Require Import Base BaseFacts Model_Text Model_Storage Model_Filestructure Model_Convert Spec_Storage Spec_Convert Proof_Storage Proof_Unpack.
Import ListNotations.
Open Scope Z_scope.

(** ** Unpacking stays below its directory *)

Definition below_only (base : list name) (f f' : fs) : Prop :=
  grows f f' /\ forall p, (forall n q, p <> base ++ n :: q) -> fs_lookup f' p = fs_lookup f p.
Lemma below_refl : forall base f, below_only base f f.
Proof. intros base f. split; [intros p H; exact H|reflexivity]. Qed.
Lemma below_trans : forall base f g h, below_only base f g -> below_only base g h -> below_only base f h.
Proof. intros base f g h [G1 H1] [G2 H2]. split; [intros p HP; now apply G2, G1|]. intros p HP. rewrite H2, H1 by exact HP. reflexivity. Qed.

Definition sub (ob : name) (segs : list name) : name := ob ++ concat (map (cons SLASH) segs).
Lemma sub_snoc : forall ob segs n, sub ob (segs ++ [n]) = sub ob segs ++ SLASH :: n.
Proof. intros ob segs n. unfold sub. rewrite map_app, concat_app. cbn [map concat]. rewrite app_nil_r, app_assoc. reflexivity. Qed.
Lemma sub_nonempty : forall ob segs, ob <> [] -> sub ob segs <> [].
Proof. intros ob segs H E. unfold sub in E. apply app_eq_nil in E. tauto. Qed.
Lemma last_plain : forall (a n : name), plain n -> last (a ++ SLASH :: n) 0 <> SLASH.
Proof.
  intros a n (P1 & _ & _ & P4 & _) HX. apply P4. destruct (exists_last P1) as (b & c & ->). assert (HY : last ((a ++ SLASH :: b) ++ [c]) 0 = SLASH) by (rewrite <- app_assoc; exact HX).
  rewrite last_last in HY. subst c. apply in_or_app. right. now left.
Qed.
Lemma sub_last : forall ob segs, last ob 0 <> SLASH -> Forall plain segs -> last (sub ob segs) 0 <> SLASH.
Proof.
  intros ob segs HL HP. destruct segs as [|s r] using rev_ind; [unfold sub; cbn; now rewrite app_nil_r|]. rewrite sub_snoc. apply last_plain. apply Forall_app in HP. destruct HP as [_ HP]. now inversion HP.
Qed.
Lemma sub_join : forall ob segs n, ob <> [] -> last ob 0 <> SLASH -> Forall plain segs -> plain n -> path_join (sub ob segs) n = sub ob (segs ++ [n]).
Proof. intros ob segs n HN HL HS HP. rewrite sub_snoc. apply join_plain; [now apply sub_nonempty|now apply sub_last|exact HP]. Qed.
Lemma sub_replace : forall ob segs, ~ In 5 ob -> replace_05 (sub ob segs) = sub ob (map spelled segs).
Proof.
  intros ob segs H. unfold sub. rewrite replace_app, replace_none by exact H. f_equal. induction segs as [|s r IH]; [reflexivity|]. cbn [map concat]. rewrite replace_app, IH.
  change (SLASH :: s) with ([SLASH] ++ s). rewrite replace_app. reflexivity.
Qed.
Lemma resolve_snoc : forall f cwd ob n, ob <> [] -> ~ In SLASH n -> ~ In 0 n -> fs_resolve f cwd (ob ++ SLASH :: n) = bind (fs_resolve f cwd ob) (fun c => fs_walk f c [n]).
Proof.
  intros f cwd ob n HN HS H0. unfold fs_resolve. rewrite existsb_app. cbn [existsb]. change (0 =? SLASH) with false. cbn [orb]. rewrite (proj2 (no_nul n) H0), orb_false_r.
  destruct (existsb (Z.eqb 0) ob); [reflexivity|]. destruct ob as [|c ob]; [congruence|]. cbn [app]. change (c :: ob ++ SLASH :: n) with ((c :: ob) ++ SLASH :: n). rewrite split_last by exact HS. apply walk_app.
Qed.
Lemma walk_one : forall f c n r, plain n -> fs_walk f c [n] = Ok r -> r = c ++ [n].
Proof.
  intros f c n r (P1 & P2 & P3 & _) H. cbn [fs_walk] in H. destruct (is_dir f c); [|discriminate]. rewrite (proj2 (name_eqb_neq n []) P1), (proj2 (name_eqb_neq n (zs ".")) P2), (proj2 (name_eqb_neq n (zs "..")) P3) in H. cbn [orb] in H. congruence.
Qed.
Lemma resolve_sub : forall f cwd ob base segs r, ob <> [] -> fs_resolve f cwd ob = Ok base -> Forall plain segs -> fs_resolve f cwd (sub ob segs) = Ok r -> r = base ++ segs.
Proof.
  intros f cwd ob base segs. induction segs as [|n segs IH] using rev_ind; intros r HN HR HP H.
  - unfold sub in H. cbn in H. rewrite app_nil_r in H. rewrite app_nil_r. congruence.
  - apply Forall_app in HP. destruct HP as [HP1 HP2]. inversion HP2 as [|? ? HPn _]; subst. rewrite sub_snoc in H. pose proof HPn as (_ & _ & _ & P4 & P5). rewrite resolve_snoc in H; [|now apply sub_nonempty|exact P4|exact P5].
    destruct (fs_resolve f cwd (sub ob segs)) as [c|e] eqn:EC; [|discriminate]. cbn [bind] in H. specialize (IH c HN HR HP1 eq_refl). subst c. apply walk_one in H; [|exact HPn]. rewrite H. now rewrite <- app_assoc.
Qed.
Lemma resolve_grows : forall f f' cwd ob base, grows f f' -> fs_resolve f cwd ob = Ok base -> fs_resolve f' cwd ob = Ok base.
Proof. intros f f' cwd ob base HG H. unfold fs_resolve in *. destruct (existsb (Z.eqb 0) ob); [discriminate|]. destruct ob as [|c ob]; [discriminate|]. eapply walk_grows; eauto. Qed.
Lemma new_below : forall f base n q x, (match fs_lookup f (base ++ n :: q) with Some Dir => x = Dir | _ => True end) -> below_only base f ((base ++ n :: q, x) :: f).
Proof.
  intros f base n q x HX. split.
  - intros p HP. unfold is_dir in *. destruct (list_eq_dec (list_eq_dec Z.eq_dec) p (base ++ n :: q)) as [->|HN]; [|now rewrite lookup_other].
    rewrite lookup_same by (destruct base; discriminate). destruct (fs_lookup f (base ++ n :: q)) as [[b|]|]; try discriminate. now rewrite HX.
  - intros p HP. apply lookup_other. apply HP.
Qed.
Lemma mkdir_below : forall f cwd ob base segs n, ob <> [] -> fs_resolve f cwd ob = Ok base -> Forall plain (segs ++ [n]) -> below_only base f (fst (fs_mkdir f cwd (sub ob (segs ++ [n])))).
Proof.
  intros f cwd ob base segs n HN HR HP. unfold fs_mkdir. destruct (fs_resolve f cwd (sub ob (segs ++ [n]))) as [r|e] eqn:ER; [|apply below_refl].
  apply (resolve_sub _ _ _ _ _ _ HN HR HP) in ER. subst r. destruct (fs_lookup f (base ++ segs ++ [n])) eqn:EL; [apply below_refl|]. cbn [fst].
  destruct segs as [|s segs]; cbn [app] in *; apply new_below; rewrite EL; exact I.
Qed.
Lemma write_below : forall f cwd ob base segs n b, ob <> [] -> fs_resolve f cwd ob = Ok base -> Forall plain (segs ++ [n]) -> below_only base f (fst (fs_write f cwd (sub ob (segs ++ [n])) b)).
Proof.
  intros f cwd ob base segs n b HN HR HP. unfold fs_write. destruct (fs_resolve f cwd (sub ob (segs ++ [n]))) as [r|e] eqn:ER; [|apply below_refl].
  apply (resolve_sub _ _ _ _ _ _ HN HR HP) in ER. subst r. destruct (fs_lookup f (base ++ segs ++ [n])) as [[c|]|] eqn:EL; [|apply below_refl|]; cbn [fst];
    (destruct segs as [|s segs]; cbn [app] in *; apply new_below; rewrite EL; exact I).
Qed.
Lemma plain_map_spelled : forall segs, Forall plain segs -> Forall plain (map spelled segs).
Proof. intros segs H. induction H; cbn; constructor; [now apply spelled_plain|assumption]. Qed.

Section Confined.
  Variables (cwd : list name) (ob : name) (base : list name).
  Hypothesis HN : ob <> [].
  Hypothesis HL : last ob 0 <> SLASH.
  Hypothesis H5 : ~ In 5 ob.
  Lemma unpack_confined : forall x, plain_names x -> forall segs f, Forall plain segs -> fs_resolve f cwd ob = Ok base -> below_only base f (fst (unpack x cwd (sub ob segs) f)).
  Proof.
    fix IH 1. intros [s [names o] g st op fm] [HP HG] segs f HS HR. cbn [fst snd] in *. rewrite unpack_eq. cbn [get iter fst snd].
    revert f HR. induction names as [|n r IHn]; intros f HR; [apply below_refl|]. inversion HP as [|? ? HPn HPr]; subst. specialize (IHn HPr).
    cbn [unpack_loop]. fold (unpack_loop g o cwd (sub ob segs)). specialize (HG n). assert (HA : Forall plain (segs ++ [n])) by (apply Forall_app; split; [exact HS|now constructor]).
    rewrite sub_join by assumption. destruct (g n) as [y|e]; [|apply below_refl].
    destruct (is_storage y).
    - set (made := if fs_exists f cwd (sub ob (segs ++ [n])) then (f, Ok tt) else fs_mkdir f cwd (sub ob (segs ++ [n]))).
      assert (HM : below_only base f (fst made)) by (unfold made; destruct (fs_exists f cwd (sub ob (segs ++ [n]))); [apply below_refl|now apply mkdir_below]).
      destruct made as [f1 [u|e]]; cbn [fst] in *; [|exact HM].
      assert (HR1 : fs_resolve f1 cwd ob = Ok base) by (eapply resolve_grows; [apply HM|exact HR]).
      pose proof (IH y HG (segs ++ [n]) f1 HA HR1) as HU. destruct (unpack y cwd (sub ob (segs ++ [n])) f1) as [f2 [v|e]]; cbn [fst] in *; [|eapply below_trans; eassumption].
      assert (HR2 : fs_resolve f2 cwd ob = Ok base) by (eapply resolve_grows; [apply HU|exact HR1]).
      eapply below_trans; [exact HM|]. eapply below_trans; [exact HU|]. apply IHn. exact HR2.
    - destruct (open y) as [b|e]; [|apply below_refl]. rewrite sub_replace by exact H5. rewrite map_app. cbn [map].
      assert (HW : below_only base f (fst (fs_write f cwd (sub ob (map spelled segs ++ [spelled n])) b))).
      { apply write_below; [exact HN|exact HR|]. change [spelled n] with (map spelled [n]). rewrite <- (map_app spelled segs [n]). now apply plain_map_spelled. }
      destruct (fs_write f cwd (sub ob (map spelled segs ++ [spelled n])) b) as [f1 [u|e]]; cbn [fst] in *; [|exact HW].
      eapply below_trans; [exact HW|]. apply IHn. eapply resolve_grows; [apply HW|exact HR].
  Qed.
End Confined.
Theorem unpack_stays : forall x cwd ob base f, plain_names x -> ~ In 5 ob -> last ob 0 <> 47 -> fs_resolve f cwd ob = Ok base ->
  forall p, (forall n q, p <> base ++ n :: q) -> fs_lookup (fst (unpack x cwd ob f)) p = fs_lookup f p.
Proof.
  intros x cwd ob base f HX H5 HL HR p HP. assert (HN : ob <> []) by (intros ->; discriminate).
  pose proof (unpack_confined cwd ob base HN HL H5 x HX [] f (Forall_nil _) HR) as [_ H]. unfold sub in H. cbn [map concat] in H. rewrite app_nil_r in H. now apply H.
Qed.

(** ** Paths of names *)

Lemma joined_nonempty : forall p, p <> [] -> Forall plain p -> joined p <> [].
Proof. intros [|n p] H HP; [congruence|]. inversion HP as [|? ? (P1 & _) _]; subst. destruct p; [exact P1|]. rewrite joined_cons by discriminate. destruct n; [congruence|discriminate]. Qed.
Lemma plain_no_slash : forall p, Forall plain p -> Forall no_slash p.
Proof. intros p H. eapply Forall_impl; [|exact H]. intros n (_ & _ & _ & P & _). exact P. Qed.
Lemma joined_no_nul : forall p, Forall plain p -> ~ In 0 (joined p).
Proof.
  induction p as [|n p IH]; intros H; [intros []|]. inversion H as [|? ? (_ & _ & _ & _ & P5) HP]; subst. destruct p as [|m p]; [exact P5|]. rewrite joined_cons by discriminate.
  intros HI. apply in_app_iff in HI. destruct HI as [HI|[HI|HI]]; [contradiction|discriminate|now apply IH].
Qed.
Lemma joined_last : forall p, p <> [] -> Forall plain p -> last (joined p) 0 <> 47.
Proof.
  intros p HN HP. destruct p as [|n p] using rev_ind; [congruence|]. clear IHp HN. apply Forall_app in HP. destruct HP as [_ HP]. inversion HP as [|? ? HPn _]; subst.
  assert (HJ : joined (p ++ [n]) = n \/ exists a, joined (p ++ [n]) = a ++ SLASH :: n).
  { clear HP. induction p as [|m p IH]; [now left|]. right. cbn [app]. rewrite joined_cons by (destruct p; discriminate). destruct IH as [->|(a & ->)]; [now exists m|]. exists (m ++ SLASH :: a). rewrite <- app_assoc. reflexivity. }
  destruct HJ as [->|(a & ->)]; [|now apply last_plain]. apply (last_plain [] n) in HPn. intros HX. apply HPn. cbn [app last]. destruct n as [|c n]; [discriminate HX|exact HX].
Qed.
Lemma walk_plain : forall f p cur, Forall plain p -> (forall a b, p = a ++ b -> b <> [] -> is_dir f (cur ++ a) = true) -> fs_walk f cur p = Ok (cur ++ p).
Proof.
  induction p as [|n p IH]; intros cur HP HD; [cbn; now rewrite app_nil_r|]. inversion HP as [|? ? HPn HPp]; subst. pose proof HPn as (P1 & P2 & P3 & _). cbn [fs_walk].
  pose proof (HD [] (n :: p) eq_refl) as H0. rewrite app_nil_r in H0. rewrite H0 by discriminate.
  rewrite (proj2 (name_eqb_neq n []) P1), (proj2 (name_eqb_neq n (zs ".")) P2), (proj2 (name_eqb_neq n (zs "..")) P3). cbn [orb]. rewrite IH; [now rewrite <- app_assoc|exact HPp|].
  intros a b HE HB. rewrite <- app_assoc. cbn [app]. apply (HD (n :: a) b); [now rewrite HE|exact HB].
Qed.
Lemma walk_plain_inv : forall f p cur r, Forall plain p -> fs_walk f cur p = Ok r -> r = cur ++ p.
Proof.
  induction p as [|n p IH]; intros cur r HP H; [cbn in H; rewrite app_nil_r; congruence|]. inversion HP as [|? ? HPn HPp]; subst. pose proof HPn as (P1 & P2 & P3 & _). cbn [fs_walk] in H.
  destruct (is_dir f cur); [|discriminate]. rewrite (proj2 (name_eqb_neq n []) P1), (proj2 (name_eqb_neq n (zs ".")) P2), (proj2 (name_eqb_neq n (zs "..")) P3) in H. cbn [orb] in H. apply IH in H; [|exact HPp]. rewrite H. now rewrite <- app_assoc.
Qed.
Lemma resolve_joined : forall f cwd p, p <> [] -> Forall plain p -> fs_resolve f cwd (joined p) = fs_walk f cwd p.
Proof.
  intros f cwd p HN HP. unfold fs_resolve. rewrite (proj2 (no_nul _) (joined_no_nul p HP)). destruct (joined p) as [|c t] eqn:E; [now apply joined_nonempty in HN|].
  assert (c =? SLASH = false) as ->.
  { apply Z.eqb_neq. intros ->. destruct p as [|n p]; [congruence|]. inversion HP as [|? ? (P1 & _ & _ & P4 & _) _]; subst. destruct p as [|m p]; [cbn in E; subst n; apply P4; now left|].
    rewrite joined_cons in E by discriminate. destruct n as [|d n]; [congruence|]. injection E as -> _. apply P4. now left. }
  rewrite <- E. now rewrite split_joined by (assumption || now apply plain_no_slash).
Qed.
Lemma resolve_rooted : forall f cwd p, p <> [] -> Forall plain p -> fs_resolve f cwd (47 :: joined p) = fs_walk f [] p.
Proof.
  intros f cwd p HN HP. unfold fs_resolve. cbn [existsb]. change (0 =? 47) with false. cbn [orb]. rewrite (proj2 (no_nul _) (joined_no_nul p HP)).
  change (47 =? SLASH) with true. cbn iota. cbn [split_slash]. change (47 =? SLASH) with true. cbn iota. rewrite split_joined by (assumption || now apply plain_no_slash). reflexivity.
Qed.
Lemma names_resolve_inv : forall f cwd dest q r, names_path cwd dest q -> fs_resolve f cwd dest = Ok r -> r = q.
Proof.
  intros f cwd dest q r H HR. destruct H as [p HN HP|p HN HP].
  - rewrite resolve_joined in HR by assumption. now apply walk_plain_inv in HR.
  - rewrite resolve_rooted in HR by assumption. now apply walk_plain_inv in HR.
Qed.
Lemma names_resolve : forall f cwd dest q, names_path cwd dest q -> parents f q -> fs_resolve f cwd dest = Ok q.
Proof.
  intros f cwd dest q H HD. destruct H as [p HN HP|p HN HP].
  - rewrite resolve_joined by assumption. apply walk_plain; [exact HP|]. intros a b HE HB. unfold is_dir. rewrite (HD (cwd ++ a) b); [reflexivity|now rewrite HE, <- app_assoc|exact HB].
  - rewrite resolve_rooted by assumption. apply walk_plain; [exact HP|]. intros a b HE HB. unfold is_dir. cbn [app]. rewrite (HD a b); [reflexivity|exact HE|exact HB].
Qed.
Lemma names_nonempty : forall cwd dest q, names_path cwd dest q -> q <> [] /\ dest <> [] /\ last dest 0 <> 47.
Proof.
  intros cwd dest q H. destruct H as [p HN HP|p HN HP].
  - split; [intros E; apply app_eq_nil in E; tauto|]. split; [now apply joined_nonempty|now apply joined_last].
  - split; [exact HN|]. split; [discriminate|]. pose proof (joined_nonempty p HN HP). pose proof (joined_last p HN HP). cbn [last]. destruct (joined p); [congruence|assumption].
Qed.
Lemma names_last_part : forall cwd dest q, names_path cwd dest q -> plain (last_part dest).
Proof.
  assert (HF : forall p, Forall plain p -> filter (fun s => negb (name_eqb s [])) p = p).
  { induction p as [|n p IH]; intros H; [reflexivity|]. inversion H as [|? ? (P1 & _) HP]; subst. cbn [filter]. rewrite (proj2 (name_eqb_neq n []) P1). cbn [negb]. now rewrite IH. }
  assert (HL : forall p, p <> [] -> Forall plain p -> plain (last p [])).
  { intros p HN HP. destruct p as [|n p] using rev_ind; [congruence|]. rewrite last_last. apply Forall_app in HP. destruct HP as [_ HP]. now inversion HP. }
  intros cwd dest q H. unfold last_part. destruct H as [p HN HP|p HN HP].
  - rewrite split_joined by (assumption || now apply plain_no_slash). rewrite HF by exact HP. now apply HL.
  - cbn [split_slash]. change (47 =? SLASH) with true. cbn iota. rewrite split_joined by (assumption || now apply plain_no_slash). cbn [filter]. change (name_eqb [] []) with true. cbn [negb]. rewrite HF by exact HP. now apply HL.
Qed.

(** ** Clearing the directory *)

Lemma prefix_within : forall q p, is_prefix q p = true <-> within q p.
Proof.
  induction q as [|x q IH]; intros p; [split; [intros _; now exists p|reflexivity]|]. destruct p as [|y p]; cbn [is_prefix].
  - split; [discriminate|intros (r & HR); discriminate].
  - rewrite andb_true_iff, name_eqb_eq, IH. split; [intros [-> (r & ->)]; now exists r|]. intros (r & HR). injection HR as -> ->. split; [reflexivity|now exists r].
Qed.
Lemma lookup_filter : forall k f p, p <> [] -> (k p = true -> fs_lookup (filter (fun e => k (fst e)) f) p = fs_lookup f p) /\ (k p = false -> fs_lookup (filter (fun e => k (fst e)) f) p = None).
Proof.
  intros k f p HN. unfold fs_lookup. destruct p as [|n p]; [congruence|]. set (P := n :: p). induction f as [|[q x] f [IH1 IH2]]; [split; reflexivity|]. cbn [filter fst].
  split; intros HK.
  - destruct (k q) eqn:EK; cbn [find fst]; destruct (path_eqb q P) eqn:EP; try reflexivity; try (now apply IH1). apply path_eqb_eq in EP. congruence.
  - destruct (k q) eqn:EK; cbn [find fst]; [|now apply IH2]. destruct (path_eqb q P) eqn:EP; [apply path_eqb_eq in EP; congruence|now apply IH2].
Qed.
Lemma removed_lookup : forall q f p, q <> [] -> fs_lookup (filter (fun e => negb (is_prefix q (fst e))) f) p = if is_prefix q p then None else fs_lookup f p.
Proof.
  intros q f p HQ. destruct p as [|n p]; [destruct q; [congruence|reflexivity]|].
  destruct (lookup_filter (fun r => negb (is_prefix q r)) f (n :: p) ltac:(discriminate)) as [H1 H2]. cbv beta in *. destruct (is_prefix q (n :: p)) eqn:E; [apply H2|apply H1]; reflexivity.
Qed.
Lemma lookup_below_none : forall f q r, rooted f -> q <> [] -> fs_lookup f q <> Some Dir -> r <> [] -> fs_lookup f (q ++ r) = None.
Proof.
  intros f q r HR HQ HN. induction r as [|n r IH] using rev_ind; intros H; [congruence|]. rewrite app_assoc. destruct (fs_lookup f ((q ++ r) ++ [n])) eqn:E; [|reflexivity]. exfalso.
  assert (HD : fs_lookup f (q ++ r) = Some Dir) by (apply (HR (q ++ r) n); congruence). destruct r as [|m r]; [rewrite app_nil_r in HD; contradiction|]. rewrite IH in HD by discriminate. discriminate.
Qed.

(** open_dir, whatever happens. *)
Lemma opened_outside : forall f cwd dest q, names_path cwd dest q -> forall p, ~ within q p -> fs_lookup (fst (open_dir dest cwd f)) p = fs_lookup f p.
Proof.
  intros f cwd dest q HP p HW. pose proof (names_nonempty _ _ _ HP) as (HQ & HD & HL). pose proof (names_last_part _ _ _ HP) as (P1 & P2 & P3 & _).
  assert (HK : forall g, (forall p, ~ within q p -> fs_lookup g p = fs_lookup f p) -> fs_lookup (fst (fs_mkdir g cwd dest)) p = fs_lookup f p).
  { intros g HG. unfold fs_mkdir. destruct (fs_resolve g cwd dest) as [r|e] eqn:ER; [|now apply HG]. apply (names_resolve_inv _ _ _ _ _ HP) in ER. subst r.
    destruct (fs_lookup g q); cbn [fst]; [now apply HG|]. rewrite lookup_other; [now apply HG|]. intros ->. apply HW. exists []. now rewrite app_nil_r. }
  unfold open_dir. destruct (fs_exists f cwd dest) eqn:EX; [|cbn [fthen]; now apply HK].
  unfold fs_rmtree. destruct (fs_resolve f cwd dest) as [r|e] eqn:ER; [|reflexivity]. apply (names_resolve_inv _ _ _ _ _ HP) in ER. subst r. destruct (is_dir f q); [|reflexivity].
  rewrite (proj2 (name_eqb_neq _ _) P1), (proj2 (name_eqb_neq _ (zs ".")) P2), (proj2 (name_eqb_neq _ (zs "..")) P3). cbn [orb fthen]. apply HK.
  intros p' HW'. rewrite removed_lookup by exact HQ. destruct (is_prefix q p') eqn:E; [apply prefix_within in E; contradiction|reflexivity].
Qed.
Lemma opened_inside : forall f cwd dest q f' u, names_path cwd dest q -> rooted f -> open_dir dest cwd f = (f', Ok u) ->
  fs_resolve f' cwd dest = Ok q /\ fs_lookup f' q = Some Dir /\ (forall n p, fs_lookup f' (q ++ n :: p) = None).
Proof.
  intros f cwd dest q f' u HP HR HO. pose proof (names_nonempty _ _ _ HP) as (HQ & HD & HL). pose proof (names_last_part _ _ _ HP) as (P1 & P2 & P3 & _).
  assert (HK : forall g, fs_lookup g q = None -> (forall n p, fs_lookup g (q ++ n :: p) = None) -> fs_mkdir g cwd dest = (f', Ok u) ->
    fs_resolve f' cwd dest = Ok q /\ fs_lookup f' q = Some Dir /\ (forall n p, fs_lookup f' (q ++ n :: p) = None)).
  { intros g HG1 HG2 HM. unfold fs_mkdir in HM. destruct (fs_resolve g cwd dest) as [r|e] eqn:ER; [|discriminate]. pose proof (names_resolve_inv _ _ _ _ _ HP ER) as ->. rewrite HG1 in HM. injection HM as <- _.
    split; [|split; [now apply lookup_same|]].
    - eapply resolve_grows; [|exact ER]. intros p HPd. unfold is_dir in *. destruct (list_eq_dec (list_eq_dec Z.eq_dec) p q) as [->|HNE]; [now rewrite HG1 in HPd|now rewrite lookup_other].
    - intros n p. rewrite lookup_other; [apply HG2|apply base_app_ne]. }
  unfold open_dir in HO. destruct (fs_exists f cwd dest) eqn:EX.
  - unfold fs_rmtree in HO. destruct (fs_resolve f cwd dest) as [r|e] eqn:ER; [|discriminate]. pose proof (names_resolve_inv _ _ _ _ _ HP ER) as ->. destruct (is_dir f q) eqn:ED; [|discriminate].
    rewrite (proj2 (name_eqb_neq _ _) P1), (proj2 (name_eqb_neq _ (zs ".")) P2), (proj2 (name_eqb_neq _ (zs "..")) P3) in HO. cbn [orb fthen] in HO. apply (HK _) in HO; [exact HO| |].
    + rewrite removed_lookup by exact HQ. replace (is_prefix q q) with true; [reflexivity|]. symmetry. apply prefix_within. exists []. now rewrite app_nil_r.
    + intros n p. rewrite removed_lookup by exact HQ. replace (is_prefix q (q ++ n :: p)) with true; [reflexivity|]. symmetry. apply prefix_within. now exists (n :: p).
  - cbn [fthen] in HO. pose proof HO as HM. unfold fs_mkdir in HM. destruct (fs_resolve f cwd dest) as [r|e] eqn:ER; [|discriminate]. pose proof (names_resolve_inv _ _ _ _ _ HP ER) as ->.
    unfold fs_exists in EX. rewrite ER in EX. destruct (fs_lookup f q) eqn:EL; [discriminate|]. apply (HK f EL); [|exact HO]. intros n p. apply lookup_below_none; [exact HR|exact HQ|congruence|discriminate].
Qed.
Lemma opened_ok : forall f cwd dest q, names_path cwd dest q -> parents f q -> fs_lookup f q = Some Dir \/ fs_lookup f q = None -> exists f', open_dir dest cwd f = (f', Ok tt).
Proof.
  intros f cwd dest q HP HD HX. pose proof (names_nonempty _ _ _ HP) as (HQ & _ & HL). pose proof (names_last_part _ _ _ HP) as (P1 & P2 & P3 & _). pose proof (names_resolve f cwd dest q HP HD) as HR.
  unfold open_dir, fs_exists. rewrite HR. destruct HX as [HX|HX]; rewrite HX.
  - unfold fs_rmtree. rewrite HR. unfold is_dir at 1. rewrite HX. rewrite (proj2 (name_eqb_neq _ _) P1), (proj2 (name_eqb_neq _ (zs ".")) P2), (proj2 (name_eqb_neq _ (zs "..")) P3). cbn [orb fthen].
    set (g := filter (fun e => negb (is_prefix q (fst e))) f). assert (HG : fs_resolve g cwd dest = Ok q).
    { apply names_resolve; [exact HP|]. intros a b HE HB. unfold g. rewrite removed_lookup by exact HQ. destruct (is_prefix q a) eqn:E; [|now apply (HD a b)].
      apply prefix_within in E. destruct E as (r & ->). exfalso. apply (f_equal (@List.length _)) in HE. rewrite !app_length in HE. destruct b; [congruence|cbn in HE; lia]. }
    unfold fs_mkdir. rewrite HG. replace (fs_lookup g q) with (@None node); [eauto|]. unfold g. rewrite removed_lookup by exact HQ. replace (is_prefix q q) with true; [reflexivity|]. symmetry. apply prefix_within. exists []. now rewrite app_nil_r.
  - cbn [fthen]. unfold fs_mkdir. rewrite HR, HX. eauto.
Qed.

(** ** hwp5html *)

Lemma plain_index : plain (zs "index.xhtml"). Proof. unfold plain. cbn. intuition discriminate. Qed.
Lemma plain_styles : plain (zs "styles.css"). Proof. unfold plain. cbn. intuition discriminate. Qed.
Lemma plain_bindata : plain (zs "bindata"). Proof. unfold plain. cbn. intuition discriminate. Qed.

Section Html.
  Variable xml : item -> res (list Z).
  Variables xhtml css : list Z -> list Z * option exn.

  Lemma written_below : forall f cwd ob base n out, ob <> [] -> last ob 0 <> SLASH -> fs_resolve f cwd ob = Ok base -> plain n ->
    below_only base f (fst (written_file (path_join ob n) out cwd f)).
  Proof.
    intros f cwd ob base n out HN HL HR HP. unfold written_file. rewrite join_plain by assumption. replace (ob ++ SLASH :: n) with (sub ob ([] ++ [n])) by (rewrite sub_snoc; unfold sub; cbn; now rewrite app_nil_r).
    pose proof (write_below f cwd ob base [] n (fst out) HN HR ltac:(now constructor)) as HW. destruct (fs_write f cwd (sub ob ([] ++ [n])) (fst out)) as [f1 [u|e]]; exact HW.
  Qed.
  Lemma dir_below : forall x cwd ob base f, ob <> [] -> last ob 0 <> SLASH -> ~ In 5 ob -> fs_resolve f cwd ob = Ok base ->
    (forall y, get x (zs "BinData") = Ok y -> plain_names y) -> below_only base f (fst (transform_hwp5_to_dir xml xhtml css x ob cwd f)).
  Proof.
    intros x cwd ob base f HN HL H5 HR HX. unfold transform_hwp5_to_dir. destruct (xml x) as [t|e]; [|apply below_refl].
    pose proof (written_below f cwd ob base (zs "index.xhtml") (xhtml t) HN HL HR plain_index) as H1. destruct (written_file (path_join ob (zs "index.xhtml")) (xhtml t) cwd f) as [f1 [u|e]]; cbn [fst fthen] in *; [|exact H1].
    assert (HR1 : fs_resolve f1 cwd ob = Ok base) by (eapply resolve_grows; [apply H1|exact HR]).
    pose proof (written_below f1 cwd ob base (zs "styles.css") (css t) HN HL HR1 plain_styles) as H2. destruct (written_file (path_join ob (zs "styles.css")) (css t) cwd f1) as [f2 [v|e]]; cbn [fst fthen] in *; [|eapply below_trans; eassumption].
    assert (HR2 : fs_resolve f2 cwd ob = Ok base) by (eapply resolve_grows; [apply H2|exact HR1]).
    eapply below_trans; [exact H1|]. eapply below_trans; [exact H2|]. unfold extract_bindata_dir. destruct (item_in (zs "BinData") x) as [[|]|e]; try apply below_refl.
    destruct (get x (zs "BinData")) as [y|e] eqn:EG; [|apply below_refl]. specialize (HX y eq_refl).
    rewrite join_plain by (assumption || apply plain_bindata). replace (ob ++ SLASH :: zs "bindata") with (sub ob ([] ++ [zs "bindata"])) by (rewrite sub_snoc; unfold sub; cbn [map concat]; now rewrite app_nil_r).
    set (made := if fs_exists f2 cwd (sub ob ([] ++ [zs "bindata"])) then (f2, Ok tt) else fs_mkdir f2 cwd (sub ob ([] ++ [zs "bindata"]))).
    assert (HM : below_only base f2 (fst made)) by (unfold made; destruct (fs_exists f2 cwd (sub ob ([] ++ [zs "bindata"]))); [apply below_refl|apply mkdir_below; [exact HN|exact HR2|constructor; [apply plain_bindata|constructor]]]).
    destruct made as [f3 [w|e]]; cbn [fst fthen] in *; [|exact HM]. eapply below_trans; [exact HM|].
    apply unpack_confined; [exact HN|exact HL|exact H5|exact HX|constructor; [apply plain_bindata|constructor]|]. eapply resolve_grows; [apply HM|exact HR2].
  Qed.

  Theorem html_confined : forall opened dest cwd q f, names_path cwd dest q -> rooted f -> ~ In 5 dest ->
    (forall x y, opened = Ok x -> get x (zs "BinData") = Ok y -> plain_names y) ->
    forall p, ~ within q p -> fs_lookup (fst (html_dir_main opened xml xhtml css dest cwd f)) p = fs_lookup f p.
  Proof.
    intros opened dest cwd q f HP HRt H5 HX p HW. unfold html_dir_main. destruct opened as [x|e]; [|reflexivity].
    pose proof (opened_outside f cwd dest q HP p HW) as HO. destruct (names_nonempty _ _ _ HP) as (_ & HN & HL).
    destruct (open_dir dest cwd f) as [f1 [u|e]] eqn:EO; cbn [fthen fst] in *; [|exact HO].
    destruct (opened_inside _ _ _ _ _ _ HP HRt EO) as (HR & _). pose proof (dir_below x cwd dest q f1 HN HL H5 HR (fun y HY => HX x y eq_refl HY)) as [_ HB].
    destruct (transform_hwp5_to_dir xml xhtml css x dest cwd f1) as [f2 r]. cbn [fst] in *. rewrite HB; [exact HO|]. intros n r' ->. apply HW. now exists (n :: r').
  Qed.

  Lemma written_new : forall f cwd ob q n b, leads f cwd ob q -> plain n -> fs_lookup f (q ++ [n]) = None -> written_file (path_join ob n) (b, None) cwd f = ((q ++ [n], File b) :: f, Ok tt).
  Proof. intros f cwd ob q n b HL HP HN. unfold written_file, fs_write. cbn [fst snd]. rewrite (leads_child _ _ _ _ _ HL HP), HN. reflexivity. Qed.
  Theorem html_converted : forall x dest cwd q f t a b bd, names_path cwd dest q -> rooted f -> parents f q -> fs_lookup f q = Some Dir \/ fs_lookup f q = None -> ~ In 5 dest ->
    xml x = Ok t -> xhtml t = (a, None) -> css t = (b, None) -> bindata_of x bd ->
    exists f', html_dir_main (Ok x) xml xhtml css dest cwd f = (f', Exit 0) /\ fs_lookup f' q = Some Dir /\
      (forall n p, fs_lookup f' (q ++ n :: p) = at_path (html_contents a b bd) n p) /\ (forall p, ~ within q p -> fs_lookup f' p = fs_lookup f p).
  Proof.
    intros x dest cwd q f t a b bd HP HRt HPar HQD H5 HX Ha Hb HB. destruct (names_nonempty _ _ _ HP) as (HQ & HN & HL).
    destruct (opened_ok f cwd dest q HP HPar HQD) as (f1 & EO). pose proof (opened_outside f cwd dest q HP) as HOut. rewrite EO in HOut. cbn [fst] in HOut.
    destruct (opened_inside _ _ _ _ _ _ HP HRt EO) as (HR1 & HD1 & HE1).
    assert (L1 : leads f1 cwd dest q) by (constructor; [exact HR1|unfold is_dir; now rewrite HD1|exact HL]).
    unfold html_dir_main. rewrite EO. cbn [fthen]. unfold transform_hwp5_to_dir. rewrite HX, Ha, Hb.
    pose (f2 := (q ++ [zs "index.xhtml"], File a) :: f1). assert (EW2 : written_file (path_join dest (zs "index.xhtml")) (a, None) cwd f1 = (f2, Ok tt)) by (apply written_new; [exact L1|exact plain_index|apply HE1]). rewrite EW2. cbn [fthen].
    assert (B2 : below_only q f1 f2) by (apply new_below; now rewrite HE1).
    pose proof (leads_grows _ _ _ _ _ (proj1 B2) L1) as L2.
    assert (HE2 : forall n p, n :: p <> [zs "index.xhtml"] -> fs_lookup f2 (q ++ n :: p) = None).
    { intros n p HNE. unfold f2. rewrite lookup_other; [apply HE1|]. intros HX'. apply app_inv_head in HX'. contradiction. }
    assert (HS2 : fs_lookup f2 (q ++ [zs "styles.css"]) = None) by (apply HE2; discriminate). pose (f3 := (q ++ [zs "styles.css"], File b) :: f2). assert (EW3 : written_file (path_join dest (zs "styles.css")) (b, None) cwd f2 = (f3, Ok tt)) by (apply written_new; [exact L2|exact plain_styles|exact HS2]). rewrite EW3. cbn [fthen].
    assert (B3 : below_only q f2 f3) by (apply new_below; match goal with |- match ?l with _ => _ end => replace l with (@None node) by (symmetry; exact HS2) end; exact I).
    pose proof (leads_grows _ _ _ _ _ (proj1 B3) L2) as L3.
    assert (HE3 : forall n p, n :: p <> [zs "index.xhtml"] -> n :: p <> [zs "styles.css"] -> fs_lookup f3 (q ++ n :: p) = None).
    { intros n p HNE HNE'. unfold f3. rewrite lookup_other; [now apply HE2|]. intros HX'. apply app_inv_head in HX'. contradiction. }
    assert (HI3 : fs_lookup f3 (q ++ [zs "index.xhtml"]) = Some (File a)).
    { unfold f3. rewrite lookup_other; [apply lookup_same; destruct q; discriminate|]. intros HX'. apply app_inv_head in HX'. discriminate. }
    assert (HS3 : fs_lookup f3 (q ++ [zs "styles.css"]) = Some (File b)) by (apply lookup_same; destruct q; discriminate).
    assert (HO3 : forall p, ~ within q p -> fs_lookup f3 p = fs_lookup f p).
    { intros p HW. assert (HW' : forall n r, p <> q ++ n :: r) by (intros n r ->; apply HW; now exists (n :: r)). rewrite (proj2 B3), (proj2 B2) by exact HW'. now apply HOut. }
    assert (HQ3 : fs_lookup f3 q = Some Dir).
    { assert (HW' : forall n r, q <> q ++ n :: r) by (intros n r HX'; symmetry in HX'; now apply base_app_ne in HX'). rewrite (proj2 B3), (proj2 B2) by exact HW'. exact HD1. }
    unfold extract_bindata_dir, item_in. destruct HB as [HF HNI|y d HI HG HRep HPl H05 HDs].
    - replace (existsb (name_eqb (zs "BinData")) (fst (iter x))) with false.
      2:{ symmetry. apply not_true_iff_false. intros HE. apply existsb_exists in HE. destruct HE as (m & HM & HEq). apply name_eqb_eq in HEq. subst m. contradiction. }
      rewrite HF. exists f3. split; [reflexivity|]. split; [exact HQ3|]. split; [|exact HO3].
      intros n p. unfold html_contents. cbn [at_path]. destruct (name_eqb (zs "index.xhtml") n) eqn:E1.
      + apply name_eqb_eq in E1. subst n. destruct p as [|m p]; [exact HI3|]. apply HE3; discriminate.
      + apply name_eqb_neq in E1. destruct (name_eqb (zs "styles.css") n) eqn:E2.
        * apply name_eqb_eq in E2. subst n. destruct p as [|m p]; [exact HS3|]. apply HE3; discriminate.
        * apply name_eqb_neq in E2. apply HE3; congruence.
    - replace (existsb (name_eqb (zs "BinData")) (fst (iter x))) with true.
      2:{ symmetry. apply existsb_exists. exists (zs "BinData"). split; [exact HI|apply name_eqb_refl]. }
      rewrite HG. pose proof (leads_child _ _ _ _ _ L3 plain_bindata) as HC.
      destruct (unpack_main_fresh y d cwd (path_join dest (zs "bindata")) (q ++ [zs "bindata"]) f3) as (f4 & EU & HD4 & HE4 & HO4); try assumption.
      { rewrite join_plain by (assumption || apply plain_bindata). intros HX'. apply in_app_iff in HX'. destruct HX' as [HX'|HX']; [contradiction|]. cbn in HX'. intuition discriminate. }
      { rewrite join_plain by (assumption || apply plain_bindata). apply last_plain. apply plain_bindata. }
      { destruct q; discriminate. }
      { right. apply HE3; discriminate. }
      { intros n p. rewrite <- app_assoc. cbn [app]. apply HE3; discriminate. }
      unfold unpack_main in EU.
      assert (EU' : fthen (if fs_exists f3 cwd (path_join dest (zs "bindata")) then (f3, Ok tt) else fs_mkdir f3 cwd (path_join dest (zs "bindata"))) (unpack y cwd (path_join dest (zs "bindata"))) = (f4, Ok tt)).
      { destruct (if fs_exists f3 cwd (path_join dest (zs "bindata")) then (f3, Ok tt) else fs_mkdir f3 cwd (path_join dest (zs "bindata"))) as [g [u|e]]; exact EU. }
      match goal with |- context [fthen ?u ?k] => replace (fthen u k) with (f4, @Ok unit tt) by (symmetry; exact EU') end. exists f4. split; [reflexivity|].
      assert (HNW : forall p, (forall r, p <> q ++ zs "bindata" :: r) -> fs_lookup f4 p = fs_lookup f3 p).
      { intros p HNE. apply HO4; [apply HNE|]. intros n r HX'. apply (HNE (n :: r)). rewrite HX', <- app_assoc. reflexivity. }
      split; [rewrite HNW; [exact HQ3|]; intros r HX'; symmetry in HX'; now apply base_app_ne in HX'|]. split.
      + intros n p. unfold html_contents. cbn [at_path]. destruct (name_eqb (zs "index.xhtml") n) eqn:E1; [|destruct (name_eqb (zs "styles.css") n) eqn:E2; [|destruct (name_eqb (zs "bindata") n) eqn:E3]].
        * apply name_eqb_eq in E1. subst n. rewrite HNW by (intros r HX'; apply app_cons_inj in HX'; destruct HX'; discriminate). destruct p as [|m p]; [exact HI3|]. apply HE3; discriminate.
        * apply name_eqb_eq in E2. subst n. rewrite HNW by (intros r HX'; apply app_cons_inj in HX'; destruct HX'; discriminate). destruct p as [|m p]; [exact HS3|]. apply HE3; discriminate.
        * apply name_eqb_eq in E3. subst n. destruct p as [|m p]; [exact HD4|]. specialize (HE4 m p). rewrite <- app_assoc in HE4. exact HE4.
        * apply name_eqb_neq in E1, E2, E3. rewrite HNW by (intros r HX'; apply app_cons_inj in HX'; destruct HX'; congruence). apply HE3; congruence.
      + intros p HW. rewrite HNW; [now apply HO3|]. intros r ->. apply HW. now exists (zs "bindata" :: r).
  Qed.
End Html.

(** ** To a file or standard output *)

Section File.
  Variable xml : item -> res (list Z).
  Variable transform : list Z -> list Z * option exn.
  Definition result (x : item) (out : list Z) (err : option exn) : Prop :=
    (exists t, xml x = Ok t /\ transform t = (out, err)) \/ (exists e, xml x = Raise e /\ out = [] /\ err = Some e).
  Lemma result_eq : forall x out err, result x out err -> transform_hwp5 xml transform x = (out, err).
  Proof. intros x out err [(t & H1 & H2)|(e & H1 & -> & ->)]; unfold transform_hwp5; rewrite H1; [exact H2|reflexivity]. Qed.
  Theorem file_written : forall x out err p cwd q f, result x out err -> fs_resolve f cwd p = Ok q -> fs_lookup f q <> Some Dir ->
    exists f', file_main (Ok x) xml transform (Some p) cwd f = (f', [], handled (match err with Some e => Raise e | None => Ok tt end)) /\
      fs_lookup f' q = Some (File out) /\ (forall r, r <> q -> fs_lookup f' r = fs_lookup f r).
  Proof.
    intros x out err p cwd q f HX HR HD. apply result_eq in HX. destruct p as [|c p]; [discriminate|]. exists ((q, File out) :: f).
    assert (HQ : q <> []) by (intros ->; now apply HD).
    split; [|split; [now apply lookup_same|intros r HN; now apply lookup_other]].
    unfold file_main. rewrite HX. unfold written_file, fs_write. cbn [fst snd]. rewrite HR. destruct (fs_lookup f q) as [[b|]|]; [|congruence|]; reflexivity.
  Qed.
  Theorem file_unwritable : forall x p cwd f, p <> [] -> (forall q, fs_resolve f cwd p = Ok q -> fs_lookup f q = Some Dir) ->
    exists e, file_main (Ok x) xml transform (Some p) cwd f = (f, [], handled (Raise e)).
  Proof.
    intros x p cwd f HN H. destruct p as [|c p]; [congruence|]. unfold file_main, written_file, fs_write. destruct (fs_resolve f cwd (c :: p)) as [q|e]; [|eexists; reflexivity].
    rewrite (H q eq_refl). eexists. reflexivity.
  Qed.
  Theorem file_stdout : forall x out err output cwd f, result x out err -> output = None \/ output = Some [] ->
    file_main (Ok x) xml transform output cwd f = (f, out, handled (match err with Some e => Raise e | None => Ok tt end)).
  Proof. intros x out err output cwd f HX HO. apply result_eq in HX. unfold file_main. destruct HO as [->| ->]; rewrite HX; reflexivity. Qed.
End File.

(** ** The default directory *)

Lemma basename_no_slash : forall p, ~ In 47 (basename p).
Proof.
  intros p. unfold basename. assert (H : Forall (fun s => ~ In 47 s) (split_slash p) /\ split_slash p <> []).
  { induction p as [|c p [IH1 IH2]]; [split; [repeat constructor; intros []|discriminate]|]. cbn [split_slash]. destruct (c =? SLASH) eqn:E; [split; [constructor; [intros []|exact IH1]|discriminate]|].
    destruct (split_slash p) as [|s r]; [congruence|]. split; [|discriminate]. inversion IH1; subst. constructor; [|assumption]. intros [->|HI]; [discriminate|contradiction]. }
  destruct H as [H1 H2]. destruct (exists_last H2) as (a & b & HE). rewrite HE in *. rewrite last_last. apply Forall_app in H1. destruct H1 as [_ H1]. now inversion H1.
Qed.
Lemma before_last_dot_spec : forall t, match before_last_dot t with Some a => exists b, t = a ++ 46 :: b /\ ~ In 46 b | None => ~ In 46 t end.
Proof.
  induction t as [|c t IH]; [intros []|]. cbn [before_last_dot]. destruct (before_last_dot t) as [a|].
  - destruct IH as (b & -> & HB). exists b. now split.
  - destruct (c =? 46) eqn:E; [apply Z.eqb_eq in E; subst c; now exists t|]. apply Z.eqb_neq in E. intros [HX|HX]; contradiction.
Qed.
Lemma stem_spec : forall t, stem_of t (stem t).
Proof.
  intros t. unfold stem. pose proof (before_last_dot_spec t) as H. destruct (before_last_dot t) as [a|].
  - destruct H as (b & -> & HB). destruct (existsb (fun c => negb (c =? 46)) a) eqn:E.
    + apply existsb_exists in E. destruct E as (c & HC & HE). apply (so_extension a b); [exact HB|]. exists c. split; [exact HC|]. intros ->. discriminate.
    + apply so_hidden; [exact HB|]. intros c HC. destruct (Z.eq_dec c 46) as [|HN]; [assumption|]. assert (HT : existsb (fun c => negb (c =? 46)) a = true) by (apply existsb_exists; exists c; split; [exact HC|]; apply negb_true_iff, Z.eqb_neq; exact HN). congruence.
  - now apply so_none.
Qed.
Lemma split_tail : forall d b, ~ In 47 b -> basename (d ++ 47 :: b) = b.
Proof. intros d b HB. unfold basename. change (d ++ 47 :: b) with (d ++ SLASH :: b). rewrite split_last by exact HB. apply last_last. Qed.
Lemma basename_alone : forall b, ~ In 47 b -> basename b = b.
Proof.
  intros b HB. unfold basename. assert (HS : split_slash b = [b]); [|now rewrite HS]. induction b as [|c b IH]; [reflexivity|]. cbn [split_slash].
  destruct (c =? SLASH) eqn:E; [apply Z.eqb_eq in E; subst c; exfalso; apply HB; now left|]. rewrite IH; [reflexivity|]. intros HX. apply HB. now right.
Qed.
Theorem html_dest_default : forall d b, ~ In 47 b -> (d = [] \/ exists d', d = d' ++ [47]) -> stem_of b (html_dest None (d ++ b)).
Proof.
  intros d b HB HD. unfold html_dest. replace (basename (d ++ b)) with b; [apply stem_spec|]. destruct HD as [->|(d' & ->)]; [symmetry; now apply basename_alone|].
  rewrite <- app_assoc. symmetry. now apply split_tail.
Qed.
Theorem html_dest_is : forall output d b, ~ In 47 b -> (d = [] \/ exists d', d = d' ++ [47]) ->
  match output with
  | Some p => p <> [] -> html_dest output (d ++ b) = p
  | None => True
  end /\ (output = None \/ output = Some [] -> stem_of b (html_dest output (d ++ b))).
Proof.
  intros output d b HB HD. split; [destruct output as [[|c p]|]; [congruence|reflexivity|exact I]|].
  intros [->| ->]; [|change (html_dest (Some []) (d ++ b)) with (html_dest None (d ++ b))]; now apply html_dest_default.
Qed.
Lemma handled_spec : forall r, match handled r with
  | Exit c => (c = 0 /\ (r = Ok tt \/ exists e o, r = Raise (ParseError e o))) \/ (c = 1 /\ r = Raise InvalidHwp5File)
  | Raised e => r = Raise e /\ e <> InvalidHwp5File /\ forall e' o, e <> ParseError e' o
  end.
Proof.
  intros [[]|e]; [left; split; [reflexivity|now left]|]. destruct e; cbn [handled]; try (split; [reflexivity|split; [discriminate|intros; discriminate]]); [left; split; [reflexivity|right; eauto]|].
  destruct (Z.eq_dec n 2) as [->|HN]; [right; split; reflexivity|]. replace (match n with 2 => Exit 1 | _ => Raised (OtherError n) end) with (Raised (OtherError n)).
  - split; [reflexivity|]. split; [intros HX; injection HX as HX; contradiction|intros; discriminate].
  - destruct n as [|[p|[p|p|]|]|p]; try reflexivity. congruence.
Qed.
Lemma rooted_check : forall f, forallb (fun e => is_dir f (removelast (fst e))) f = true -> rooted f.
Proof.
  intros f H p n HL. unfold fs_lookup in HL. assert (HE : exists m q, p ++ [n] = m :: q) by (destruct p; cbn; eauto). destruct HE as (m & q & HE). rewrite HE in HL.
  destruct (find (fun e => path_eqb (fst e) (m :: q)) f) as [e|] eqn:EF; [|now destruct HL]. apply find_some in EF. destruct EF as [HI HQ]. apply path_eqb_eq in HQ. rewrite forallb_forall in H. specialize (H e HI). rewrite HQ, <- HE, removelast_last in H.
  unfold is_dir in H. destruct (fs_lookup f p) as [[b|]|]; try discriminate. reflexivity.
Qed.
