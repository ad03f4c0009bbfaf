(** The command hwp5odt. *)
From Coq Require Import ZArith String List Bool Lia.
From Verif Require Import Base BaseFacts Model_Text Model_Storage Model_Filestructure Model_Convert Model_Odt Model_OdtMain Spec_Storage Spec_Convert Spec_XmlText Spec_Odt Spec_OdtMain
  Proof_Storage Proof_Unpack Proof_Odt Proof_Convert.
Import ListNotations.
Open Scope Z_scope.

Lemma storable_streams : forall x, bindata_named x -> bindata_storable (bindata_streams x).
Proof.
  intros x H. unfold bindata_streams. assert (E : forall e : exn, Forall (fun s : name * res (list Z) => Forall xml_char (fst s) /\ zlen (fst s) <= 16375) [([], Raise e)]) by (intros e; constructor; [split; [constructor|vm_compute; discriminate]|constructor]).
  destruct (item_in _ x) as [[|]|e]; [|exact I|exact (E e)]. destruct (get x (zs "BinData")) as [y|e] eqn:G; [|exact (E e)].
  cbn. apply Forall_app. split; [|destruct (snd (iter y)); [constructor|exact (E e)|constructor]..]. apply Forall_map. exact (H y G).
Qed.
Lemma name_in : forall n l, In n l <-> existsb (name_eqb n) l = true.
Proof.
  intros n l. rewrite existsb_exists. split.
  - intros H. exists n. split; [exact H|]. unfold name_eqb. destruct (list_eq_dec Z.eq_dec n n); congruence.
  - intros (m & H & E). unfold name_eqb in E. destruct (list_eq_dec Z.eq_dec n m); [now subst|discriminate].
Qed.
Definition streams_list (x : item) : list (name * res (list Z)) := match bindata_streams x with Some l => l | None => [] end.
Lemma images_streams : forall x l, images_of x l -> streams_list x = map (fun s => (fst s, Ok (snd s))) l.
Proof.
  intros x l H. unfold streams_list, bindata_streams, item_in. destruct H as [HF HN|y l HI HG HL HO].
  - destruct (existsb (name_eqb (zs "BinData")) (fst (iter x))) eqn:E; [apply name_in in E; contradiction|]. rewrite HF. reflexivity.
  - apply name_in in HI. rewrite HI, HG, HL. cbn [fst snd]. rewrite app_nil_r, map_map. apply map_ext_in. intros s HS. rewrite Forall_forall in HO. destruct (HO s HS) as (z & GZ & OZ).
    unfold read_item. now rewrite GZ, OZ.
Qed.
Lemma until_all : forall l, until_failure (map (fun f => mkInsertion (fst (fst f)) (snd (fst f)) (Ok (snd f))) l) = (l, Ok tt).
Proof. induction l as [|[[p m] d] l IH]; [reflexivity|]. cbn [map until_failure fst snd]. now rewrite IH. Qed.
Lemma intended_files : forall a b x l, images_of x l -> intended (Ok a) (Ok b) (bindata_streams x) = map (fun f => mkInsertion (fst (fst f)) (snd (fst f)) (Ok (snd f))) (package_files a b l).
Proof.
  intros a b x l H. pose proof (images_streams x l H) as E. unfold streams_list in E. unfold package_files. rewrite map_app, map_map. destruct (bindata_streams x) as [k|].
  - subst k. unfold intended. rewrite map_map. reflexivity.
  - destruct l; [reflexivity|discriminate].
Qed.
Lemma write_twice : forall f cwd p q a b, fs_resolve f cwd p = Ok q -> fs_lookup f q <> Some Dir ->
  exists f1, fs_write f cwd p a = (f1, Ok tt) /\ exists f2, fs_write f1 cwd p b = (f2, Ok tt) /\ fs_lookup f2 q = Some (File b) /\ forall r, r <> q -> fs_lookup f2 r = fs_lookup f r.
Proof.
  intros f cwd p q a b HR HD. assert (HQ : q <> []) by (intros ->; now apply HD). exists ((q, File a) :: f). split.
  - unfold fs_write. rewrite HR. destruct (fs_lookup f q) as [[c|]|]; [reflexivity|congruence|reflexivity].
  - assert (G : grows f ((q, File a) :: f)).
    { intros r HRr. unfold is_dir in *. destruct (list_eq_dec (list_eq_dec Z.eq_dec) r q) as [->|N]; [destruct (fs_lookup f q) as [[|]|]; try discriminate; congruence|]. now rewrite lookup_other. }
    pose proof (resolve_grows _ _ _ _ _ G HR) as HR2. exists ((q, File b) :: (q, File a) :: f). split; [|split].
    + unfold fs_write. rewrite HR2. rewrite lookup_same by exact HQ. reflexivity.
    + now rewrite lookup_same.
    + intros r N. now rewrite !lookup_other.
Qed.

Section Main.
  Variable xml : bool -> item -> res (list Z).
  Variables document styles content : list Z -> list Z * option exn.
  Variable archive : list (list Z * list Z) -> list Z.

  (** Whatever happens: a finished package with files that are the first ones of
      those intended. *)
  Lemma package_any : forall x embed no_embed output hwp5path cwd q f, bindata_named x -> fs_resolve f cwd (odt_dest output hwp5path) = Ok q -> fs_lookup f q <> Some Dir ->
    exists f' files r entries, odt_main (Ok x) xml document styles content archive Package embed no_embed output hwp5path cwd f = (f', [], handled r) /\
      fs_lookup f' q = Some (File (archive entries)) /\ finished_package files entries /\ (forall p, p <> q -> fs_lookup f' p = fs_lookup f p) /\
      (files, r) = match xml embed x with Ok t => until_failure (intended (whole (styles t)) (whole (content t)) (bindata_streams x)) | Raise e => ([], Raise e) end.
  Proof.
    intros x embed no_embed output hwp5path cwd q f HB HR HD. unfold odt_main, package_main. cbn [embedbin]. set (dest := odt_dest output hwp5path) in *. clearbody dest.
    pose proof (storable_streams x HB) as SB.
    destruct (xml embed x) as [t|e] eqn:EX.
    - destruct (Proof_Odt.conversion_package (Ok tt) (whole (styles t)) (whole (content t)) (bindata_streams x) SB) as (p & E & F & _). cbv zeta in E, F.
      destruct (until_failure (intended (whole (styles t)) (whole (content t)) (bindata_streams x))) as [files r]. cbn [fst snd] in *.
      destruct (write_twice f cwd dest q [] (archive (k_entries p)) HR HD) as (f1 & W1 & f2 & W2 & L & O). rewrite W1. cbn [fthen]. rewrite E. cbn [fst snd]. rewrite W2. cbn [fthen].
      exists f2, files, r, (k_entries p). repeat (split; [first [reflexivity|assumption]|]). reflexivity.
    - destruct (Proof_Odt.conversion_package (Raise e) (Raise e) (Raise e) (bindata_streams x) SB) as (p & E & F & _). cbv zeta in E, F.
      destruct (write_twice f cwd dest q [] (archive (k_entries p)) HR HD) as (f1 & W1 & f2 & W2 & L & O). rewrite W1. cbn [fthen]. rewrite E. cbn [fst snd]. rewrite W2. cbn [fthen].
      exists f2, [], (Raise e), (k_entries p). repeat (split; [first [reflexivity|assumption]|]). reflexivity.
  Qed.
  Lemma whole_ok : forall out a, out = (a, None) -> whole out = Ok a.
  Proof. intros out a ->. reflexivity. Qed.
  Lemma package_made : forall x embed no_embed output hwp5path cwd q f t a b images, bindata_named x -> fs_resolve f cwd (odt_dest output hwp5path) = Ok q -> fs_lookup f q <> Some Dir ->
    xml embed x = Ok t -> styles t = (a, None) -> content t = (b, None) -> images_of x images ->
    exists f' entries, odt_main (Ok x) xml document styles content archive Package embed no_embed output hwp5path cwd f = (f', [], Exit 0) /\
      fs_lookup f' q = Some (File (archive entries)) /\ finished_package (package_files a b images) entries /\ (forall p, p <> q -> fs_lookup f' p = fs_lookup f p).
  Proof.
    intros x embed no_embed output hwp5path cwd q f t a b images HB HR HD EX ES EC HI. destruct (package_any x embed no_embed output hwp5path cwd q f HB HR HD) as (f' & files & r & entries & E & L & F & O & U).
    rewrite EX, (whole_ok _ _ ES), (whole_ok _ _ EC), (intended_files a b x images HI), until_all in U. injection U as -> ->. exists f', entries. auto.
  Qed.
  (** What comes before the first failure *)
  Lemma until_prefix : forall l, fst (until_failure l) = readable (firstn (List.length (fst (until_failure l))) l).
  Proof. induction l as [|[p m [d|e]] l IH]; [reflexivity| |reflexivity]. cbn [until_failure]. destruct (until_failure l) as [g o]. cbn [fst List.length firstn readable] in *. now rewrite <- IH. Qed.
  Lemma until_result : forall l, snd (until_failure l) = Ok tt \/ exists e, snd (until_failure l) = Raise e /\ In (Raise e) (map n_data l).
  Proof. induction l as [|[p m [d|e]] l IH]; [now left| |]; cbn [until_failure map n_data]. - destruct (until_failure l) as [g o]. cbn [snd] in *. destruct IH as [IH|(e & E & H)]; [now left|right; exists e; split; [exact E|now right]]. - right. exists e. split; [reflexivity|now left]. Qed.
End Main.

(** ** The name of the package *)
Lemma stem_nonempty : forall b s, stem_of b s -> b <> [] -> s <> [].
Proof. intros b s H HB. destruct H as [t H|a c H (d & HD & _)|a c H1 H2]; [exact HB|intros ->; contradiction|intros E; apply app_eq_nil in E as [_ E]; discriminate]. Qed.

Definition ok_insertion (f : list Z * list Z * list Z) : insertion := mkInsertion (fst (fst f)) (snd (fst f)) (Ok (snd f)).
Lemma until_first : forall l p m e r, until_failure (map ok_insertion l ++ mkInsertion p m (Raise e) :: r) = (l, Raise e).
Proof. induction l as [|[[p' m'] d] l IH]; intros p m e r; [reflexivity|]. cbn [map app until_failure ok_insertion fst snd]. now rewrite IH. Qed.
Lemma intended_some : forall a b l r, intended (Ok a) (Ok b) (Some (map (fun s => (fst s, Ok (snd s))) l ++ r)) =
  map ok_insertion (package_files a b l) ++ map (fun s => mkInsertion (zs "bindata/" ++ fst s) (zs "application/octet-stream") (snd s)) r.
Proof. intros a b l r. unfold intended, package_files. rewrite !map_app, !map_map, <- app_assoc. reflexivity. Qed.
Lemma read_ok : forall y l, Forall (fun s => exists z, get y (fst s) = Ok z /\ open z = Ok (snd s)) l -> map (read_item y) (map fst l) = map (fun s => (fst s, Ok (snd s))) l.
Proof.
  intros y l H. rewrite map_map. apply map_ext_in. intros s HS. rewrite Forall_forall in H. destruct (H s HS) as (z & GZ & OZ). unfold read_item. now rewrite GZ, OZ.
Qed.
Lemma breaks_until : forall xml styles content x files e, breaks_off xml styles content x files e ->
  match xml x with Ok t => until_failure (intended (whole (styles t)) (whole (content t)) (bindata_streams x)) | Raise e => ([], Raise e) end = (files, Raise e).
Proof.
  intros xml styles content x files e H. destruct H as [e EX|t a e EX ES|t a b e EX ES EC|t a b e EX ES EC HI HG|t a b y l n rest o e EX ES EC HI HG HL HO HF|t a b y l e EX ES EC HI HG HL HO]; rewrite EX; [reflexivity|..]; rewrite ES; [reflexivity|..]; rewrite EC; [reflexivity|..];
    cbn [whole fst snd]; unfold bindata_streams, item_in; apply name_in in HI; rewrite HI, HG.
  - reflexivity.
  - rewrite HL. cbn [fst snd]. rewrite map_app, <- app_assoc, (read_ok y l HO), intended_some. cbn [map app].
    assert (E : read_item y n = (n, Raise e)) by (unfold read_item; destruct HF as [->|(z & -> & ->)]; reflexivity). rewrite E. cbn [fst snd]. apply until_first.
  - rewrite HL. cbn [fst snd]. rewrite (read_ok y l HO), intended_some. cbn [map fst snd]. apply until_first.
Qed.
Lemma package_broken : forall xml document styles content archive x embed no_embed output hwp5path cwd q f files e, bindata_named x -> fs_resolve f cwd (odt_dest output hwp5path) = Ok q -> fs_lookup f q <> Some Dir ->
  breaks_off (xml embed) styles content x files e ->
  exists f' entries, odt_main (Ok x) xml document styles content archive Package embed no_embed output hwp5path cwd f = (f', [], handled (Raise e)) /\
    fs_lookup f' q = Some (File (archive entries)) /\ finished_package files entries /\ (forall p, p <> q -> fs_lookup f' p = fs_lookup f p).
Proof.
  intros xml document styles content archive x embed no_embed output hwp5path cwd q f files e HB HR HD H. destruct (package_any xml document styles content archive x embed no_embed output hwp5path cwd q f HB HR HD) as (f' & files' & r & entries & E & L & F & O & U).
  rewrite (breaks_until _ _ _ _ _ _ H) in U. injection U as -> ->. exists f', entries. auto.
Qed.

Lemma odt_dest_is : forall output d b, ~ In 47 b -> (d = [] \/ exists d', d = d' ++ [47]) ->
  match output with Some p => p <> [] -> odt_dest output (d ++ b) = p | None => True end /\
  (output = None \/ output = Some [] -> exists s, stem_of b s /\ odt_dest output (d ++ b) = s ++ zs ".odt").
Proof.
  intros output d b HB HD. destruct (html_dest_is output d b HB HD) as [H1 H2]. split.
  - destruct output as [[|c p]|]; [congruence|reflexivity|exact I].
  - intros HO. exists (html_dest output (d ++ b)). split; [now apply H2|]. destruct HO as [->| ->]; reflexivity.
Qed.
Lemma write_only : forall f cwd p b r q, (forall g, fs_resolve g cwd p = Ok r -> r = q) -> r <> q -> fs_lookup (fst (fs_write f cwd p b)) r = fs_lookup f r.
Proof.
  intros f cwd p b r q H N. unfold fs_write. destruct (fs_resolve f cwd p) as [s|e] eqn:E; [|reflexivity]. assert (N' : r <> s) by (intros <-; exact (N (H f E))).
  destruct (fs_lookup f s) as [[c|]|]; cbn [fst]; [now apply lookup_other|reflexivity|now apply lookup_other].
Qed.
Lemma stem_plain : forall b s, plain b -> stem_of b s -> plain (s ++ zs ".odt").
Proof.
  intros b s (P1 & P2 & P3 & P4 & P5) H. assert (I : incl s b).
  { destruct H as [t _|a c _ _|a c _ _]; [apply incl_refl|apply incl_appl, incl_refl|apply incl_refl]. }
  assert (X : forall c, In c (s ++ zs ".odt") -> In c b \/ In c (zs ".odt")) by (intros c HC; apply in_app_iff in HC as [HC|HC]; [left; now apply I|now right]).
  repeat split; try (intros E; apply (f_equal (@List.length Z)) in E; rewrite app_length in E; cbn in E; lia).
  - intros HC. apply X in HC as [HC|HC]; [contradiction|cbn in HC; intuition discriminate].
  - intros HC. apply X in HC as [HC|HC]; [contradiction|cbn in HC; intuition discriminate].
Qed.
Lemma joined_snoc : forall p b, Forall plain p -> joined (p ++ [b]) = b \/ exists d, joined (p ++ [b]) = (d ++ [47]) ++ b.
Proof.
  induction p as [|n p IH]; intros b HP; [now left|]. inversion HP as [|? ? _ HP']; subst. right. cbn [app]. rewrite joined_cons by (destruct p; discriminate). destruct (IH b HP') as [->|(d & ->)].
  - exists n. now rewrite <- app_assoc.
  - exists (n ++ [47] ++ d). now rewrite <- !app_assoc.
Qed.
Lemma input_kept : forall opened xml document styles content archive embed no_embed cwd hwp5path d b f, names_path cwd hwp5path (d ++ [b]) -> (forall c, b <> c ++ zs ".odt") ->
  fs_lookup (fst (fst (odt_main opened xml document styles content archive Package embed no_embed None hwp5path cwd f))) (d ++ [b]) = fs_lookup f (d ++ [b]).
Proof.
  intros opened xml document styles content archive embed no_embed cwd hwp5path d b f HN HE. destruct opened as [x|e]; [|reflexivity].
  assert (B : exists d', hwp5path = d' ++ b /\ (d' = [] \/ exists d'', d' = d'' ++ [47]) /\ plain b).
  { inversion HN as [p H1 H2 E1 E2|p H1 H2 E1 E2]; subst.
    - destruct p as [|b' p _] using rev_ind; [congruence|]. rewrite app_assoc in E2. apply app_inj_tail in E2 as [_ ->]. apply Forall_app in H2 as [H2 H3]. inversion H3 as [|? ? PB _]; subst.
      destruct (joined_snoc p b H2) as [->|(d' & ->)]; [exists []; auto|]. exists (d' ++ [47]). split; [reflexivity|]. split; [right; now exists d'|exact PB].
    - apply Forall_app in H2 as [H2 H3]. inversion H3 as [|? ? PB _]; subst. destruct (joined_snoc d b H2) as [->|(d' & ->)].
      + exists [47]. split; [reflexivity|]. split; [right; now exists []|exact PB].
      + exists (47 :: d' ++ [47]). split; [reflexivity|]. split; [right; exists (47 :: d'); reflexivity|exact PB]. }
  destruct B as (d' & EP & HD & PB). destruct (odt_dest_is None d' b ltac:(destruct PB as (_ & _ & _ & P & _); exact P) HD) as [_ HS]. destruct (HS (or_introl eq_refl)) as (s & SO & ED0). pose proof (eq_trans (f_equal (odt_dest None) EP) ED0) as ED.
  unfold odt_main. cbn [embedbin]. rewrite ED. unfold package_main.
  assert (R : forall g r, fs_resolve g cwd (s ++ zs ".odt") = Ok r -> r = cwd ++ [s ++ zs ".odt"]).
  { intros g r. apply (names_resolve_inv g cwd (s ++ zs ".odt")). apply (np_relative cwd [s ++ zs ".odt"]); [discriminate|]. constructor; [exact (stem_plain b s PB SO)|constructor]. }
  assert (N : d ++ [b] <> cwd ++ [s ++ zs ".odt"]) by (intros E; apply app_inj_tail in E as [_ E]; exact (HE s E)).
  set (dest := s ++ zs ".odt") in *. pose proof (fun g c => write_only g cwd dest c (d ++ [b]) _ (fun g => R g _) N) as W.
  pose proof (W f []) as W1. destruct (fs_write f cwd dest []) as [f1 [u|e]]; cbn [fthen fst] in *; [|exact W1]. destruct (convert_to_package _ _ _ _) as [r p]. cbn [fst snd].
  pose proof (W f1 (archive (k_entries p))) as W2. destruct (fs_write f1 cwd dest (archive (k_entries p))) as [f2 [u2|e2]]; cbn [fthen fst] in *; now rewrite W2.
Qed.
