(** Proofs about --format and --from-stdin. *)
From Coq Require Import ZArith String List Bool Lia.
From Verif Require Import Base BaseFacts Model_Text Model_Dataio Model_Record Model_Bintype Model_Models Model_Storage Model_Readers Model_XmlText Model_Filestructure Model_Commands Model_Proc Model_Format.
From Verif Require Import Spec_Record Spec_Filestructure Spec_Storage Spec_Commands Spec_Proc Spec_Format Proof_Record Proof_Filestructure Proof_Commands Proof_Proc.
Import ListNotations.
Open Scope string_scope.
Open Scope list_scope.
Open Scope Z_scope.

(** ** Records of a stream: their sizes *)
Definition sound (r : record) : Prop := counted r /\ 0 <= r_size r.
Lemma stream_sizes : forall off sq b rs o, record_stream off sq b rs o -> Forall (fun r => 0 <= r_size r) rs.
Proof.
  intros off sq b rs o H. induction H as [| | | | | |off sq h t l n p HS HP|off sq h t l n p b rs o HS HP HE H IH]; try constructor; try exact IH; try constructor; cbn; lia.
Qed.
Lemma read_sound : forall b, all_bytes b -> Forall sound (fst (read_records (open_bytes b))).
Proof.
  intros b B. pose proof (read_counted b B) as C. destruct (read_records (open_bytes b)) as [rs o] eqn:E. apply read_records_grammar in E; [|exact B]. apply stream_sizes in E.
  rewrite Forall_forall in *. intros r I. split; [exact (C r I)|exact (E r I)].
Qed.
Lemma selected_sound : forall fuel ver s b, all_bytes b -> Forall (fun rm => sound (fst rm)) (fst (select_models fuel ver s (read_records (open_bytes b)))).
Proof.
  intros fuel ver s b B. pose proof (read_sound b B) as R. rewrite Forall_forall in R.
  assert (ALL : Forall (fun rm => sound (fst rm)) (fst (stream_models fuel ver (read_records (open_bytes b))))).
  { destruct (models_prefix fuel ver b B) as [rest P]. rewrite Forall_forall. intros rm I. apply R. rewrite P. apply in_or_app. left. apply in_map. exact I. }
  unfold select_models. destruct s as [|[|c t]|[|c t]]; try exact ALL.
  - destruct (bind _ _) as [n|e]; [|constructor]. apply Forall_forall. intros rm I.
    apply R. destruct (read_records (open_bytes b)) as [rs o]. apply (treegroup_prefix fuel ver n rs o). apply in_map. exact I.
  - destruct (bind _ _) as [[i j]|e]; [|constructor]. rewrite Forall_forall in *. intros rm I. apply ALL. exact (islice_in _ i j _ rm I).
Qed.
Lemma item_sound : forall fuel ver y, holds_bytes y -> Forall (fun rm => sound (fst rm)) (fst (item_models fuel ver y)).
Proof. intros fuel ver y H. unfold item_models. destruct (open y) as [b|e] eqn:E; [|constructor]. exact (selected_sound fuel ver AllModels b (H b E)). Qed.
Lemma stream_sound : forall fuel ver r g, (forall y, r = Ok y -> holds_bytes y) -> stream_of (item_models fuel ver) r g -> Forall (fun rm => sound (fst rm)) (fst g).
Proof. intros fuel ver r g H [(y & E & ->)|(e & E & ->)]; [apply item_sound; auto|constructor]. Qed.
Lemma streams_sound : forall fuel ver h gs, file_of_bytes h -> streams_of (item_models fuel ver) h gs -> Forall (fun g => Forall (fun rm => sound (fst rm)) (fst (snd g))) gs.
Proof.
  intros fuel ver h gs [HD HT] S. inversion S as [d t names o gs' D ET EI F|d e D ET]; subst.
  - constructor; [cbn; eapply stream_sound; [exact HD|exact D]|]. apply Forall_app. split.
    + clear EI S. induction F as [|n g names gs [_ G] _ IH]; [constructor|]. constructor; [|exact IH].
      eapply stream_sound; [|exact G]. intros y E. exact (HT t n y ET E).
    + destruct o; repeat constructor.
  - constructor; [cbn; eapply stream_sound; [exact HD|exact D]|]. repeat constructor.
Qed.

(** ** Formatting *)
Lemma pad_padded : forall fill w t, padded fill w t (pad fill w t).
Proof.
  intros fill w t. exists (Z.to_nat (w - zlen t)). unfold pad, repeat_z. split; [reflexivity|]. split; [lia|]. intros H. unfold zlen in *. rewrite app_length, repeat_length. lia.
Qed.
Lemma span_app : forall w c r, Forall (fun c => 48 <= c <= 57) w -> ascii_digit c = false -> span_digits (w ++ c :: r) = (w, c :: r).
Proof.
  induction w as [|d w IH]; intros c r F H; cbn [app span_digits]; [now rewrite H|]. inversion F; subst. replace (ascii_digit d) with true by (unfold ascii_digit; lia). now rewrite IH.
Qed.
Lemma width_numeral : forall t n, numeral t n -> width_of t = n.
Proof. intros t n H. unfold width_of. induction H as [d Hd|l n d H IH Hn Hd]; [cbn; lia|]. rewrite fold_left_app. cbn [fold_left]. rewrite IH. lia. Qed.
Lemma numeral_head : forall t n, numeral t n -> 0 < n -> exists c r, t = c :: r /\ 49 <= c <= 57.
Proof. intros t n H. induction H as [d Hd|l n d H IH Hn Hd]; intros P; [exists (48 + d), []; split; [reflexivity|lia]|]. destruct (IH Hn) as (c & r & -> & HC). exists c, (r ++ [48 + d]). auto. Qed.
Lemma width_parsed : forall w n, width_says w n -> Forall (fun c => 48 <= c <= 57) w /\ width_of w = n /\ (w = [] \/ exists c r, w = c :: r /\ 49 <= c <= 57).
Proof.
  intros w n [|t m H P]; [split; [constructor|split; [reflexivity|now left]]|]. split; [eapply numeral_ascii; exact H|]. split; [now apply width_numeral|]. right. exact (numeral_head t m H P).
Qed.
Lemma flags_parsed : forall (zero : bool) w c r, (w = [] \/ exists d s, w = d :: s /\ 49 <= d <= 57) -> c =? 48 = false -> drop_zeros ((if zero then zs "0" else []) ++ w ++ c :: r) = (zero, w ++ c :: r).
Proof.
  intros zero w c r H HC. assert (E : drop_zeros (w ++ c :: r) = (false, w ++ c :: r)).
  { destruct H as [->|(d & s & -> & HD)]; cbn [app drop_zeros]; [now rewrite HC|]. replace (d =? 48) with false by lia. reflexivity. }
  destruct zero; [|exact E]. change (drop_zeros (48 :: w ++ c :: r) = (true, w ++ c :: r)). cbn [drop_zeros]. change (48 =? 48) with true. cbv iota. now rewrite E.
Qed.
Lemma converted : forall v (zero : bool) w n (number : bool) r, width_says w n -> (number = true -> exists k, v = VInt k) ->
  conversion v ((if zero then zs "0" else []) ++ w ++ (if number then zs "d" else zs "s") ++ r) =
  Some (Ok (match v with VInt k => pad (if zero && number then 48 else 32) n (fmt_d k) | VText t => pad 32 n t end, r)).
Proof.
  intros v zero w n number r HW HN. destruct (width_parsed w n HW) as (F & E & H). unfold conversion. destruct number.
  - change (zs "d" ++ r) with (100 :: r). rewrite flags_parsed by (try assumption; reflexivity). rewrite span_app by (try assumption; reflexivity). rewrite E. destruct (HN eq_refl) as (k & ->). now rewrite andb_true_r.
  - change (zs "s" ++ r) with (115 :: r). rewrite flags_parsed by (try assumption; reflexivity). rewrite span_app by (try assumption; reflexivity). rewrite E, andb_false_r. now destruct v.
Qed.
Lemma key_ends : forall key r, ~ In 40 key -> ~ In 41 key -> key_end 0 (key ++ 41 :: r) = Some (key, r).
Proof.
  induction key as [|c key IH]; intros r H1 H2; [reflexivity|]. cbn [app key_end]. replace (c =? 41) with false by (symmetry; apply Z.eqb_neq; intros ->; apply H2; now left).
  replace (c =? 40) with false by (symmetry; apply Z.eqb_neq; intros ->; apply H1; now left). rewrite IH; [reflexivity|intros X; apply H1; now right|intros X; apply H2; now right].
Qed.

Lemma drop_length : forall t, (List.length (snd (drop_zeros t)) <= List.length t)%nat.
Proof. induction t as [|c t IH]; cbn [drop_zeros]; [reflexivity|]. destruct (c =? 48); cbn [snd List.length]; lia. Qed.
Lemma span_length : forall t, (List.length (snd (span_digits t)) <= List.length t)%nat.
Proof. induction t as [|c t IH]; cbn [span_digits]; [reflexivity|]. destruct (ascii_digit c); cbn [snd List.length]; lia. Qed.

(** Texts and values are taken one after another. *)
Definition piece_out (env : list Z -> res value) (p : piece) (out : list Z) : Prop :=
  match p with
  | Lit t => ~ In 37 t /\ out = t
  | Percent => out = [37]
  | Val key zero w number => exists v n, env key = Ok v /\ width_says w n /\ (number = true -> exists k, v = VInt k) /\ ~ In 40 key /\ ~ In 41 key /\
      out = match v with VInt k => pad (if zero && number then 48 else 32) n (fmt_d k) | VText t => pad 32 n t end
  end.
Lemma format_lit : forall env t k r, ~ In 37 t -> format_fuel (List.length t + k) env (t ++ r) = match format_fuel k env r with Some (Ok o) => Some (Ok (t ++ o)) | x => x end.
Proof.
  intros env. induction t as [|c t IH]; intros k r H; [cbn [app List.length plus]; destruct (format_fuel k env r) as [[o|e]|]; reflexivity|].
  cbn [app List.length plus format_fuel]. replace (c =? 37) with false by (symmetry; apply Z.eqb_neq; intros ->; apply H; now left).
  rewrite IH by (intros X; apply H; now right). destruct (format_fuel k env r) as [[o|e]|]; reflexivity.
Qed.
Lemma format_more : forall env k t, (List.length t <= k)%nat -> forall k', (k <= k')%nat -> format_fuel k' env t = format_fuel k env t.
Proof.
  intros env. induction k as [|k IH]; intros t HL k' HK.
  - destruct t; [destruct k'; reflexivity|cbn in HL; lia].
  - destruct k' as [|k']; [lia|]. destruct t as [|c r]; [reflexivity|]. cbn [List.length] in HL. cbn [format_fuel].
    assert (X : forall rest, (List.length rest <= List.length r)%nat -> format_fuel k' env rest = format_fuel k env rest) by (intros rest HR; apply IH; lia).
    destruct (c =? 37); [|now rewrite X].
    destruct r as [|d r1]; [reflexivity|]. destruct (d =? 37); [rewrite X by (cbn [List.length]; lia); reflexivity|]. destruct (d =? 40); [|reflexivity].
    destruct (key_end 0 r1) as [[key r2]|] eqn:EK; [|reflexivity]. destruct (env key) as [v|e]; [|reflexivity].
    assert (L2 : (List.length r2 <= List.length r1)%nat).
    { clear -EK. revert EK. generalize O as dep. revert key r2. induction r1 as [|c r1 IH]; intros key r2 dep; cbn [key_end]; [discriminate|].
      assert (M : forall dd, match key_end dd r1 with Some (k, r') => Some (c :: k, r') | None => None end = Some (key, r2) -> (List.length r2 <= S (List.length r1))%nat).
      { intros dd. destruct (key_end dd r1) as [[k' r']|] eqn:E; [|discriminate]. intros X. injection X as _ <-. specialize (IH _ _ _ E). lia. }
      cbn [List.length]. destruct (c =? 41); [destruct dep; [intros E; injection E as _ <-; lia|apply M]|destruct (c =? 40); apply M]. }
    destruct (conversion v r2) as [[[out rest]|e]|] eqn:EC; [|reflexivity|reflexivity].
    assert (L3 : (List.length rest <= List.length r2)%nat).
    { clear -EC. unfold conversion in EC. pose proof (drop_length r2) as D. destruct (drop_zeros r2) as [z t1]. pose proof (span_length t1) as D2. destruct (span_digits t1) as [w t2]. cbn [snd] in *. destruct t2 as [|c r]; [discriminate|]. cbn [List.length] in *.
      destruct (c =? 115); [injection EC as _ <-; lia|]. destruct (c =? 100); [destruct v; [injection EC as _ <-; lia|discriminate]|]. destruct (c =? 37); [injection EC as _ <-; lia|discriminate]. }
    rewrite X by (cbn [List.length]; lia). reflexivity.
Qed.

Lemma format_percent : forall env k r, format_fuel (S k) env (37 :: 37 :: r) = match format_fuel k env r with Some (Ok o) => Some (Ok ([37] ++ o)) | x => x end.
Proof. reflexivity. Qed.
Lemma format_key : forall env k t key r v out rest, key_end 0 t = Some (key, r) -> env key = Ok v -> conversion v r = Some (Ok (out, rest)) ->
  format_fuel (S k) env (37 :: 40 :: t) = match format_fuel k env rest with Some (Ok o) => Some (Ok (out ++ o)) | x => x end.
Proof. intros env k t key r v out rest H1 H2 H3. change (format_fuel (S k) env (37 :: 40 :: t)) with (match key_end 0 t with None => Some (Raise ValueError) | Some (key, r2) => match env key with Raise e => Some (Raise e) | Ok v => match conversion v r2 with None => None | Some (Raise e) => Some (Raise e) | Some (Ok (out, rest)) => match format_fuel k env rest with Some (Ok o) => Some (Ok (out ++ o)) | x => x end end end end). now rewrite H1, H2, H3. Qed.
Lemma format_pieces : forall env ps outs, Forall2 (piece_out env) ps outs -> format_dict env (format_text ps) = Some (Ok (concat outs)).
Proof.
  intros env ps outs H. unfold format_dict. induction H as [|p out ps outs HP _ IH]; [reflexivity|]. unfold format_text in *. cbn [map concat]. rewrite app_length.
  set (r := concat (map piece_text ps)) in *. destruct p as [t| |key zero w number]; cbn [piece_text piece_out] in *.
  - destruct HP as [HN ->]. rewrite format_lit by exact HN. now rewrite IH.
  - subst out. change (zs "%%" ++ r) with (37 :: 37 :: r). change (List.length (zs "%%") + List.length r)%nat with (S (S (List.length r))). rewrite format_percent.
    rewrite (format_more env (List.length r) r (le_n _)) by lia. now rewrite IH.
  - destruct HP as (v & n & EV & HW & HN & H1 & H2 & ->). rewrite <- !app_assoc.
    set (L := (_ + List.length r)%nat). assert (HL : exists k, L = S k /\ (List.length r <= k)%nat) by (unfold L; rewrite !app_length; change (List.length (zs "%(")) with 2%nat; match goal with |- exists k, (2 + ?a + List.length r)%nat = _ /\ _ => exists (1 + a + List.length r)%nat end; lia).
    destruct HL as (k & -> & HK).
    pose proof (format_key env k _ _ _ v _ _ (key_ends key _ H1 H2) EV (converted v zero w n number r HW HN)) as E. refine (eq_trans E _). rewrite (format_more env (List.length r) r (le_n _)) by lia. now rewrite IH.
Qed.

(** ** The values of a model *)
Definition entries_of (at_ : option (name * name)) (rm : record * model) : list (string * res value) :=
  match at_ with Some (fn, st) => find_entries fn st rm | None => record_entries rm end.
Lemma fine_shows : forall other at_ rm p, sound (fst rm) -> fine_piece (match at_ with Some _ => true | None => false end) p ->
  exists out, piece_out (fun key => lookup_key key (entries_of at_ rm) (other rm)) p out /\ shows at_ rm p out.
Proof.
  intros other at_ rm p HS HF. destruct p as [t| |key zero w number].
  - exists t. split; [split; [exact HF|reflexivity]|constructor].
  - exists [37]. split; [reflexivity|constructor].
  - destruct HF as ((n & HW) & HK). destruct HS as [[[(HR1 & HR2 & HR3) _] (q & Q0 & EQ)] HZ]. unfold raw_of, tag_ok in *. cbn in HR1, HR2, HR3.
    assert (NUM : forall k, number_field rm key k -> 0 <= k -> ~ In 40 key -> ~ In 41 key -> lookup_key key (entries_of at_ rm) (other rm) = Ok (VInt k) -> exists out, piece_out (fun key => lookup_key key (entries_of at_ rm) (other rm)) (Val key zero w number) out /\ shows at_ rm (Val key zero w number) out).
    { intros k NF K0 H1 H2 E. exists (pad (if zero && number then 48 else 32) n (fmt_d k)). split.
      - exists (VInt k), n. repeat (split; [assumption|]). split; [intros _; now exists k|]. auto.
      - eapply sh_number; [exact NF|apply numeral_of; exact K0|exact HW|apply pad_padded]. }
    assert (TEXT : forall t, number = false -> text_field at_ rm key t -> ~ In 40 key -> ~ In 41 key -> lookup_key key (entries_of at_ rm) (other rm) = Ok (VText t) -> exists out, piece_out (fun key => lookup_key key (entries_of at_ rm) (other rm)) (Val key zero w number) out /\ shows at_ rm (Val key zero w number) out).
    { intros t -> TF H1 H2 E. exists (pad 32 n t). split.
      - exists (VText t), n. repeat (split; [assumption|]). split; [discriminate|]. auto.
      - eapply sh_text; [exact TF|exact HW|apply pad_padded]. }
    destruct HK as [HK|[-> HK]].
    + destruct HK as [<-|[<-|[<-|[<-|[]]]]].
      * apply (NUM q); [now constructor|exact Q0|cbn; intuition discriminate|cbn; intuition discriminate|]. destruct at_ as [[fn st]|]; cbn; now rewrite EQ.
      * apply (NUM (r_tagid (fst rm))); [constructor|lia|cbn; intuition discriminate|cbn; intuition discriminate|]. destruct at_ as [[fn st]|]; reflexivity.
      * apply (NUM (r_level (fst rm))); [constructor|lia|cbn; intuition discriminate|cbn; intuition discriminate|]. destruct at_ as [[fn st]|]; reflexivity.
      * apply (NUM (r_size (fst rm))); [constructor|lia|cbn; intuition discriminate|cbn; intuition discriminate|]. destruct at_ as [[fn st]|]; reflexivity.
    + apply in_app_iff in HK as [HK|HK].
      * destruct HK as [<-|[<-|[]]].
        -- apply (TEXT (r_tagname (fst rm))); [reflexivity|constructor|cbn; intuition discriminate|cbn; intuition discriminate|]. destruct at_ as [[fn st]|]; reflexivity.
        -- apply (TEXT (zs (m_type (snd rm)))); [reflexivity|constructor|cbn; intuition discriminate|cbn; intuition discriminate|]. destruct at_ as [[fn st]|]; reflexivity.
      * destruct at_ as [[fn st]|]; [|destruct HK]. destruct HK as [<-|[<-|[]]].
        -- apply (TEXT fn); [reflexivity|now apply (tf_filename _ _ fn st)|cbn; intuition discriminate|cbn; intuition discriminate|reflexivity].
        -- apply (TEXT st); [reflexivity|now apply (tf_stream _ _ fn st)|cbn; intuition discriminate|cbn; intuition discriminate|reflexivity].
Qed.
Lemma fine_formatted : forall cpython other at_ rm ps, sound (fst rm) -> Forall (fine_piece (match at_ with Some _ => true | None => false end)) ps ->
  exists out, formatted cpython other (entries_of at_ rm) (format_text ps) rm = Ok out /\ shows_all at_ rm ps out.
Proof.
  intros cpython other at_ rm ps HS HF.
  assert (H : exists outs, Forall2 (piece_out (fun key => lookup_key key (entries_of at_ rm) (other rm))) ps outs /\ Forall2 (shows at_ rm) ps outs).
  { induction HF as [|p ps HP _ (outs & I1 & I2)]; [exists []; split; constructor|]. destruct (fine_shows other at_ rm p HS HP) as (out & O1 & O2). exists (out :: outs). split; constructor; assumption. }
  destruct H as (outs & F1 & F2). exists (concat outs). unfold formatted. rewrite (format_pieces _ ps outs F1). split; [reflexivity|]. exists outs. auto.
Qed.

(** ** find *)
Definition format_says (ps : list piece) (fn st : name) (rm : record * model) (l : list Z) : Prop := shows_all (Some (fn, st)) rm ps l.
Section Find.
  Variable cpython : list Z -> record * model -> res (list Z).
  Variable other : record * model -> list Z -> res value.
  Lemma default_line : forall format fn sm, format = None \/ format = Some [] -> format_line cpython other format fn sm = find_line fn sm.
  Proof.
    intros format fn [st [r m]] HF. unfold format_line. replace (find_format format) with (find_format None) by (destruct HF as [->| ->]; reflexivity).
    unfold formatted. cbn [fst snd]. destruct (r_seqno r) as [n|] eqn:E.
    - pose proof (format_pieces (fun key => lookup_key key (find_entries fn st (r, m)) (other (r, m)))
        [Val (zs "filename") false [] false; Lit [32]; Val (zs "stream") false [] false; Lit [32]; Val (zs "seqno") false [] false; Lit [32]; Val (zs "tagname") false [] false; Lit [32]; Val (zs "type") false [] false]
        [fn; [32]; st; [32]; fmt_d n; [32]; r_tagname r; [32]; zs (m_type m)]) as H.
      assert (P : forall t : list Z, pad 32 0 t = t) by (intros t; unfold pad, repeat_z; replace (Z.to_nat (0 - zlen t)) with O by (unfold zlen; lia); reflexivity).
      change (format_text _) with (find_format None) in H. rewrite H.
      + cbn [bind find_line concat]. rewrite E. f_equal. rewrite <- !app_assoc. reflexivity.
      + assert (V : forall key v t, lookup_key key (find_entries fn st (r, m)) (other (r, m)) = Ok v -> str_value v = t -> ~ In 40 key -> ~ In 41 key -> piece_out (fun key => lookup_key key (find_entries fn st (r, m)) (other (r, m))) (Val key false [] false) t).
        { intros key v t HV HT H1 H2. exists v, 0. split; [exact HV|]. split; [constructor|]. split; [discriminate|]. split; [exact H1|]. split; [exact H2|]. destruct v; cbn in HT; subst t; cbn [andb]; now rewrite P. }
        assert (B : forall env, piece_out env (Lit [32]) [32]) by (intros env; split; [cbn; intuition discriminate|reflexivity]).
        repeat (constructor; [first [apply B | eapply V; [cbn; try rewrite E; reflexivity|reflexivity|cbn; intuition discriminate|cbn; intuition discriminate]]|]). constructor.
    - unfold format_dict, lookup_key, find_entries, record_entries. cbn [find_line]. rewrite E. cbn. rewrite E. reflexivity.
  Qed.
  Lemma map_gen_ext : forall A B (f g : A -> res B) l o, (forall x, f x = g x) -> map_gen f l o = map_gen g l o.
  Proof. intros A B f g l o H. induction l as [|x l IH]; [reflexivity|]. cbn [map_gen]. rewrite H, IH. reflexivity. Qed.
  Lemma find_default : forall fuel format f inc files, format = None \/ format = Some [] -> find_main_with cpython other fuel format f inc files = find_main fuel f inc files.
  Proof.
    intros fuel format f inc files HF. unfold find_main_with, find_main. destruct (find_condition f inc) as [cond|e]; [|reflexivity]. induction files as [|[fn fl] files IH]; [reflexivity|]. cbn [find_files_with find_files].
    assert (E : find_file_with cpython other fuel format cond fn fl = find_file fuel cond fn fl).
    { unfold find_file_with, find_file. destruct fl as [[h v]|e]; [|reflexivity]. apply map_gen_ext. intros x. now apply default_line. }
    rewrite E, IH. reflexivity.
  Qed.

  Lemma format_lines : forall ps fn xs o, format_text ps <> [] -> Forall (fine_piece true) ps -> Forall (fun x => sound (fst (snd x))) xs ->
    exists ls, map_gen (format_line cpython other (Some (format_text ps)) fn) xs o = (map (fun l => l ++ [10]) ls, o) /\ Forall2 (fun x l => format_says ps fn (fst x) (snd x) l) xs ls.
  Proof.
    intros ps fn xs o HN HF F. induction F as [|[st rm] xs S _ (ls & IH1 & IH2)]; [exists []; split; [reflexivity|constructor]|].
    destruct (fine_formatted cpython other (Some (fn, st)) rm ps S HF) as (out & E & SH). exists (out :: ls). split.
    - cbn [map_gen]. unfold format_line at 1. cbn [fst snd]. replace (find_format (Some (format_text ps))) with (format_text ps) by (destruct (format_text ps); [congruence|reflexivity]).
      cbn [entries_of] in E. rewrite E. cbn [bind]. rewrite IH1. reflexivity.
    - constructor; [exact SH|exact IH2].
  Qed.
  Lemma file_formatted : forall fuel cond P ps fn f, format_text ps <> [] -> Forall (fine_piece true) ps -> (forall rm, tagged rm -> (cond rm = true <-> P rm)) -> (forall h v, f = Ok (h, v) -> file_of_bytes h) ->
    exists ls o, find_file_with cpython other fuel (Some (format_text ps)) cond fn f = (map (fun l => l ++ [10]) ls, o) /\ file_says (item_models fuel) P (format_says ps fn) f ls o.
  Proof.
    intros fuel cond P ps fn f HN HF C B. destruct f as [[h v]|e]; [|exists [], (Failed e); split; [reflexivity|split; reflexivity]]. specialize (B h v eq_refl).
    unfold find_file_with. destruct (flat_streams _ (item_models fuel v) h) as (gs & S & T). destruct (flat_models (item_models fuel v) h) as [xs o]. cbn [fst snd] in *.
    pose proof (in_turn_forall _ _ _ _ _ T (streams_sound fuel v h gs B S)) as F.
    destruct (format_lines ps fn (filter (fun sm => cond (snd sm)) xs) o HN HF) as (ls & E & F2).
    { rewrite Forall_forall in *. intros x I. apply filter_In in I as [I _]. auto. }
    exists ls, o. split; [exact E|]. exists gs, xs, (filter (fun sm => cond (snd sm)) xs). split; [exact S|]. split; [exact T|]. split; [|exact F2].
    apply picked_filter. eapply Forall_impl; [|exact F]. intros x [Q _]. apply C. destruct Q as [(_ & _ & Q) _]. exact Q.
  Qed.
  Lemma files_formatted : forall fuel cond P ps files, format_text ps <> [] -> Forall (fine_piece true) ps -> (forall rm, tagged rm -> (cond rm = true <-> P rm)) -> files_of_bytes files ->
    exists ls o, find_files_with cpython other fuel (Some (format_text ps)) cond files = (map (fun l => l ++ [10]) ls, o) /\ files_say (item_models fuel) P (format_says ps) files ls o.
  Proof.
    intros fuel cond P ps files HN HF C B. induction B as [|[fn f] files B1 _ (ls' & o' & IH1 & IH2)]; [exists [], Finished; split; [reflexivity|constructor]|].
    destruct (file_formatted fuel cond P ps fn f HN HF C B1) as (ls & o & E & S). cbn [find_files_with]. rewrite E.
    assert (Next : (o = Finished \/ exists c p, o = Failed (ParseError c p)) -> gapp (map (fun l => l ++ [10]) ls) (find_files_with cpython other fuel (Some (format_text ps)) cond files) = (map (fun l => l ++ [10]) (ls ++ ls'), o') /\
      files_say (item_models fuel) P (format_says ps) ((fn, f) :: files) (ls ++ ls') o').
    { intros Q. split; [|eapply fs_next; eassumption]. rewrite IH1. unfold gapp. cbn [fst snd]. rewrite map_app. reflexivity. }
    destruct o as [|e|].
    - exists (ls ++ ls'), o'. apply Next. auto.
    - destruct e; try (exists ls; eexists; split; [reflexivity|]; apply fs_stop; [exact S|discriminate|discriminate]).
      exists (ls ++ ls'), o'. apply Next. right. eauto.
    - exists ls, OutOfFuel. split; [reflexivity|]. apply fs_stop; [exact S|discriminate|discriminate].
  Qed.
  Lemma find_formatted : forall fuel ps f inc files, format_text ps <> [] -> Forall (fine_piece true) ps -> (forall t n, f = WithTag t -> int_text t n -> In n (map fst documented_tags)) -> files_of_bytes files ->
    exists ls o, find_main_with cpython other fuel (Some (format_text ps)) f inc files = (map (fun l => l ++ [10]) ls, o) /\ files_say (item_models fuel) (wanted f inc) (format_says ps) files ls o.
  Proof.
    intros fuel ps f inc files HN HF D B. destruct (condition_holds f inc D) as (cond & E & C). unfold find_main_with. rewrite E. apply files_formatted; assumption.
  Qed.
End Find.

(** ** Escapes *)
Lemma ascii_encoded : forall t, Forall (fun c => 0 <= c < 128) t -> utf8_encode t = Ok t.
Proof. intros t H. induction H as [|c t HC _ IH]; [reflexivity|]. cbn [utf8_encode]. unfold utf8_char. replace (c <? 0x80) with true by lia. cbn [bind]. rewrite IH. reflexivity. Qed.
Lemma hex_lower : forall h acc v, hex_number_of acc h = Some v -> hex_value acc h = Some v.
Proof.
  induction h as [|c h IH]; intros acc v H; [exact H|]. cbn [hex_number_of hex_value] in *. unfold hex_digit_of in H. unfold hex_digit_value.
  destruct ((48 <=? c) && (c <? 58)) eqn:E1; [replace ((48 <=? c) && (c <=? 57)) with true by lia; now apply IH|].
  replace ((48 <=? c) && (c <=? 57)) with false by lia. destruct ((97 <=? c) && (c <? 103)) eqn:E2; [|discriminate]. replace ((97 <=? c) && (c <=? 102)) with true by lia. now apply IH.
Qed.
Lemma firstn_h : forall (h r : list Z) n, zlen h = n -> firstn (Z.to_nat n) (h ++ r) = h /\ skipn (Z.to_nat n) (h ++ r) = r /\ n <=? zlen (h ++ r) = true.
Proof.
  intros h r n H. assert (E : Z.to_nat n = List.length h) by (unfold zlen in H; lia). rewrite E. rewrite firstn_app, Nat.sub_diag, firstn_all, app_nil_r, skipn_app, Nat.sub_diag, skipn_all.
  split; [reflexivity|]. split; [reflexivity|]. apply Z.leb_le. unfold zlen in *. rewrite app_length. lia.
Qed.
Lemma escapes_decoded : forall named t out, reads_back t out -> code_text out -> forall k, (List.length t <= k)%nat -> decode_escapes named k t = Ok out.
Proof.
  intros named t out H. induction H as [|c r t HC H IH|r t H IH|r t H IH|r t H IH|r t H IH|h v r t HL HV H IH|h v r t HL HV H IH|h v r t HL HV H IH]; intros HO k HK.
  - now destruct k.
  - inversion HO; subst. destruct k as [|k]; [cbn in HK; lia|]. cbn [List.length] in HK. cbn [decode_escapes]. replace (c =? 92) with false by lia. rewrite IH by (try assumption; lia). reflexivity.
  - inversion HO; subst. destruct k as [|k]; [cbn in HK; lia|]. cbn [List.length] in HK. change (bind (decode_escapes named k r) (fun o => Ok ([92] ++ o)) = Ok (92 :: t)). rewrite IH by (try assumption; lia). reflexivity.
  - inversion HO; subst. destruct k as [|k]; [cbn in HK; lia|]. cbn [List.length] in HK. change (bind (decode_escapes named k r) (fun o => Ok ([9] ++ o)) = Ok (9 :: t)). rewrite IH by (try assumption; lia). reflexivity.
  - inversion HO; subst. destruct k as [|k]; [cbn in HK; lia|]. cbn [List.length] in HK. change (bind (decode_escapes named k r) (fun o => Ok ([10] ++ o)) = Ok (10 :: t)). rewrite IH by (try assumption; lia). reflexivity.
  - inversion HO; subst. destruct k as [|k]; [cbn in HK; lia|]. cbn [List.length] in HK. change (bind (decode_escapes named k r) (fun o => Ok ([13] ++ o)) = Ok (13 :: t)). rewrite IH by (try assumption; lia). reflexivity.
  - inversion HO; subst. destruct k as [|k]; [cbn in HK; lia|]. cbn [List.length] in HK. destruct (firstn_h h r 2 HL) as (E1 & E2 & E3).
    change (decode_escapes named (S k) (92 :: 120 :: h ++ r)) with (if 2 <=? zlen (h ++ r) then match hex_value 0 (firstn (Z.to_nat 2) (h ++ r)) with Some v => if v <? 0x110000 then bind (decode_escapes named k (skipn (Z.to_nat 2) (h ++ r))) (fun o => Ok ([v] ++ o)) else Raise UnicodeDecodeError | None => Raise UnicodeDecodeError end else Raise UnicodeDecodeError).
    rewrite E3, E1, E2, (hex_lower _ _ _ HV). replace (v <? 0x110000) with true by lia. rewrite app_length in HK. rewrite IH by (try assumption; lia). reflexivity.
  - inversion HO; subst. destruct k as [|k]; [cbn in HK; lia|]. cbn [List.length] in HK. destruct (firstn_h h r 4 HL) as (E1 & E2 & E3).
    change (decode_escapes named (S k) (92 :: 117 :: h ++ r)) with (if 4 <=? zlen (h ++ r) then match hex_value 0 (firstn (Z.to_nat 4) (h ++ r)) with Some v => if v <? 0x110000 then bind (decode_escapes named k (skipn (Z.to_nat 4) (h ++ r))) (fun o => Ok ([v] ++ o)) else Raise UnicodeDecodeError | None => Raise UnicodeDecodeError end else Raise UnicodeDecodeError).
    rewrite E3, E1, E2, (hex_lower _ _ _ HV). replace (v <? 0x110000) with true by lia. rewrite app_length in HK. rewrite IH by (try assumption; lia). reflexivity.
  - inversion HO; subst. destruct k as [|k]; [cbn in HK; lia|]. cbn [List.length] in HK. destruct (firstn_h h r 8 HL) as (E1 & E2 & E3).
    change (decode_escapes named (S k) (92 :: 85 :: h ++ r)) with (if 8 <=? zlen (h ++ r) then match hex_value 0 (firstn (Z.to_nat 8) (h ++ r)) with Some v => if v <? 0x110000 then bind (decode_escapes named k (skipn (Z.to_nat 8) (h ++ r))) (fun o => Ok ([v] ++ o)) else Raise UnicodeDecodeError | None => Raise UnicodeDecodeError end else Raise UnicodeDecodeError).
    rewrite E3, E1, E2, (hex_lower _ _ _ HV). replace (v <? 0x110000) with true by lia. rewrite app_length in HK. rewrite IH by (try assumption; lia). reflexivity.
Qed.
Lemma unescaped : forall named t out, Forall (fun c => 0 <= c < 128) t -> reads_back t out -> code_text out -> unicode_unescape named t = Ok out.
Proof. intros named t out HA HR HO. unfold unicode_unescape. rewrite ascii_encoded by exact HA. cbn [bind]. now apply escapes_decoded. Qed.
Lemma unescape_escape : forall named t, code_text t -> unicode_unescape named (unicode_escape t) = Ok t.
Proof. intros named t H. destruct (escaped t H) as [HP HR]. apply unescaped; [|exact HR|exact H]. eapply Forall_impl; [|exact HP]. cbn. intros c HC. lia. Qed.

(** ** models *)
Lemma models_formatted : forall cpython other named fuel version s b fmt ps ms o, all_bytes b -> select_models fuel version s (read_records (open_bytes b)) = (ms, o) ->
  Forall (fun c => 0 <= c < 128) fmt -> reads_back fmt (format_text ps) -> code_text (format_text ps) -> Forall (fine_piece false) ps ->
  exists outs, models_format cpython other named fmt (select_models fuel version s (read_records (open_bytes b))) = (outs, o) /\ Forall2 (fun rm out => shows_all None rm ps out) ms outs.
Proof.
  intros cpython other named fuel version s b fmt ps ms o B E HA HR HC HF. pose proof (selected_sound fuel version s b B) as F. rewrite E in F |- *. cbn [fst] in F. unfold models_format. rewrite (unescaped named fmt _ HA HR HC). cbn [fst snd].
  clear E. induction F as [|rm ms S _ (outs & I1 & I2)]; [exists []; split; [reflexivity|constructor]|].
  destruct (fine_formatted cpython other None rm ps S HF) as (out & E & SH). cbn [entries_of] in E. exists (out :: outs). split; [|constructor; assumption]. cbn [map_gen]. rewrite E, I1. reflexivity.
Qed.

(** ** What is shown is determined *)
Lemma padded_fun : forall fill w t o o', padded fill w t o -> padded fill w t o' -> o = o'.
Proof.
  intros fill w t o o' (k & -> & A & B) (k' & -> & A' & B'). do 2 f_equal. destruct (Z_le_gt_dec w (zlen t)) as [H|H]; [rewrite (A H), (A' H); reflexivity|].
  assert (X : zlen t < w) by lia. specialize (B X). specialize (B' X). unfold zlen in *. rewrite app_length, repeat_length in B, B'. lia.
Qed.
Lemma numeral_det : forall t n m, numeral t n -> numeral t m -> n = m.
Proof. intros t n m H1 H2. rewrite <- (width_numeral t n H1). exact (width_numeral t m H2). Qed.
Lemma width_det : forall w n m, width_says w n -> width_says w m -> n = m.
Proof.
  intros w n m H1 H2. destruct (width_parsed w n H1) as (_ & E1 & _). destruct (width_parsed w m H2) as (_ & E2 & _). congruence.
Qed.
Lemma number_det : forall rm key n m, number_field rm key n -> number_field rm key m -> n = m.
Proof. intros rm key n m H1 H2. inversion H1; subst; inversion H2; subst; try congruence; discriminate. Qed.
Lemma text_det : forall at_ rm key n m, text_field at_ rm key n -> text_field at_ rm key m -> n = m.
Proof. intros at_ rm key n m H1 H2. inversion H1; subst; inversion H2; subst; congruence. Qed.
Lemma not_both : forall at_ rm key n t, number_field rm key n -> text_field at_ rm key t -> False.
Proof. intros at_ rm key n t H1 H2. inversion H1; subst; inversion H2; subst; discriminate. Qed.
Lemma shows_det : forall at_ rm p o o', shows at_ rm p o -> shows at_ rm p o' -> o = o'.
Proof.
  intros at_ rm p o o' H1 H2. inversion H1 as [t|  |key zero w number n t width out NF NT W P|key zero w t width out TF W P]; subst; inversion H2 as [t'|  |key' zero' w' number' n' t' width' out' NF' NT' W' P'|key' zero' w' t' width' out' TF' W' P']; subst; try reflexivity.
  - rewrite (number_det _ _ _ _ NF' NF) in NT'. rewrite <- (numeral_fmt _ _ NT) in P. rewrite <- (numeral_fmt _ _ NT') in P'. rewrite (width_det _ _ _ W' W) in P'. exact (padded_fun _ _ _ _ _ P P').
  - exfalso. exact (not_both _ _ _ _ _ NF TF').
  - exfalso. exact (not_both _ _ _ _ _ NF' TF).
  - rewrite (text_det _ _ _ _ _ TF' TF), (width_det _ _ _ W' W) in P'. exact (padded_fun _ _ _ _ _ P P').
Qed.
Lemma shows_all_det : forall at_ rm ps o o', shows_all at_ rm ps o -> shows_all at_ rm ps o' -> o = o'.
Proof.
  intros at_ rm ps o o' (l & F & ->) (l' & F' & ->). f_equal. revert l' F'. induction F as [|p x ps l H F IH]; intros l' F'; inversion F'; subst; [reflexivity|]. f_equal; [eapply shows_det; eassumption|auto].
Qed.

(** ** Names from standard input *)
Lemma lines_cons : forall n r, ~ In 10 n -> text_lines (n ++ 10 :: r) = (n ++ [10]) :: text_lines r.
Proof.
  induction n as [|c n IH]; intros r H; [reflexivity|]. cbn [app text_lines]. replace (c =? 10) with false by (symmetry; apply Z.eqb_neq; intros ->; apply H; now left). now rewrite IH by (intros X; apply H; now right).
Qed.
Lemma names_read : forall names, Forall (fun n => ~ In 10 n) names -> filenames_from_stdin (concat (map (fun n => n ++ [10]) names)) = names.
Proof.
  intros names H. unfold filenames_from_stdin. induction H as [|n names HN _ IH]; [reflexivity|]. cbn [map concat]. rewrite <- app_assoc. cbn [app]. rewrite lines_cons by exact HN. cbn [map]. rewrite removelast_last, IH. reflexivity.
Qed.
Lemma last_line : forall n, ~ In 10 n -> text_lines n = match n with [] => [] | _ => [n] end.
Proof.
  induction n as [|c n IH]; intros H; [reflexivity|]. cbn [text_lines]. replace (c =? 10) with false by (symmetry; apply Z.eqb_neq; intros ->; apply H; now left). rewrite IH by (intros X; apply H; now right). now destruct n.
Qed.
Lemma last_name : forall names n, Forall (fun n => ~ In 10 n) names -> ~ In 10 n -> n <> [] -> filenames_from_stdin (concat (map (fun n => n ++ [10]) names) ++ n) = names ++ [removelast n].
Proof.
  intros names n H HN HE. unfold filenames_from_stdin. induction H as [|m names HM _ IH]; [cbn [map concat app]; rewrite last_line by exact HN; now destruct n|].
  cbn [map concat]. rewrite <- !app_assoc. cbn [app]. rewrite lines_cons by exact HM. cbn [map]. rewrite removelast_last, IH. reflexivity.
Qed.

(** ** Errors *)
Lemma missing_key : forall env ps outs key rest e, Forall2 (piece_out env) ps outs -> ~ In 40 key -> ~ In 41 key -> env key = Raise e ->
  format_dict env (format_text ps ++ zs "%(" ++ key ++ zs ")" ++ rest) = Some (Raise e).
Proof.
  intros env ps outs key rest e H H1 H2 HE. unfold format_dict. set (tail := zs "%(" ++ key ++ zs ")" ++ rest).
  assert (T : forall k, format_fuel (S k) env tail = Some (Raise e)).
  { intros k. unfold tail. change (match key_end 0 (key ++ 41 :: rest) with None => Some (Raise ValueError) | Some (key, r2) => match env key with Raise e => Some (Raise e) | Ok v => match conversion v r2 with None => None | Some (Raise e) => Some (Raise e) | Some (Ok (out, rest)) => match format_fuel k env rest with Some (Ok o) => Some (Ok (out ++ o)) | x => x end end end end = Some (Raise e)). rewrite key_ends by assumption. now rewrite HE. }
  assert (L : exists k, List.length tail = S k) by (unfold tail; rewrite app_length; change (List.length (zs "%(")) with 2%nat; eexists; reflexivity). destruct L as (tl & L).
  induction H as [|p out ps outs HP _ IH]; [cbn [format_text map concat app]; rewrite L; apply T|]. unfold format_text in *. cbn [map concat]. rewrite <- app_assoc, app_length. set (r := concat (map piece_text ps) ++ tail) in *.
  destruct p as [t| |key' zero w number]; cbn [piece_text piece_out] in *.
  - destruct HP as [HN ->]. rewrite format_lit by exact HN. now rewrite IH.
  - change (zs "%%" ++ r) with (37 :: 37 :: r). change (List.length (zs "%%") + List.length r)%nat with (S (S (List.length r))). rewrite format_percent.
    rewrite (format_more env (List.length r) r (le_n _)) by lia. now rewrite IH.
  - destruct HP as (v & n & EV & HW & HN & H1' & H2' & ->). rewrite <- !app_assoc.
    set (M := (_ + List.length r)%nat). assert (HL : exists k, M = S k /\ (List.length r <= k)%nat) by (unfold M; rewrite !app_length; change (List.length (zs "%(")) with 2%nat; match goal with |- exists k, (2 + ?a + List.length r)%nat = _ /\ _ => exists (1 + a + List.length r)%nat end; lia).
    destruct HL as (k & -> & HK).
    pose proof (format_key env k _ _ _ v _ _ (key_ends key' _ H1' H2') EV (converted v zero w n number r HW HN)) as E. refine (eq_trans E _). rewrite (format_more env (List.length r) r (le_n _)) by lia. now rewrite IH.
Qed.
