(** Proofs about the commands of hwp5proc. *)
From Coq Require Import ZArith String List Bool Lia Permutation.
From Verif Require Import Base BaseFacts Model_Text Model_Dataio Model_Record Model_Readers Model_Bintype Model_Models Model_Classes Model_Layouts Model_Tree Model_Storage Model_Filestructure Model_Json Model_Proc.
From Verif Require Import Proof_Filestructure Spec_Record Spec_Filestructure Spec_Proc Proof_Text Proof_Record Proof_Sections Proof_Models Proof_JsonModels.
Import ListNotations.
Open Scope Z_scope.

(** ** Arguments *)

Lemma int_arg_iff : forall t n, int_arg t = Ok n <-> int_text t n.
Proof.
  intros t n. unfold int_arg. rewrite <- py_int_iff. destruct (py_int t) as [m|]; split; intros H; inversion H; reflexivity.
Qed.
Lemma int_arg_cases : forall t, (exists n, int_text t n /\ int_arg t = Ok n) \/ ((forall n, ~ int_text t n) /\ int_arg t = Raise ValueError).
Proof.
  intros t. destruct (py_int t) as [n|] eqn:E.
  - left. exists n. split; [apply py_int_iff; exact E|unfold int_arg; rewrite E; reflexivity].
  - right. split; [|unfold int_arg; rewrite E; reflexivity]. intros n H. apply py_int_iff in H. congruence.
Qed.
Lemma islice_arg_cases : forall n, (countable n /\ islice_arg n = Ok (Z.to_nat n)) \/ (~ countable n /\ islice_arg n = Raise ValueError).
Proof.
  intros n. unfold islice_arg, countable, MAXSIZE. destruct ((0 <=? n) && (n <=? 2 ^ 63 - 1)) eqn:E; [left|right]; (split; [|reflexivity]); lia.
Qed.

Lemma split_once_spec : forall c t, match split_once c t with
  | (a, None) => a = t /\ ~ In c t
  | (a, Some b) => t = a ++ c :: b /\ ~ In c a
  end.
Proof.
  intros c. induction t as [|x t IH]; cbn [split_once]; [split; [reflexivity|intros []]|].
  destruct (Z.eqb_spec x c) as [->|N]; [split; [reflexivity|intros []]|].
  destruct (split_once c t) as [a [b|]]; destruct IH as [E I].
  - split; [cbn; congruence|]. intros [H|H]; [congruence|auto].
  - split; [cbn; congruence|]. intros [H|H]; [congruence|auto].
Qed.
Lemma first_split : forall c (a b a' b' : list Z), ~ In c a -> ~ In c a' -> a ++ c :: b = a' ++ c :: b' -> a = a' /\ b = b'.
Proof.
  intros c. induction a as [|x a IH]; intros b [|x' a'] b' N N' E; cbn in E; inversion E; subst.
  - auto.
  - exfalso. apply N'. left. reflexivity.
  - exfalso. apply N. left. reflexivity.
  - destruct (IH b a' b') as [-> ->]; [intros I; apply N; right; exact I|intros I; apply N'; right; exact I|assumption|auto].
Qed.

Lemma range_says_fun : forall t a b a' b', range_says t a b -> range_says t a' b' -> a = a' /\ b = b'.
Proof.
  intros t a b a' b' H H'. inversion H as [t1 n N I|x y m n N I J]; subst; inversion H' as [t2 n' N' I' E1|x' y' m' n' N' I' J' E1]; subst.
  - rewrite (int_text_value _ _ _ I I'). auto.
  - exfalso. apply N. apply in_or_app. right. left. reflexivity.
  - exfalso. apply N'. apply in_or_app. right. left. reflexivity.
  - apply first_split in E1 as [-> ->]; [|assumption|assumption]. split; eapply int_text_value; eassumption.
Qed.

Lemma range_arg_spec : forall t,
  (exists a b, range_says t a b /\ countable a /\ countable b /\ range_arg t = Ok (SelRange (Z.to_nat a) (Z.to_nat b))) \/
  ((forall a b, range_says t a b -> countable a -> countable b -> False) /\ range_arg t = Raise ValueError).
Proof.
  intros t. unfold range_arg. pose proof (split_once_spec 45 t) as S. destruct (split_once 45 t) as [x [y|]]; destruct S as [E N].
  - subst t. destruct (int_arg_cases x) as [(a & Ia & ->)|[Nx ->]].
    + destruct (int_arg_cases y) as [(b & Ib & ->)|[Ny ->]]; cbn [bind].
      * pose proof (rg_two x y a b N Ia Ib) as R. destruct (islice_arg_cases a) as [[Ca ->]|[Ca ->]]; [destruct (islice_arg_cases b) as [[Cb ->]|[Cb ->]]|]; cbn [bind].
        -- left. exists a, b. auto.
        -- right. split; [|reflexivity]. intros a' b' R' _ C'. destruct (range_says_fun _ _ _ _ _ R R') as [<- <-]. auto.
        -- right. split; [|reflexivity]. intros a' b' R' C' _. destruct (range_says_fun _ _ _ _ _ R R') as [<- <-]. auto.
      * right. split; [|reflexivity]. intros a' b' R' _ _. inversion R' as [t1 n N' I|x' y' m n N' I J E]; subst.
        -- apply N'. apply in_or_app. right. left. reflexivity.
        -- apply first_split in E as [-> ->]; [|assumption|assumption]. exact (Ny _ J).
    + right. split; [|reflexivity]. intros a' b' R' _ _. inversion R' as [t1 n N' I|x' y' m n N' I J E]; subst.
      * apply N'. apply in_or_app. right. left. reflexivity.
      * apply first_split in E as [-> ->]; [|assumption|assumption]. exact (Nx _ I).
  - subst x. destruct (int_arg_cases t) as [(a & Ia & ->)|[Nx ->]]; cbn [bind].
    + pose proof (rg_one t a N Ia) as R. destruct (islice_arg_cases a) as [[Ca ->]|[Ca ->]]; [destruct (islice_arg_cases (a + 1)) as [[Cb ->]|[Cb ->]]|]; cbn [bind].
      * left. exists a, (a + 1). auto.
      * right. split; [|reflexivity]. intros a' b' R' _ C'. destruct (range_says_fun _ _ _ _ _ R R') as [<- <-]. auto.
      * right. split; [|reflexivity]. intros a' b' R' C' _. destruct (range_says_fun _ _ _ _ _ R R') as [<- <-]. auto.
    + right. split; [|reflexivity]. intros a' b' R' _ _. inversion R' as [t1 n N' I|x' y' m n N' I J E]; subst; [exact (Nx _ I)|].
      apply N. apply in_or_app. right. left. reflexivity.
Qed.

(** ** What is known of records that were read *)

Definition fit (r : record) : Prop := raw_ok (raw_of r) /\ raw_nonempty (raw_of r) /\ r_tagname r = tagname (r_tagid r).

Lemma stream_facts : forall off sq b rs o, record_stream off sq b rs o ->
  Forall fit rs /\ forall i r, nth_error rs i = Some r -> r_seqno r = Some (sq + Z.of_nat i).
Proof.
  intros off sq b rs o H. induction H as [| | | | | |off sq h t l n p HS HP|off sq h t l n p b rs o HS HP HE H IH];
    try (split; [constructor|intros [|i] r E; discriminate E]).
  - split.
    + constructor; [|constructor]. unfold fit, raw_of, raw_nonempty, raw_ok, record_of. cbn. inversion HS; subst; unfold tag_ok in *; (split; [lia|]); (split; [|reflexivity]); intros ->; rewrite zlen_nil in *; lia.
    + intros [|[|i]] r E; try discriminate E. inversion E; subst. cbn. f_equal. lia.
  - destruct IH as [IH1 IH2]. split.
    + constructor; [|exact IH1]. unfold fit, raw_of, raw_nonempty, raw_ok, record_of. cbn. inversion HS; subst; unfold tag_ok in *; (split; [lia|]); (split; [|reflexivity]); intros ->; rewrite zlen_nil in *; lia.
    + intros [|i] r E; [inversion E; subst; cbn; f_equal; lia|]. cbn in E. rewrite (IH2 i r E). f_equal. lia.
Qed.
Lemma read_facts : forall b, all_bytes b ->
  Forall fit (fst (read_records (open_bytes b))) /\ forall i r, nth_error (fst (read_records (open_bytes b))) i = Some r -> r_seqno r = Some (Z.of_nat i).
Proof.
  intros b B. destruct (read_records (open_bytes b)) as [rs o] eqn:E. apply read_records_grammar in E; [|exact B]. exact (stream_facts _ _ _ _ _ E).
Qed.

Definition counted (r : record) : Prop := fit r /\ exists n, 0 <= n /\ r_seqno r = Some n.
Lemma read_counted : forall b, all_bytes b -> Forall counted (fst (read_records (open_bytes b))).
Proof.
  intros b B. destruct (read_facts b B) as [F N]. rewrite Forall_forall in *. intros r I. split; [auto|]. apply In_nth_error in I as [i I]. exists (Z.of_nat i). split; [lia|auto].
Qed.
Lemma selected_counted : forall b sel, all_bytes b -> Forall counted (fst (select_records sel (read_records (open_bytes b)))).
Proof.
  intros b sel B. pose proof (read_counted b B) as F. rewrite Forall_forall in *. intros r I. apply F. exact (selected_in sel _ r I).
Qed.

(** ** Picking by number *)

Lemma picked_none : forall A (P : A -> Prop) l, Forall (fun x => ~ P x) l -> picked P l [].
Proof. intros A P l H. induction H; constructor; assumption. Qed.
Lemma picked_all : forall A (P : A -> Prop) l, Forall P l -> picked P l l.
Proof. intros A P l H. induction H; constructor; assumption. Qed.
Lemma picked_app : forall A (P : A -> Prop) a a' b b', picked P a a' -> picked P b b' -> picked P (a ++ b) (a' ++ b').
Proof. intros A P a a' b b' H H'. induction H; cbn; [exact H'| |]; constructor; assumption. Qed.
Lemma picked_fun : forall A (P : A -> Prop) l a b, picked P l a -> picked P l b -> a = b.
Proof.
  intros A P l a b H. revert b. induction H as [|x xs ys Px H IH|x xs ys Px H IH]; intros b H'; inversion H'; subst; try contradiction; [reflexivity| |].
  - f_equal. apply IH. assumption.
  - apply IH. assumption.
Qed.

Definition numbered (m n : Z) (r : record) : Prop := exists k, r_seqno r = Some k /\ m <= k < n.
Lemma range_picks : forall rs (i j : nat), (forall k r, nth_error rs k = Some r -> r_seqno r = Some (Z.of_nat k)) ->
  picked (numbered (Z.of_nat i) (Z.of_nat j)) rs (firstn (j - i) (skipn i rs)).
Proof.
  intros rs i j N.
  assert (G : forall l off, (forall k r, nth_error l k = Some r -> r_seqno r = Some (Z.of_nat (off + k))) ->
    picked (numbered (Z.of_nat i) (Z.of_nat j)) l (firstn (j - Nat.max i off) (skipn (i - off) l))).
  { induction l as [|r l IH]; intros off H; [rewrite skipn_nil, firstn_nil; constructor|].
    pose proof (H O r eq_refl) as H0. rewrite Nat.add_0_r in H0.
    assert (H' : forall k r0, nth_error l k = Some r0 -> r_seqno r0 = Some (Z.of_nat (S off + k))) by (intros k r0 E; rewrite (H (S k) r0 E); do 2 f_equal; lia).
    specialize (IH (S off) H'). destruct (Nat.le_gt_cases i off) as [L|L].
    - replace (i - off)%nat with O by lia. cbn [skipn]. replace (i - S off)%nat with O in IH by lia. cbn [skipn] in IH. rewrite Nat.max_r in * by lia.
      destruct (Nat.le_gt_cases j off) as [L'|L'].
      + replace (j - off)%nat with O by lia. replace (j - S off)%nat with O in IH by lia. cbn [firstn] in *. apply pk_skip; [|exact IH]. intros (k & E & K). rewrite H0 in E. inversion E; subst. lia.
      + replace (j - off)%nat with (S (j - S off)) by lia. cbn [firstn]. apply pk_take; [|exact IH]. exists (Z.of_nat off). split; [exact H0|lia].
    - rewrite Nat.max_l in * by lia. replace (i - off)%nat with (S (i - S off)) by lia. cbn [skipn]. apply pk_skip; [|exact IH]. intros (k & E & K). rewrite H0 in E. inversion E; subst. lia. }
  specialize (G rs O N). rewrite Nat.max_0_r, Nat.sub_0_r in G. exact G.
Qed.

(** ** Lines *)

Lemma decimal_snoc : forall l c, decimal_value (l ++ [c]) = 10 * decimal_value l + (c - 48).
Proof. intros l c. unfold decimal_value. rewrite fold_left_app. reflexivity. Qed.
Lemma decimal_digits : forall l, decimal_value (map decdigit l) = of_digits 10 l.
Proof.
  induction l as [|d l IH] using rev_ind; [reflexivity|]. rewrite map_app. cbn [map]. rewrite decimal_snoc, IH. unfold of_digits. rewrite fold_left_app. cbn [fold_left]. unfold decdigit. lia.
Qed.
Lemma decimal_zeros : forall k l, decimal_value (repeat 48 k ++ l) = decimal_value l.
Proof. induction k as [|k IH]; intros l; [reflexivity|]. cbn [repeat app]. rewrite <- (IH l). unfold decimal_value. reflexivity. Qed.

Lemma zero_pad_number : forall n, 0 <= n -> number4 (zero_pad 4 (fmt_d n)) n.
Proof.
  intros n H. unfold fmt_d. destruct (n <? 0) eqn:E; [lia|]. destruct (digits_spec 10 n) as (V & F & NE & HD); [lia|lia|].
  remember (digits 10 n) as ds. unfold zero_pad, repeat_z, number4. split; [|split].
  - apply Forall_app. split; [apply Forall_forall; intros c I; apply repeat_spec in I; subst; unfold digit_char; lia|].
    apply Forall_map. eapply Forall_impl; [|exact F]. intros d D. apply decdigit_range in D. exact D.
  - rewrite decimal_zeros, decimal_digits. exact V.
  - rewrite app_length, repeat_length, map_length. unfold zlen. rewrite map_length. destruct (Nat.le_gt_cases (List.length ds) 4) as [L|L]; [left; lia|right].
    split; [lia|]. replace (Z.to_nat (4 - Z.of_nat (List.length ds))) with O by lia. cbn [repeat app]. destruct ds as [|d ds']; [cbn in L; lia|]. cbn. unfold decdigit.
    destruct (Z.eq_dec n 0) as [->|NZ]; [|specialize (HD ltac:(lia)); cbn in HD; lia].
    exfalso. inversion Heqds; subst. cbn in L. lia.
Qed.

Lemma blanks_split : forall k k' (a b : list Z), hd 0 a <> 32 -> hd 0 b <> 32 -> repeat 32 k ++ a = repeat 32 k' ++ b -> k = k' /\ a = b.
Proof.
  induction k as [|k IH]; intros [|k'] a b Ha Hb E; cbn [repeat app] in E.
  - auto.
  - subst a. cbn in Ha. congruence.
  - subst b. cbn in Hb. congruence.
  - inversion E. destruct (IH k' a b Ha Hb) as [-> ->]; auto.
Qed.
Theorem line_says_fun : forall l n k name n' k' name', line_says l n k name -> line_says l n' k' name' -> n = n' /\ k = k' /\ name = name'.
Proof.
  intros l n k name n' k' name' (ds & (D & V & _) & K & H & _ & E) (ds' & (D' & V' & _) & K' & H' & _ & E').
  rewrite E in E'. replace (Z.to_nat k) with (S (Z.to_nat (k - 1))) in E' by lia. replace (Z.to_nat k') with (S (Z.to_nat (k' - 1))) in E' by lia. cbn [repeat app] in E'.
  apply first_split in E' as [-> E'].
  - apply blanks_split in E' as [E1 ->]; [|assumption|assumption]. split; [congruence|]. split; [lia|reflexivity].
  - intros I. rewrite Forall_forall in D. specialize (D _ I). unfold digit_char in D. lia.
  - intros I. rewrite Forall_forall in D'. specialize (D' _ I). unfold digit_char in D'. lia.
Qed.
Lemma line_no_newline : forall l n k name, line_says l n k name -> ~ In 10 l.
Proof.
  intros l n k name (ds & (D & _) & K & H & N & ->) I. apply in_app_or in I as [I|I].
  - rewrite Forall_forall in D. specialize (D _ I). unfold digit_char in D. lia.
  - apply in_app_or in I as [I|I]; [apply repeat_spec in I; discriminate|contradiction].
Qed.
Lemma unlines_inj : forall ls ls', Forall (fun l => ~ In 10 l) ls -> Forall (fun l => ~ In 10 l) ls' -> unlines ls = unlines ls' -> ls = ls'.
Proof.
  induction ls as [|l ls IH]; intros [|l' ls'] F F' E; unfold unlines in E; cbn [map concat] in E.
  - reflexivity.
  - destruct l'; discriminate.
  - destruct l; discriminate.
  - rewrite <- !app_assoc in E. cbn [app] in E. inversion F; subst. inversion F'; subst. apply first_split in E as [-> E]; [|assumption|assumption]. f_equal. apply IH; assumption.
Qed.

Lemma fmt_d_chars : forall n, Forall (fun c => c = 45 \/ digit_char c) (fmt_d n).
Proof.
  intros n. unfold fmt_d.
  assert (G : forall m, 0 <= m -> Forall (fun c => c = 45 \/ digit_char c) (map decdigit (digits 10 m))).
  { intros m H. destruct (digits_spec 10 m) as (_ & F & _); [lia|lia|]. apply Forall_map. eapply Forall_impl; [|exact F]. intros d D. right. apply decdigit_range in D. exact D. }
  destruct (n <? 0) eqn:E; [constructor; [left; reflexivity|]|]; apply G; lia.
Qed.
Definition clean (t : list Z) : bool := negb (hd 0 t =? 32) && forallb (fun c => negb (c =? 10)) t.
Lemma clean_spec : forall t, clean t = true -> hd 0 t <> 32 /\ ~ In 10 t.
Proof.
  intros t H. apply andb_prop in H as [H1 H2]. split; [lia|]. intros I. rewrite forallb_forall in H2. specialize (H2 _ I). discriminate.
Qed.
Lemma dict_clean : forall K (d : list (K * string)) k n, forallb (fun kn => clean (zs (snd kn))) d = true -> In (k, n) d -> clean (zs n) = true.
Proof. intros K d k n F I. rewrite forallb_forall in F. exact (F _ I). Qed.
Lemma zdict_get_in : forall V k (d : list (Z * V)) v, zdict_get k d = Some v -> In (k, v) d.
Proof.
  intros V k d v. induction d as [|[k' v'] d IH]; cbn; [discriminate|]. destruct (Z.eqb_spec k k') as [->|N]; [intros H; inversion H; left; reflexivity|auto].
Qed.
Lemma tagname_clean : forall id, hd 0 (tagname id) <> 32 /\ ~ In 10 (tagname id).
Proof.
  intros id. unfold tagname. destruct (zdict_get id tagnames) as [n|] eqn:E.
  - apply clean_spec. apply (dict_clean Z tagnames id n); [vm_compute; reflexivity|apply zdict_get_in; exact E].
  - split; [discriminate|]. intros I. apply in_app_or in I as [I|I]; [cbn in I; intuition discriminate|].
    pose proof (fmt_d_chars (id - HWPTAG_BEGIN)) as F. rewrite Forall_forall in F. specialize (F _ I). unfold digit_char in F. lia.
Qed.

Lemma simple_record : forall r, counted r -> exists l, simple_line r = Ok (l ++ [10]) /\ record_line r l.
Proof.
  intros r ((OK & _ & T) & n & Hn & S). unfold simple_line. rewrite S. eexists. split.
  - f_equal. rewrite !app_assoc. reflexivity.
  - exists n. split; [exact S|]. exists (zero_pad 4 (fmt_d n)). destruct OK as (_ & L & _). unfold raw_of, tag_ok in L.
    split; [apply zero_pad_number; exact Hn|]. split; [lia|]. rewrite T. destruct (tagname_clean (r_tagid r)) as [C1 C2]. split; [exact C1|]. split; [exact C2|].
    rewrite <- !app_assoc. f_equal. unfold repeat_z. replace (Z.to_nat (2 * r_level r + 2)) with (1 + (Z.to_nat (2 * r_level r) + 1))%nat by lia. rewrite repeat_app, repeat_app. rewrite <- !app_assoc. reflexivity.
Qed.

Lemma map_gen_lines : forall A (f : A -> res (list Z)) (P : A -> list Z -> Prop) xs o, Forall (fun x => exists l, f x = Ok (l ++ [10]) /\ P x l) xs ->
  exists ls, map_gen f xs o = (map (fun l => l ++ [10]) ls, o) /\ Forall2 P xs ls.
Proof.
  intros A f P xs o F. induction F as [|x xs (l & E & H) _ IH]; [exists []; split; [reflexivity|constructor]|].
  destruct IH as (ls & E' & H'). exists (l :: ls). split; [|constructor; assumption]. cbn [map_gen]. rewrite E, E'. reflexivity.
Qed.
Theorem simple_lines : forall fr b sel rs o, all_bytes b -> select_records sel (read_records (open_bytes b)) = (rs, o) ->
  exists ls, print_records fr Simple (rs, o) = (map (fun l => l ++ [10]) ls, o) /\ Forall2 record_line rs ls.
Proof.
  intros fr b sel rs o B E. pose proof (selected_counted b sel B) as F. rewrite E in F. cbn [fst] in F. apply map_gen_lines.
  eapply Forall_impl; [|exact F]. exact simple_record.
Qed.
Definition shown (r : record) : option Z * Z * list Z := (r_seqno r, r_level r, r_tagname r).
Theorem simple_recovered : forall rs rs' ls ls', Forall2 record_line rs ls -> Forall2 record_line rs' ls' -> unlines ls = unlines ls' -> map shown rs = map shown rs'.
Proof.
  intros rs rs' ls ls' H H' E.
  assert (N : forall rs ls, Forall2 record_line rs ls -> Forall (fun l => ~ In 10 l) ls).
  { clear. intros rs ls H. induction H as [|r l rs ls (n & _ & L) _ IH]; constructor; [eapply line_no_newline; exact L|exact IH]. }
  apply unlines_inj in E; [|eapply N; eassumption|eapply N; eassumption]. subst ls'. clear N. revert rs' H'. induction H as [|r l rs ls (n & S & L) _ IH]; intros rs' H'; inversion H' as [|r' l' rs1 ls1 (n' & S' & L') H1]; subst; [reflexivity|].
  cbn [map]. f_equal; [|apply IH; exact H1]. destruct (line_says_fun _ _ _ _ _ _ _ L L') as (-> & K & T). unfold shown. rewrite S, S', T. do 2 f_equal. lia.
Qed.

(** ** Raw records *)

Lemma dump_fit : forall r, fit r -> dump_record r = Ok (wire (r_tagid r) (r_level r) (r_payload r)).
Proof.
  intros r ((T & L & P) & _). unfold dump_record. rewrite encode_header_wire by assumption. reflexivity.
Qed.
Lemma map_gen_value : forall A B (f : A -> res B) (g : A -> B) xs o, Forall (fun x => f x = Ok (g x)) xs -> map_gen f xs o = (map g xs, o).
Proof. intros A B f g xs o F. induction F as [|x xs E _ IH]; [reflexivity|]. cbn [map_gen map]. rewrite E, IH. reflexivity. Qed.
Lemma counted_fit : forall rs, Forall counted rs -> Forall fit rs.
Proof. intros rs. apply Forall_impl. intros r [H _]. exact H. Qed.

Theorem raw_written : forall fr b sel rs o, all_bytes b -> select_records sel (read_records (open_bytes b)) = (rs, o) ->
  exists chunks, print_records fr Raw (rs, o) = (chunks, o) /\ concat chunks = wire_all (map raw_of rs) /\
    read_records (open_bytes (concat chunks)) = (expected 0 (map raw_of rs), Finished).
Proof.
  intros fr b sel rs o B E. pose proof (counted_fit _ (selected_counted b sel B)) as F. rewrite E in F. cbn [fst] in F.
  exists (map (fun r => wire (r_tagid r) (r_level r) (r_payload r)) rs). split; [|split].
  - apply map_gen_value. eapply Forall_impl; [|exact F]. exact dump_fit.
  - unfold wire_all. rewrite map_map. reflexivity.
  - destruct (records_roundtrip (map raw_of rs)) as (b' & D & R).
    + apply Forall_map. eapply Forall_impl; [|exact F]. intros r H. apply H.
    + apply Forall_map. eapply Forall_impl; [|exact F]. intros r H. apply H.
    + rewrite dump_records_wire in D by (apply Forall_map; eapply Forall_impl; [|exact F]; intros r H; apply H). inversion D; subst.
      replace (concat _) with (wire_all (map raw_of rs)); [exact R|]. unfold wire_all. rewrite map_map. reflexivity.
Qed.
Theorem raw_parts : forall fr b sel rs o, all_bytes b -> select_records sel (read_records (open_bytes b)) = (rs, o) ->
  exists headers payloads, print_records fr RawHeader (rs, o) = (headers, o) /\ print_records fr RawPayload (rs, o) = (payloads, o) /\
    Forall2 (fun r h => h = wire_header (r_tagid r) (r_level r) (zlen (r_payload r))) rs headers /\ payloads = map r_payload rs /\
    print_records fr Raw (rs, o) = (map (fun hp => fst hp ++ snd hp) (combine headers payloads), o).
Proof.
  intros fr b sel rs o B E. pose proof (counted_fit _ (selected_counted b sel B)) as F. rewrite E in F. cbn [fst] in F.
  exists (map (fun r => wire_header (r_tagid r) (r_level r) (zlen (r_payload r))) rs), (map r_payload rs). split; [|split; [|split; [|split]]].
  - apply map_gen_value. eapply Forall_impl; [|exact F]. intros r ((T & L & P) & _). apply encode_header_wire; assumption.
  - apply map_gen_value. apply Forall_forall. reflexivity.
  - clear. induction rs; constructor; auto.
  - reflexivity.
  - cbn [print_records fst snd]. rewrite (map_gen_value _ _ dump_record (fun r => wire (r_tagid r) (r_level r) (r_payload r))) by (eapply Forall_impl; [|exact F]; exact dump_fit).
    f_equal. clear. induction rs as [|r rs IH]; [reflexivity|]. cbn [map combine fst snd]. rewrite <- IH. reflexivity.
Qed.

(** ** The command *)

Theorem main_all : forall fr fmt s, records_main fr fmt NoSubset s = print_records fr fmt (read_records s) /\ records_main fr fmt (SubRange []) s = print_records fr fmt (read_records s).
Proof. split; reflexivity. Qed.

Lemma main_range : forall fr fmt t s, t <> [] -> records_main fr fmt (SubRange t) s =
  match range_arg t with Raise e => ([], Failed e) | Ok sel => print_records fr fmt (select_records sel (read_records s)) end.
Proof. intros fr fmt [|c t] s N; [congruence|reflexivity]. Qed.
Lemma int_text_nonempty : forall n, ~ int_text [] n.
Proof. intros n H. apply py_int_iff in H. discriminate. Qed.
Lemma range_nonempty : forall t m n, range_says t m n -> t <> [].
Proof. intros t m n H ->. inversion H as [t' k _ I|x y a b _ _ _ E]; [exact (int_text_nonempty _ I)|destruct x; discriminate E]. Qed.

Theorem range_main : forall fr fmt t m n b rs o, all_bytes b -> read_records (open_bytes b) = (rs, o) -> range_says t m n -> countable m -> countable n ->
  exists ys, picked (numbered m n) rs ys /\
    records_main fr fmt (SubRange t) (open_bytes b) = print_records fr fmt (ys, if (m <=? zlen rs) && (n <=? zlen rs) then Finished else o).
Proof.
  intros fr fmt t m n b rs o B E R Cm Cn. rewrite main_range by (eapply range_nonempty; exact R). destruct (range_arg_spec t) as [(m' & n' & R' & _ & _ & ->)|[X _]]; [|exfalso; eauto].
  destruct (range_says_fun _ _ _ _ _ R R') as [<- <-]. unfold countable in *. rewrite E. cbn [select_records]. unfold islice. cbn [fst snd].
  exists (firstn (Z.to_nat n - Z.to_nat m) (skipn (Z.to_nat m) rs)). split.
  - replace m with (Z.of_nat (Z.to_nat m)) at 1 by lia. replace n with (Z.of_nat (Z.to_nat n)) at 1 by lia. apply range_picks. destruct (read_facts b B) as [_ N]. rewrite E in N. exact N.
  - f_equal. f_equal. unfold zlen. destruct (Nat.leb_spec (Nat.max (Z.to_nat m) (Z.to_nat n)) (List.length rs)); destruct (Z.leb_spec m (Z.of_nat (List.length rs))); destruct (Z.leb_spec n (Z.of_nat (List.length rs))); cbn [andb]; try reflexivity; lia.
Qed.
Theorem range_refused : forall fr fmt t s, t <> [] -> (forall m n, range_says t m n -> countable m -> countable n -> False) -> records_main fr fmt (SubRange t) s = ([], Failed ValueError).
Proof.
  intros fr fmt t s N X. rewrite main_range by exact N. destruct (range_arg_spec t) as [(m & n & R & Cm & Cn & _)|[_ ->]]; [exfalso; eauto|reflexivity].
Qed.
Theorem tree_main : forall fr fmt t n s rs gs, read_records s = (rs, Finished) -> int_text t n -> countable n -> is_grouping r_level rs gs ->
  records_main fr fmt (SubTree t) s = match nth_error gs (Z.to_nat n) with Some g => print_records fr fmt (g, Finished) | None => ([], Failed TypeError) end.
Proof.
  intros fr fmt t n s rs gs E I C G. unfold records_main, subset_selection. apply int_arg_iff in I. rewrite I. cbn [bind]. destruct (islice_arg_cases n) as [[_ ->]|[X _]]; [|contradiction].
  cbn [bind]. rewrite E. rewrite (proj1 (tree_selection (Z.to_nat n) rs gs G)). destruct (nth_error gs (Z.to_nat n)); [reflexivity|]. destruct fmt; reflexivity.
Qed.
Theorem tree_refused : forall fr fmt t s, (forall n, int_text t n -> countable n -> False) -> records_main fr fmt (SubTree t) s = ([], Failed ValueError).
Proof.
  intros fr fmt t s X. unfold records_main, subset_selection. destruct (int_arg_cases t) as [(n & I & ->)|[_ ->]]; [|reflexivity]. cbn [bind].
  destruct (islice_arg_cases n) as [[C _]|[_ ->]]; [exfalso; eauto|reflexivity].
Qed.
Theorem simple_determined : forall fr b b' sel sel' rs rs' o o' out out', all_bytes b -> all_bytes b' ->
  select_records sel (read_records (open_bytes b)) = (rs, o) -> select_records sel' (read_records (open_bytes b')) = (rs', o') ->
  print_records fr Simple (rs, o) = (out, o) -> print_records fr Simple (rs', o') = (out', o') -> concat out = concat out' ->
  map (fun r => (r_seqno r, r_level r, r_tagid r)) rs = map (fun r => (r_seqno r, r_level r, r_tagid r)) rs'.
Proof.
  intros fr b b' sel sel' rs rs' o o' out out' B B' E E' P P' C.
  destruct (simple_lines fr b sel rs o B E) as (ls & L & F). destruct (simple_lines fr b' sel' rs' o' B' E') as (ls' & L' & F').
  assert (out = map (fun l => l ++ [10]) ls) as -> by congruence. assert (out' = map (fun l => l ++ [10]) ls') as -> by congruence.
  pose proof (simple_recovered rs rs' ls ls' F F' C) as M.
  pose proof (counted_fit _ (selected_counted b sel B)) as G. rewrite E in G. cbn [fst] in G. pose proof (counted_fit _ (selected_counted b' sel' B')) as G'. rewrite E' in G'. cbn [fst] in G'.
  clear -M G G'. revert rs' G' M. induction G as [|r rs (_ & _ & T) _ IH]; intros rs' G' M; destruct rs' as [|r' rs']; try discriminate M; [reflexivity|].
  cbn [map] in *. unfold shown in M at 1 3. inversion M as [[S L TN]]. inversion G' as [|? ? (_ & _ & T') G1]; subst. rewrite T, T' in TN. apply tagname_injective in TN. rewrite TN, S, L. f_equal. apply IH; assumption.
Qed.

(** ** Models *)

Lemma loop_prefix : forall fuel ver o rs base stack, exists rest, rs = map fst (fst (parse_models_loop fuel ver base stack rs o)) ++ rest /\
  (snd (parse_models_loop fuel ver base stack rs o) = Finished -> rest = []).
Proof.
  intros fuel ver o. induction rs as [|r rs IH]; intros base stack; cbn [parse_models_loop]; [exists []; split; [reflexivity|reflexivity]|].
  assert (X : forall o', o' <> Finished -> exists rest, r :: rs = map fst (fst (([] : list (record * model)), o')) ++ rest /\ (snd (([] : list (record * model)), o') = Finished -> rest = [])).
  { intros o' N. exists (r :: rs). split; [reflexivity|]. intros H. cbn in H. congruence. }
  destruct (pop_to _ stack) as [x [stack'|e]]; [|apply X; discriminate].
  destruct (check_level _ stack') as [e|]; [apply X; discriminate|]. destruct stack' as [|parent above]; [apply X; discriminate|].
  destruct (parse_model fuel ver parent (r_tagid r) (r_payload r)) as [[m|e]|]; [|apply X; discriminate|apply X; discriminate].
  match goal with |- context [parse_models_loop fuel ver ?b ?st rs o] => destruct (IH b st) as (rest & E & F); exists rest end.
  cbn [gcons fst snd map app]. split; [f_equal; exact E|exact F].
Qed.
Lemma chain_prefix : forall fuel ver gs o, exists rest, concat gs = map fst (fst (chain_models fuel ver gs o)) ++ rest.
Proof.
  intros fuel ver gs o. induction gs as [|g gs IH]; cbn [chain_models concat]; [exists []; reflexivity|].
  destruct (loop_prefix fuel ver Finished g None [root_node]) as (rest & E & F). unfold parse_models. cbn [fst snd].
  destruct (parse_models_loop fuel ver None [root_node] g Finished) as [out o']. cbn [fst snd] in *. destruct o'.
  - rewrite (F eq_refl), app_nil_r in E. destruct IH as [rest' E']. exists rest'. cbn [gapp fst]. rewrite map_app, <- app_assoc, <- E'. congruence.
  - exists (rest ++ concat gs). cbn [fst]. rewrite app_assoc. congruence.
  - exists (rest ++ concat gs). cbn [fst]. rewrite app_assoc. congruence.
Qed.
Lemma removelast_app_concat : forall A (gs : list (list A)), exists rest, concat gs = concat (removelast gs) ++ rest.
Proof.
  intros A gs. destruct gs as [|g gs]; [exists []; reflexivity|]. exists (last (g :: gs) []). rewrite (app_removelast_last [] (l := g :: gs)) at 1 by discriminate.
  rewrite concat_app. cbn [concat]. rewrite app_nil_r. reflexivity.
Qed.
Lemma groups_prefix : forall (rs : list record) o, o <> OutOfFuel -> exists rest, rs = concat (fst (group_by_toplevel r_level (rs, o))) ++ rest.
Proof.
  intros rs o N. assert (H : exists gs, is_grouping r_level rs gs).
  { destruct rs as [|r t]; [exists []; repeat split; constructor|]. destruct (group_loop_spec _ r_level (S (List.length t)) r t ltac:(lia)) as (gs & _ & G & _). exists gs. exact G. }
  destruct H as [gs G]. destruct o as [|e|]; [| |congruence].
  - rewrite (proj2 (grouping_correct _ r_level rs gs) G). exists []. rewrite app_nil_r. symmetry. apply G.
  - rewrite (grouping_failed _ r_level rs e gs G). destruct (removelast_app_concat _ gs) as [rest E]. exists rest. cbn [fst]. rewrite <- E. symmetry. apply G.
Qed.
Lemma read_fuel : forall b, all_bytes b -> snd (read_records (open_bytes b)) <> OutOfFuel.
Proof. intros b B. destruct (only_failures b B) as [H|[H|(p & H & _)]]; rewrite H; discriminate. Qed.
Theorem models_prefix : forall fuel ver b, all_bytes b ->
  exists rest, fst (read_records (open_bytes b)) = map fst (fst (stream_models fuel ver (read_records (open_bytes b)))) ++ rest.
Proof.
  intros fuel ver b B. pose proof (read_fuel b B) as N. unfold stream_models. destruct (read_records (open_bytes b)) as [rs o]. cbn [fst snd] in *.
  destruct (groups_prefix rs o N) as [rest E]. destruct (chain_prefix fuel ver (fst (group_by_toplevel r_level (rs, o))) (snd (group_by_toplevel r_level (rs, o)))) as [rest' E'].
  exists (rest' ++ rest). rewrite app_assoc, <- E'. exact E.
Qed.
Lemma models_numbered : forall fuel ver b ms o i r m, all_bytes b -> stream_models fuel ver (read_records (open_bytes b)) = (ms, o) -> nth_error ms i = Some (r, m) ->
  nth_error (fst (read_records (open_bytes b))) i = Some r /\ r_seqno r = Some (Z.of_nat i).
Proof.
  intros fuel ver b ms o i r m B E N. destruct (models_prefix fuel ver b B) as [rest P]. rewrite E in P. cbn [fst] in P.
  assert (nth_error (fst (read_records (open_bytes b))) i = Some r) as H.
  { rewrite P, nth_error_app1 by (rewrite map_length; apply nth_error_Some; congruence). rewrite nth_error_map, N. reflexivity. }
  split; [exact H|]. exact (proj2 (read_facts b B) i r H).
Qed.

Theorem seqno_selects : forall fuel ver b t n ms o, all_bytes b -> stream_models fuel ver (read_records (open_bytes b)) = (ms, o) ->
  int_text t n -> countable n -> countable (n + 1) ->
  match nth_error ms (Z.to_nat n) with
  | Some rm => select_models fuel ver (SeqnoModel t) (read_records (open_bytes b)) = ([rm], Finished) /\ r_seqno (fst rm) = Some n
  | None => select_models fuel ver (SeqnoModel t) (read_records (open_bytes b)) = ([], o)
  end.
Proof.
  intros fuel ver b t n ms o B E I C C1. assert (t <> []) as N by (intros ->; exact (int_text_nonempty _ I)).
  assert (SEL : select_models fuel ver (SeqnoModel t) (read_records (open_bytes b)) = islice (Z.to_nat n) (Z.to_nat (n + 1)) (ms, o)).
  { destruct t as [|c t]; [congruence|]. unfold select_models. apply int_arg_iff in I. rewrite I. cbn [bind]. destruct (islice_arg_cases n) as [[_ ->]|[X _]]; [|contradiction].
    cbn [bind]. destruct (islice_arg_cases (n + 1)) as [[_ ->]|[X _]]; [|contradiction]. cbn [bind]. rewrite E. reflexivity. }
  rewrite SEL. unfold islice. cbn [fst snd]. unfold countable in *. replace (Z.to_nat (n + 1) - Z.to_nat n)%nat with 1%nat by lia. replace (Nat.max (Z.to_nat n) (Z.to_nat (n + 1))) with (S (Z.to_nat n)) by lia.
  destruct (nth_error ms (Z.to_nat n)) as [rm|] eqn:EN.
  - split.
    + assert (L : (Z.to_nat n < List.length ms)%nat) by (apply nth_error_Some; congruence). destruct (Nat.leb_spec (S (Z.to_nat n)) (List.length ms)); [|lia]. f_equal.
      apply nth_error_split in EN as (l1 & l2 & -> & L1). rewrite <- L1, skipn_app, skipn_all, Nat.sub_diag. reflexivity.
    + destruct rm as [r m]. destruct (models_numbered fuel ver b ms o _ r m B E EN) as [_ Q]. cbn [fst]. rewrite Q. f_equal. lia.
  - apply nth_error_None in EN. destruct (Nat.leb_spec (S (Z.to_nat n)) (List.length ms)); [lia|]. rewrite skipn_all2 by lia. reflexivity.
Qed.
Theorem seqno_refused : forall fuel ver t records, t <> [] -> (forall n, int_text t n -> countable n -> countable (n + 1) -> False) -> select_models fuel ver (SeqnoModel t) records = ([], Failed ValueError).
Proof.
  intros fuel ver [|c t] records N X; [congruence|]. unfold select_models. destruct (int_arg_cases (c :: t)) as [(n & I & ->)|[_ ->]]; [|reflexivity]. cbn [bind].
  destruct (islice_arg_cases n) as [[C ->]|[_ ->]]; [|reflexivity]. cbn [bind]. destruct (islice_arg_cases (n + 1)) as [[C1 _]|[_ ->]]; [exfalso; eauto|reflexivity].
Qed.
Theorem tree_selects : forall fuel ver t n records, int_text t n -> countable n -> select_models fuel ver (TreeModels t) records = treegroup_models fuel ver (Z.to_nat n) records.
Proof.
  intros fuel ver t n records I C. destruct t as [|c t]; [exfalso; exact (int_text_nonempty _ I)|]. unfold select_models. apply int_arg_iff in I. rewrite I. cbn [bind].
  destruct (islice_arg_cases n) as [[_ ->]|[X _]]; [reflexivity|contradiction].
Qed.
Theorem tree_models_refused : forall fuel ver t records, t <> [] -> (forall n, int_text t n -> countable n -> False) -> select_models fuel ver (TreeModels t) records = ([], Failed ValueError).
Proof.
  intros fuel ver [|c t] records N X; [congruence|]. unfold select_models. destruct (int_arg_cases (c :: t)) as [(n & I & ->)|[_ ->]]; [|reflexivity]. cbn [bind].
  destruct (islice_arg_cases n) as [[C _]|[_ ->]]; [exfalso; eauto|reflexivity].
Qed.

(** The names of the types. *)
Lemma find_control_key : forall chid l c, find_control chid l = Some c -> exists k, In (k, c) l.
Proof. intros chid l c. induction l as [|[k c'] l IH]; cbn; [discriminate|]. destruct (list_eq_dec Z.eq_dec (zs k) chid); [intros H; inversion H; subst; eauto|]. intros H. destruct (IH H) as [k' I]. eauto. Qed.
Lemma find_list_header_key : forall key l c, find_list_header key l = Some c -> exists k, In (k, c) l.
Proof. intros key l c. induction l as [|[k c'] l IH]; cbn; [discriminate|]. destruct (_ && _); [intros H; inversion H; subst; eauto|]. intros H. destruct (IH H) as [k' I]. eauto. Qed.
Lemma ok_inj : forall A (x y : A), Ok x = Ok y -> x = y.
Proof. congruence. Qed.
Lemma type_clean : forall fuel ver parent tagid payload m, parse_model fuel ver parent tagid payload = Some (Ok m) -> clean (zs (m_type m)) = true.
Proof.
  intros fuel ver parent tagid payload m H. unfold parse_model in H.
  assert (B : clean (zs (model_type tagid)) = true).
  { unfold model_type. destruct (zdict_get tagid tag_models) as [c|] eqn:E; [|reflexivity]. apply (dict_clean Z tag_models tagid c); [vm_compute; reflexivity|apply zdict_get_in; exact E]. }
  destruct (read_class fuel (model_type tagid) parent ver (open_bytes payload)) as [[evs s] [[content|e]|]]; try discriminate.
  destruct (extension_of (model_type tagid) parent content) as [[ext|]|e] eqn:X; try discriminate.
  - destruct (read_extension _ _ _ _ _ _ _) as [[evs' s'] [[content'|e]|]]; try discriminate. inversion H; subst. cbn [m_type]. unfold extension_of in X.
    destruct (String.eqb (model_type tagid) "Control").
    { destruct (dict_get "chid" content) as [[]|]; try discriminate. apply ok_inj in X as X'. apply find_control_key in X' as [k I]. apply (dict_clean string control_models k ext); [vm_compute; reflexivity|exact I]. }
    destruct (String.eqb (model_type tagid) "ListHeader").
    { destruct (n_type parent) as [t|]; try discriminate. apply ok_inj in X as X'. apply find_list_header_key in X' as [k I]. apply (dict_clean (string * bool) list_header_models k ext); [vm_compute; reflexivity|exact I]. }
    destruct (String.eqb (model_type tagid) "ControlData"); [|discriminate].
    destruct (n_type parent) as [t|]; try discriminate. apply ok_inj in X as X'. apply dict_get_in in X'. apply (dict_clean string control_data_models t ext); [vm_compute; reflexivity|exact X'].
  - inversion H; subst. exact B.
Qed.
Lemma loop_types : forall fuel ver o rs base stack, Forall (fun rm => clean (zs (m_type (snd rm))) = true) (fst (parse_models_loop fuel ver base stack rs o)).
Proof.
  intros fuel ver o. induction rs as [|r rs IH]; intros base stack; cbn [parse_models_loop]; [constructor|].
  destruct (pop_to _ stack) as [x [stack'|e]]; [|constructor]. destruct (check_level _ stack') as [e|]; [constructor|]. destruct stack' as [|parent above]; [constructor|].
  destruct (parse_model fuel ver parent (r_tagid r) (r_payload r)) as [[m|e]|] eqn:E; [|constructor|constructor]. cbn [gcons fst]. constructor; [exact (type_clean _ _ _ _ _ _ E)|apply IH].
Qed.
Lemma chain_types : forall fuel ver gs o, Forall (fun rm => clean (zs (m_type (snd rm))) = true) (fst (chain_models fuel ver gs o)).
Proof.
  intros fuel ver gs o. induction gs as [|g gs IH]; cbn [chain_models]; [constructor|]. pose proof (loop_types fuel ver Finished g None [root_node]) as L. unfold parse_models. cbn [fst snd].
  destruct (parse_models_loop fuel ver None [root_node] g Finished) as [out [| |]]; cbn [fst gapp] in *; [apply Forall_app; split; assumption|exact L|exact L].
Qed.
Lemma islice_in : forall A a b (g : gen A), incl (fst (islice a b g)) (fst g).
Proof.
  intros A a b [l o] x I. unfold islice in I. cbn [fst] in *. rewrite <- (firstn_skipn a l). apply in_or_app. right. rewrite <- (firstn_skipn (b - a) (skipn a l)). apply in_or_app. left. exact I.
Qed.
Lemma treegroup_prefix : forall fuel ver n rs o, incl (map fst (fst (treegroup_models fuel ver n (rs, o)))) rs.
Proof.
  intros fuel ver n rs o. unfold treegroup_models, records_treegroup. destruct (nth_item (group_by_toplevel r_level (rs, o)) n) as [[g|]|e] eqn:E; try (intros x []).
  assert (I : In g (fst (group_by_toplevel r_level (rs, o)))).
  { unfold nth_item in E. destruct (nth_error (fst (group_by_toplevel r_level (rs, o))) n) as [g'|] eqn:EN; [inversion E; subst; eapply nth_error_In; exact EN|]. destruct (snd (group_by_toplevel r_level (rs, o))); discriminate. }
  pose proof (groups_in _ r_level (rs, o)) as G. rewrite Forall_forall in G. specialize (G g I). destruct (loop_prefix fuel ver Finished g None [root_node]) as (rest & P & _).
  unfold parse_models. cbn [fst snd]. intros x X. apply G. rewrite P. apply in_or_app. left. exact X.
Qed.
Lemma selected_models : forall fuel ver s b, all_bytes b ->
  Forall (fun rm => counted (fst rm) /\ clean (zs (m_type (snd rm))) = true) (fst (select_models fuel ver s (read_records (open_bytes b)))).
Proof.
  intros fuel ver s b B. pose proof (read_counted b B) as R. rewrite Forall_forall in R.
  assert (ALL : Forall (fun rm => counted (fst rm) /\ clean (zs (m_type (snd rm))) = true) (fst (stream_models fuel ver (read_records (open_bytes b))))).
  { destruct (models_prefix fuel ver b B) as [rest P]. pose proof (chain_types fuel ver (fst (group_by_toplevel r_level (read_records (open_bytes b)))) (snd (group_by_toplevel r_level (read_records (open_bytes b))))) as T.
    fold (stream_models fuel ver (read_records (open_bytes b))) in T. rewrite Forall_forall in *. intros rm I. split; [|exact (T rm I)]. apply R. rewrite P. apply in_or_app. left. apply in_map. exact I. }
  unfold select_models. destruct s as [|[|c t]|[|c t]]; try exact ALL.
  - destruct (bind _ _) as [n|e]; [|constructor]. apply Forall_forall. intros rm I. split.
    + apply R. destruct (read_records (open_bytes b)) as [rs o]. apply (treegroup_prefix fuel ver n rs o). apply in_map. exact I.
    + unfold treegroup_models in I. destruct (records_treegroup n _) as [[g|]|e]; [|destruct I|destruct I]. pose proof (loop_types fuel ver Finished g None [root_node]) as L. rewrite Forall_forall in L. exact (L rm I).
  - destruct (bind _ _) as [[i j]|e]; [|constructor]. rewrite Forall_forall in *. intros rm I. apply ALL. exact (islice_in _ i j _ rm I).
Qed.
Theorem simple_models : forall fr fuel ver s b ms o, all_bytes b -> select_models fuel ver s (read_records (open_bytes b)) = (ms, o) ->
  exists ls, models_main fr fuel ver true s (open_bytes b) = (map (fun l => l ++ [10]) ls, o) /\ Forall2 model_line ms ls.
Proof.
  intros fr fuel ver s b ms o B E. unfold models_main. rewrite E. cbn [fst snd]. apply map_gen_lines. pose proof (selected_models fuel ver s b B) as F. rewrite E in F. cbn [fst] in F.
  eapply Forall_impl; [|exact F]. intros [r m] (((OK & _ & _) & n & Hn & S) & C). cbn [fst snd] in *. unfold simple_model. cbn [fst snd]. rewrite S. eexists. split; [f_equal; rewrite !app_assoc; reflexivity|].
  exists n. cbn [fst snd]. split; [exact S|]. exists (zero_pad 4 (fmt_d n)). destruct OK as (_ & L & _). unfold raw_of, tag_ok in L. apply clean_spec in C as [C1 C2].
  split; [apply zero_pad_number; exact Hn|]. split; [lia|]. split; [exact C1|]. split; [exact C2|]. rewrite <- !app_assoc. f_equal. unfold repeat_z. replace (Z.to_nat (r_level r + 1)) with (1 + Z.to_nat (r_level r))%nat by lia. reflexivity.
Qed.
Theorem model_line_fun : forall rm rm' l, model_line rm l -> model_line rm' l -> r_seqno (fst rm) = r_seqno (fst rm') /\ r_level (fst rm) = r_level (fst rm') /\ m_type (snd rm) = m_type (snd rm').
Proof.
  intros rm rm' l (n & S & L) (n' & S' & L'). destruct (line_says_fun _ _ _ _ _ _ _ L L') as (-> & K & T). split; [congruence|]. split; [lia|apply zs_inj; exact T].
Qed.

(** ** Versions *)

Lemma int_text_chars : forall t n, int_text t n -> Forall (fun c => blank c \/ c = 43 \/ c = 45 \/ c = 95 \/ digit_char c) t.
Proof.
  intros t n H. inversion H as [before sign l k after v Hb Ha D S]; subst.
  assert (DV : forall l k, digits_value l k -> Forall (fun c => blank c \/ c = 43 \/ c = 45 \/ c = 95 \/ digit_char c) l).
  { clear. intros l k D. induction D as [d Hd|l k d D IH Hd|l k d D IH Hd]; unfold digit_char.
    - constructor; [right; right; right; right; lia|constructor].
    - apply Forall_app. split; [exact IH|]. constructor; [right; right; right; right; lia|constructor].
    - apply Forall_app. split; [exact IH|]. constructor; [auto|]. constructor; [right; right; right; right; lia|constructor]. }
  apply Forall_app. split; [eapply Forall_impl; [|exact Hb]; auto|]. apply Forall_app. split.
  - destruct S as [[-> _]|[[-> _]|[-> _]]]; [constructor| |]; (constructor; [auto|constructor]).
  - apply Forall_app. split; [eapply DV; exact D|]. eapply Forall_impl; [|exact Ha]; auto.
Qed.
Lemma int_text_no : forall c t n, int_text t n -> c = 46 \/ c = 47 -> ~ In c t.
Proof.
  intros c t n H C I. apply int_text_chars in H. rewrite Forall_forall in H. specialize (H _ I). unfold blank, digit_char in H. lia.
Qed.
Lemma split_all_spec : forall c t, match split_all c t with
  | [] => False
  | [a] => a = t /\ ~ In c t
  | a :: l => exists r, t = a ++ c :: r /\ ~ In c a /\ split_all c r = l
  end.
Proof.
  intros c. induction t as [|x t IH]; cbn [split_all]; [split; [reflexivity|intros []]|].
  destruct (Z.eqb_spec x c) as [->|N].
  - destruct (split_all c t) as [|a l] eqn:E; [contradiction|]. exists t. split; [reflexivity|]. split; [intros []|exact E].
  - destruct (split_all c t) as [|a [|b l]]; [contradiction| |].
    + destruct IH as [-> I]. split; [reflexivity|]. intros [H|H]; [congruence|auto].
    + destruct IH as (r & -> & I & E). exists r. split; [reflexivity|]. split; [intros [H|H]; [congruence|auto]|exact E].
Qed.
Lemma split_all_cut : forall c a r, ~ In c a -> split_all c (a ++ c :: r) = a :: split_all c r.
Proof.
  intros c a r. induction a as [|x a IH]; intros N; cbn [app split_all]; [rewrite Z.eqb_refl; reflexivity|].
  destruct (Z.eqb_spec x c) as [->|NE]; [exfalso; apply N; left; reflexivity|]. rewrite IH by (intros I; apply N; right; exact I). reflexivity.
Qed.
Lemma split_all_whole : forall c a, ~ In c a -> split_all c a = [a].
Proof.
  intros c a. induction a as [|x a IH]; intros N; cbn [split_all]; [reflexivity|]. destruct (Z.eqb_spec x c) as [->|NE]; [exfalso; apply N; left; reflexivity|]. rewrite IH by (intros I; apply N; right; exact I). reflexivity.
Qed.
Theorem version_iff : forall t l, int_args (split_all 46 t) = Ok l <-> version_says t l.
Proof.
  intros t l. split.
  - remember (split_all 46 t) as parts eqn:E. revert t l E. induction parts as [|a parts IH]; intros t l E H; pose proof (split_all_spec 46 t) as S; rewrite <- E in S; [contradiction|].
    cbn [int_args] in H. destruct (int_arg a) as [n|] eqn:EA; [|discriminate]. apply int_arg_iff in EA. cbn [bind] in H. destruct (int_args parts) as [ns|] eqn:EP; [|discriminate]. cbn [bind] in H. inversion H; subst l.
    destruct parts as [|b parts].
    + destruct S as [-> _]. cbn in EP. inversion EP; subst. constructor. exact EA.
    + destruct S as (r & -> & _ & E'). apply vs_more; [exact EA|]. apply IH; [symmetry; exact E'|reflexivity].
  - induction 1 as [t n I|t n r l I V IH].
    + rewrite split_all_whole by (eapply int_text_no; [exact I|auto]). cbn [int_args]. apply int_arg_iff in I. rewrite I. reflexivity.
    + rewrite split_all_cut by (eapply int_text_no; [exact I|auto]). cbn [int_args]. apply int_arg_iff in I. rewrite I. cbn [bind]. rewrite IH. reflexivity.
Qed.
Lemma int_args_error : forall l, (exists ns, int_args l = Ok ns) \/ int_args l = Raise ValueError.
Proof.
  induction l as [|t l IH]; [left; exists []; reflexivity|]. cbn [int_args]. destruct (int_arg_cases t) as [(n & _ & ->)|[_ ->]]; [|right; reflexivity]. cbn [bind].
  destruct IH as [[ns ->]| ->]; [left; eexists; reflexivity|right; reflexivity].
Qed.
Theorem version_given : forall t l, t <> [] -> (version_arg t = Ok l <-> version_says t l).
Proof. intros [|c t] l N; [congruence|]. apply version_iff. Qed.
Theorem version_refused : forall t, t <> [] -> (forall l, ~ version_says t l) -> version_arg t = Raise ValueError.
Proof.
  intros [|c t] N X; [congruence|]. unfold version_arg. destruct (int_args_error (split_all 46 (c :: t))) as [[ns E]|E]; [|exact E]. apply version_iff in E. exfalso. eapply X. exact E.
Qed.

(** ** Names of streams *)

Lemma split_slash_all : forall p, split_slash p = split_all 47 p.
Proof. induction p as [|c p IH]; [reflexivity|]. cbn [split_slash split_all]. unfold SLASH. rewrite IH. reflexivity. Qed.
Lemma name_eqb_iff : forall a b, name_eqb a b = true <-> a = b.
Proof. intros a b. unfold name_eqb. destruct (list_eq_dec Z.eq_dec a b); split; congruence. Qed.
Lemma name_eqb_false : forall a b, a <> b -> name_eqb a b = false.
Proof. intros a b N. unfold name_eqb. destruct (list_eq_dec Z.eq_dec a b); congruence. Qed.

Theorem name_docinfo : forall h, parse_recordstream_name h (zs "docinfo") = open_storage_item h (zs "DocInfo").
Proof. intros h. change (get h (zs "DocInfo") = (let? y := get h (zs "DocInfo") in Ok y)). destruct (get h (zs "DocInfo")); reflexivity. Qed.

Lemma numeral_no_slash : forall u n, numeral u n -> ~ In 47 u.
Proof.
  intros u n H. induction H as [d Hd|l n d _ IH _ Hd]; intros I.
  - destruct I as [I|[]]. lia.
  - apply in_app_or in I as [I|[I|[]]]; [auto|lia].
Qed.
Lemma open_section : forall h u, ~ In 47 u -> open_storage_item h (zs "BodyText/Section" ++ u) = (let? t := get h (zs "BodyText") in get t (zs "Section" ++ u)).
Proof.
  intros h u N. unfold open_storage_item. rewrite split_slash_all. change (zs "BodyText/Section" ++ u) with (zs "BodyText" ++ 47 :: (zs "Section" ++ u)).
  rewrite split_all_cut by (cbn; intuition discriminate). rewrite split_all_whole.
  - cbn [get_path]. destruct (get h (zs "BodyText")) as [t|e]; [|reflexivity]. cbn [bind]. destruct (get t (zs "Section" ++ u)); reflexivity.
  - intros I. apply in_app_or in I as [I|I]; [cbn in I; intuition discriminate|contradiction].
Qed.
Lemma bodytext_name : forall h t, ~ In 47 t -> parse_recordstream_name h (zs "bodytext/" ++ t) =
  match (let? idx := int_arg t in let? x := get h (zs "BodyText") in section x idx) with
  | Raise ValueError => open_storage_item h (zs "bodytext/" ++ t)
  | r => r
  end.
Proof.
  intros h t N. unfold parse_recordstream_name. rewrite name_eqb_false by (cbn; discriminate). rewrite split_slash_all. change (zs "bodytext/" ++ t) with (zs "bodytext" ++ 47 :: t).
  rewrite split_all_cut by (cbn; intuition discriminate). rewrite split_all_whole by exact N. replace (name_eqb (zs "bodytext") (zs "bodytext")) with true by reflexivity. reflexivity.
Qed.
Theorem name_section : forall h t n u, int_text t n -> numeral u n -> open_storage_item h (zs "BodyText/Section" ++ u) <> Raise ValueError ->
  parse_recordstream_name h (zs "bodytext/" ++ t) = open_storage_item h (zs "BodyText/Section" ++ u).
Proof.
  intros h t n u I U N. rewrite bodytext_name by (eapply int_text_no; [exact I|auto]). apply int_arg_iff in I. rewrite I. cbn [bind].
  rewrite open_section in * by (eapply numeral_no_slash; exact U). unfold section. rewrite (numeral_fmt u n U).
  destruct (let? t0 := get h (zs "BodyText") in get t0 (zs "Section" ++ u)) as [y|e]; [reflexivity|]. destruct e; try reflexivity. congruence.
Qed.
Theorem name_other : forall h p, p <> zs "docinfo" -> (forall t n, int_text t n -> p <> zs "bodytext/" ++ t) -> parse_recordstream_name h p = open_storage_item h p.
Proof.
  intros h p N X. destruct (list_eq_dec Z.eq_dec (firstn 9 p) (zs "bodytext/")) as [E|NE].
  - assert (EP : exists t, p = zs "bodytext/" ++ t) by (exists (skipn 9 p); rewrite <- E; symmetry; apply firstn_skipn). destruct EP as [t ->]. clear E.
    destruct (in_dec Z.eq_dec 47 t) as [I|NI].
    + unfold parse_recordstream_name. rewrite name_eqb_false by exact N. rewrite split_slash_all. change (zs "bodytext/" ++ t) with (zs "bodytext" ++ 47 :: t).
      rewrite split_all_cut by (cbn; intuition discriminate). pose proof (split_all_spec 47 t) as S. destruct (split_all 47 t) as [|a [|b l]]; [contradiction| |reflexivity].
      destruct S as [_ S]. contradiction.
    + rewrite bodytext_name by exact NI. destruct (int_arg_cases t) as [(n & I & _)|[_ ->]]; [exfalso; exact (X t n I eq_refl)|reflexivity].
  - unfold parse_recordstream_name. rewrite name_eqb_false by exact N. rewrite split_slash_all. pose proof (split_all_spec 47 p) as S. destruct (split_all 47 p) as [|a [|b [|c l]]] eqn:EP; [contradiction|reflexivity| |reflexivity].
    destruct (name_eqb a (zs "bodytext")) eqn:EA; [|reflexivity]. apply name_eqb_iff in EA. subst a. destruct S as (r & -> & _ & _). exfalso. apply NE. reflexivity.
Qed.

(** ** Finding *)

Definition tagged (rm : record * model) : Prop := r_tagname (fst rm) = tagname (r_tagid (fst rm)).

Lemma documented_get : forall n, In n (map fst documented_tags) -> exists s, zdict_get n tagnames = Some s /\ tagname n = zs s.
Proof.
  intros n I. unfold tagname. destruct (zdict_get n tagnames) as [s|] eqn:E; [exists s; auto|]. exfalso. rewrite tagnames_documented in E. clear -E I.
  induction documented_tags as [|[k s] d IH]; [exact I|]. cbn in E. destruct (Z.eqb_spec n k) as [->|N]; [discriminate|]. destruct I as [I|I]; [cbn in I; congruence|auto].
Qed.
Lemma undocumented_get : forall n, ~ In n (map fst documented_tags) -> zdict_get n tagnames = None.
Proof.
  intros n I. destruct (zdict_get n tagnames) as [s|] eqn:E; [|reflexivity]. exfalso. apply I. rewrite tagnames_documented in E. apply zdict_get_in in E. apply (in_map fst) in E. exact E.
Qed.

Theorem condition_holds : forall f inc, (forall t n, f = WithTag t -> int_text t n -> In n (map fst documented_tags)) ->
  exists cond, find_condition f inc = Ok cond /\ forall rm, tagged rm -> (cond rm = true <-> wanted f inc rm).
Proof.
  intros f inc D.
  assert (L : forall rm : record * model, (negb inc || match m_unparsed (snd rm) with [] => false | _ => true end) = true <-> (inc = true -> m_unparsed (snd rm) <> [])).
  { intros rm. destruct inc; cbn [negb orb]; [|split; [discriminate|reflexivity]]. destruct (m_unparsed (snd rm)); split; intros H; try discriminate; auto. exfalso. apply H; reflexivity. }
  unfold find_condition, wanted. destruct f as [|t|t].
  - cbn [bind]. eexists. split; [reflexivity|]. intros rm _. cbn [andb]. rewrite L. tauto.
  - destruct t as [|c t]; cbn [bind]; eexists; (split; [reflexivity|]); intros rm _; cbn beta.
    + cbn [andb]. rewrite L. tauto.
    + rewrite andb_true_iff, L, name_eqb_iff. split; [intros [H1 H2]; split; [right; congruence|exact H2]|]. intros [[H1|H1] H2]; [discriminate|]. split; [congruence|exact H2].
  - destruct t as [|c t].
    + cbn [bind]. eexists. split; [reflexivity|]. intros rm _. cbn [andb]. rewrite L. tauto.
    + specialize (D (c :: t)). unfold tag_arg. destruct (py_int (c :: t)) as [n|] eqn:E.
      * apply py_int_iff in E. destruct (documented_get n (D n eq_refl E)) as (s & -> & TN). cbn [bind]. eexists. split; [reflexivity|]. intros rm T. cbn beta. rewrite andb_true_iff, L, name_eqb_iff. unfold tagged in T. rewrite T, <- TN.
        split; intros [H1 H2]; (split; [|exact H2]).
        -- right. left. exists n. split; [exact E|]. apply tagname_injective. exact H1.
        -- destruct H1 as [H1|[(n' & I & H1)|[X _]]]; [discriminate| |exfalso; exact (X n E)]. rewrite (int_text_value _ _ _ E I). congruence.
      * cbn [bind]. eexists. split; [reflexivity|]. intros rm T. cbn beta. rewrite andb_true_iff, L, name_eqb_iff.
        assert (X : forall n, ~ int_text (c :: t) n) by (intros n I; apply py_int_iff in I; congruence).
        split; intros [H1 H2]; (split; [|exact H2]).
        -- right. right. auto.
        -- destruct H1 as [H1|[(n & I & _)|[_ H1]]]; [discriminate|exfalso; exact (X n I)|exact H1].
Qed.
Theorem unknown_tag : forall fuel t n inc files, int_text t n -> ~ In n (map fst documented_tags) -> find_main fuel (WithTag t) inc files = ([], Failed KeyError).
Proof.
  intros fuel t n inc files I N. destruct t as [|c t]; [exfalso; exact (int_text_nonempty _ I)|]. unfold find_main, find_condition, tag_arg. apply py_int_iff in I. rewrite I, (undocumented_get n N). reflexivity.
Qed.

Lemma gthen_in_turn : forall A label (xs : list A) o r ys o', in_turn r ys o' -> 
  in_turn ((label, (xs, o)) :: r) (fst (gthen (labelled label (xs, o)) (ys, o'))) (snd (gthen (labelled label (xs, o)) (ys, o'))).
Proof.
  intros A label xs o r ys o' H. unfold gthen, labelled. cbn [fst snd]. destruct o; cbn [gapp fst snd]; [apply it_next; exact H| |]; apply it_stop; discriminate.
Qed.
Lemma gres_stream : forall A (models : item -> gen A) r, stream_of models r (gres (let? y := r in Ok (models y))).
Proof. intros A models [y|e]; [left; exists y; split; reflexivity|right; exists e; split; reflexivity]. Qed.
Lemma sections_streams : forall A (models : item -> gen A) t names o, exists gs,
  Forall2 (fun n g => fst g = zs "BodyText/" ++ n /\ stream_of models (get t n) (snd g)) names gs /\
  in_turn (gs ++ match o with Finished => [] | _ => [([], ([], o))] end) (fst (sections_models models t names o)) (snd (sections_models models t names o)).
Proof.
  intros A models t names o. induction names as [|n names (gs & F & T)].
  - exists []. split; [constructor|]. cbn [sections_models app fst snd]. destruct o; [constructor| |]; apply (it_stop [] (@nil A)); discriminate.
  - exists ((zs "BodyText/" ++ n, gres (let? y := get t n in Ok (models y))) :: gs). split; [constructor; [split; [reflexivity|apply gres_stream]|exact F]|].
    cbn [sections_models app]. destruct (gres (let? y := get t n in Ok (models y))) as [xs o1]. destruct (sections_models models t names o) as [ys o']. apply gthen_in_turn. exact T.
Qed.
Theorem flat_streams : forall A (models : item -> gen A) h, exists gs, streams_of models h gs /\ in_turn gs (fst (flat_models models h)) (snd (flat_models models h)).
Proof.
  intros A models h. unfold flat_models. pose proof (gres_stream A models (get h (zs "DocInfo"))) as D. destruct (gres (let? d := get h (zs "DocInfo") in Ok (models d))) as [xs o1].
  destruct (get h (zs "BodyText")) as [t|e] eqn:E.
  - cbn [bind gres]. destruct (sections_streams A models t (fst (iter t)) (snd (iter t))) as (gs & F & T). destruct (sections_models models t (fst (iter t)) (snd (iter t))) as [ys o'].
    eexists. split; [apply (so_file models h (xs, o1) t (fst (iter t)) (snd (iter t)) gs D E); [apply surjective_pairing|exact F]|]. apply gthen_in_turn. exact T.
  - cbn [bind gres]. eexists. split; [apply (so_no_text models h (xs, o1) e D E)|]. apply gthen_in_turn. apply (it_stop [] (@nil A)). discriminate.
Qed.

Lemma picked_filter : forall A (P : A -> Prop) (p : A -> bool) l, Forall (fun x => p x = true <-> P x) l -> picked P l (filter p l).
Proof.
  intros A P p l F. induction F as [|x l H _ IH]; [constructor|]. cbn [filter]. destruct (p x); [apply pk_take; [apply H; reflexivity|exact IH]|apply pk_skip; [|exact IH]]. intros Q. apply H in Q. discriminate.
Qed.

(** What is needed of the streams: they hold bytes. *)
Definition holds_bytes (y : item) : Prop := forall b, open y = Ok b -> all_bytes b.
Definition file_of_bytes (h : item) : Prop :=
  (forall d, get h (zs "DocInfo") = Ok d -> holds_bytes d) /\ (forall t n y, get h (zs "BodyText") = Ok t -> get t n = Ok y -> holds_bytes y).

Lemma item_counted : forall fuel ver y, holds_bytes y -> Forall (fun rm => counted (fst rm)) (fst (item_models fuel ver y)).
Proof.
  intros fuel ver y H. unfold item_models. destruct (open y) as [b|e] eqn:E; [|constructor]. pose proof (selected_models fuel ver AllModels b (H b E)) as F. cbn [select_models] in F.
  eapply Forall_impl; [|exact F]. intros rm [C _]. exact C.
Qed.
Lemma stream_counted : forall fuel ver r g, (forall y, r = Ok y -> holds_bytes y) -> stream_of (item_models fuel ver) r g -> Forall (fun rm => counted (fst rm)) (fst g).
Proof. intros fuel ver r g H [(y & E & ->)|(e & E & ->)]; [apply item_counted; auto|constructor]. Qed.
Lemma in_turn_forall : forall A (P : A -> Prop) gs xs o, @in_turn A gs xs o -> Forall (fun g => Forall P (fst (snd g))) gs -> Forall (fun x => P (snd x)) xs.
Proof.
  intros A P gs xs o H. induction H as [|label xs r ys o H IH|label xs o r N]; intros F.
  - constructor.
  - inversion F; subst. apply Forall_app. split; [apply Forall_map; cbn in *; assumption|auto].
  - inversion F; subst. apply Forall_map. cbn in *. assumption.
Qed.
Lemma streams_counted : forall fuel ver h gs, file_of_bytes h -> streams_of (item_models fuel ver) h gs -> Forall (fun g => Forall (fun rm => counted (fst rm)) (fst (snd g))) gs.
Proof.
  intros fuel ver h gs [HD HT] S. inversion S as [d t names o gs' D ET EI F|d e D ET]; subst.
  - constructor; [cbn; eapply stream_counted; [exact HD|exact D]|]. apply Forall_app. split.
    + clear EI S. induction F as [|n g names gs [_ G] _ IH]; [constructor|]. constructor; [|exact IH].
      eapply stream_counted; [|exact G]. intros y E. exact (HT t n y ET E).
    + destruct o; repeat constructor.
  - constructor; [cbn; eapply stream_counted; [exact HD|exact D]|]. repeat constructor.
Qed.

Lemma find_lines : forall fn xs o, Forall (fun x => counted (fst (snd x))) xs ->
  exists ls, map_gen (find_line fn) xs o = (map (fun l => l ++ [10]) ls, o) /\ Forall2 (fun x l => found_line fn (fst x) (snd x) l) xs ls.
Proof.
  intros fn xs o F. induction F as [|[st [r m]] xs [_ (n & N0 & E)] _ (ls & IH1 & IH2)]; [exists []; split; [reflexivity|constructor]|].
  cbn in E. exists ((fn ++ [32] ++ st ++ [32] ++ fmt_d n ++ [32] ++ r_tagname r ++ [32] ++ zs (m_type m)) :: ls). split.
  - cbn [map_gen]. unfold find_line at 1. rewrite E, IH1. cbn [map gcons]. rewrite <- !app_assoc. reflexivity.
  - constructor; [|exact IH2]. exists n, (fmt_d n). split; [exact E|]. split; [apply numeral_of; exact N0|reflexivity].
Qed.

Definition files_of_bytes (files : list (name * res (item * list Z))) : Prop := Forall (fun f => forall h v, snd f = Ok (h, v) -> file_of_bytes h) files.

Lemma file_found : forall fuel cond P fn f, (forall rm, tagged rm -> (cond rm = true <-> P rm)) -> (forall h v, f = Ok (h, v) -> file_of_bytes h) ->
  exists ls o, find_file fuel cond fn f = (map (fun l => l ++ [10]) ls, o) /\ file_says (item_models fuel) P (found_line fn) f ls o.
Proof.
  intros fuel cond P fn f C B. destruct f as [[h v]|e]; [|exists [], (Failed e); split; [reflexivity|split; reflexivity]]. specialize (B h v eq_refl).
  unfold find_file. destruct (flat_streams _ (item_models fuel v) h) as (gs & S & T). destruct (flat_models (item_models fuel v) h) as [xs o]. cbn [fst snd] in *.
  pose proof (in_turn_forall _ _ _ _ _ T (streams_counted fuel v h gs B S)) as F. 
  destruct (find_lines fn (filter (fun sm => cond (snd sm)) xs) o) as (ls & E & F2).
  { rewrite Forall_forall in *. intros x I. apply filter_In in I as [I _]. auto. }
  exists ls, o. split; [exact E|]. exists gs, xs, (filter (fun sm => cond (snd sm)) xs). split; [exact S|]. split; [exact T|]. split; [|exact F2].
  apply picked_filter. eapply Forall_impl; [|exact F]. intros x Q. apply C. destruct Q as [(_ & _ & Q) _]. exact Q.
Qed.
Lemma files_found : forall fuel cond P files, (forall rm, tagged rm -> (cond rm = true <-> P rm)) -> files_of_bytes files ->
  exists ls o, find_files fuel cond files = (map (fun l => l ++ [10]) ls, o) /\ files_say (item_models fuel) P found_line files ls o.
Proof.
  intros fuel cond P files C B. induction B as [|[fn f] files B1 _ (ls' & o' & IH1 & IH2)]; [exists [], Finished; split; [reflexivity|constructor]|].
  destruct (file_found fuel cond P fn f C B1) as (ls & o & E & S). cbn [find_files]. rewrite E.
  assert (Next : (o = Finished \/ exists c p, o = Failed (ParseError c p)) -> gapp (map (fun l => l ++ [10]) ls) (find_files fuel cond files) = (map (fun l => l ++ [10]) (ls ++ ls'), o') /\
    files_say (item_models fuel) P found_line ((fn, f) :: files) (ls ++ ls') o').
  { intros Q. split; [|eapply fs_next; eassumption]. rewrite IH1. unfold gapp. cbn [fst snd]. rewrite map_app. reflexivity. }
  destruct o as [|e|].
  - exists (ls ++ ls'), o'. apply Next. auto.
  - destruct e; try (exists ls; eexists; split; [reflexivity|]; apply fs_stop; [exact S|discriminate|discriminate]).
    exists (ls ++ ls'), o'. apply Next. right. eauto.
  - exists ls, OutOfFuel. split; [reflexivity|]. apply fs_stop; [exact S|discriminate|discriminate].
Qed.
Theorem find_finds : forall fuel f inc files, (forall t n, f = WithTag t -> int_text t n -> In n (map fst documented_tags)) -> files_of_bytes files ->
  exists ls o, find_main fuel f inc files = (map (fun l => l ++ [10]) ls, o) /\ files_say (item_models fuel) (wanted f inc) found_line files ls o.
Proof.
  intros fuel f inc files D B. destruct (condition_holds f inc D) as (cond & E & C). unfold find_main. rewrite E. apply files_found; assumption.
Qed.

(** What is said is determined. *)
Lemma stream_of_fun : forall A (models : item -> gen A) r g g', stream_of models r g -> stream_of models r g' -> g = g'.
Proof. intros A models r g g' [(y & E & ->)|(e & E & ->)] [(y' & E' & ->)|(e' & E' & ->)]; congruence. Qed.
Lemma streams_of_fun : forall A (models : item -> gen A) h gs gs', streams_of models h gs -> streams_of models h gs' -> gs = gs'.
Proof.
  intros A models h gs gs' H H'. inversion H as [d t names o l D ET EI F|d e D ET]; subst; inversion H' as [d' t' names' o' l' D' ET' EI' F'|d' e' D' ET']; subst; try congruence.
  - rewrite (stream_of_fun _ _ _ _ _ D D'). assert (t' = t) by congruence. subst t'. rewrite EI in EI'. injection EI' as <- <-. do 2 f_equal. clear -F F'. revert l' F'.
    induction F as [|n [a g] names l [H1 H2] _ IH]; intros l' F'; inversion F' as [|? [a' g'] ? ? [H1' H2'] F'']; subst; [reflexivity|]. cbn in *. rewrite (stream_of_fun _ _ _ _ _ H2 H2'), (IH _ F''). congruence.
  - rewrite (stream_of_fun _ _ _ _ _ D D'). congruence.
Qed.
Lemma in_turn_fun : forall A gs (xs xs' : list (name * A)) o o', in_turn gs xs o -> in_turn gs xs' o' -> xs = xs' /\ o = o'.
Proof.
  intros A gs xs xs' o o' H. revert xs' o'. induction H as [|label xs r ys o H IH|label xs o r N]; intros xs' o' H'; inversion H'; subst; try congruence; auto.
  match goal with Q : in_turn r _ _ |- _ => destruct (IH _ _ Q) as [-> ->]; auto end.
Qed.
Lemma forall2_fun : forall A B (R : A -> B -> Prop), (forall x y y', R x y -> R x y' -> y = y') -> forall xs ys ys', Forall2 R xs ys -> Forall2 R xs ys' -> ys = ys'.
Proof. intros A B R U xs ys ys' H. revert ys'. induction H; intros ys' H'; inversion H'; subst; [reflexivity|f_equal; eauto]. Qed.
Lemma file_says_fun : forall A (models : list Z -> item -> gen A) P (line : name -> A -> list Z -> Prop), (forall st x l l', line st x l -> line st x l' -> l = l') ->
  forall f ls ls' o o', file_says models P line f ls o -> file_says models P line f ls' o' -> ls = ls' /\ o = o'.
Proof.
  intros A models P line U f ls ls' o o' H H'. destruct f as [[h v]|e]; cbn in H, H'; [|destruct H, H'; split; congruence].
  destruct H as (gs & xs & ys & S & T & K & L). destruct H' as (gs' & xs' & ys' & S' & T' & K' & L'). rewrite (streams_of_fun _ _ _ _ _ S' S) in T'. destruct (in_turn_fun _ _ _ _ _ _ T T') as [<- <-].
  rewrite (picked_fun _ _ _ _ _ K' K) in L'. split; [|reflexivity]. eapply forall2_fun; [|exact L|exact L']. intros x y y' H1 H2. exact (U (fst x) (snd x) y y' H1 H2).
Qed.
Theorem files_say_fun : forall A (models : list Z -> item -> gen A) P (line : name -> name -> A -> list Z -> Prop), (forall fn st x l l', line fn st x l -> line fn st x l' -> l = l') ->
  forall files ls ls' o o', files_say models P line files ls o -> files_say models P line files ls' o' -> ls = ls' /\ o = o'.
Proof.
  intros A models P line U files ls ls' o o' H. revert ls' o'. induction H as [|fn f r ls ls1 o o1 F Q H IH|fn f r ls o F Q1 Q2]; intros ls' o' H'; inversion H' as [|fn' f' r' ls2 ls3 o2 o3 F' Q' H''|fn' f' r' ls2 o2 F' Q1' Q2']; subst; [auto| | | |];
    destruct (file_says_fun A models P (line fn) (U fn) _ _ _ _ _ F F') as [<- <-].
  - destruct (IH _ _ H'') as [-> ->]. auto.
  - exfalso. destruct Q as [Q|(c & p & Q)]; [contradiction|exact (Q2' c p Q)].
  - exfalso. destruct Q' as [Q|(c & p & Q)]; [contradiction|exact (Q2 c p Q)].
  - auto.
Qed.
Theorem found_line_fun : forall fn st rm l l', found_line fn st rm l -> found_line fn st rm l' -> l = l'.
Proof.
  intros fn st rm l l' (n & t & E & N & ->) (n' & t' & E' & N' & ->). assert (n' = n) by congruence. subst n'. rewrite <- (numeral_fmt _ _ N), <- (numeral_fmt _ _ N'). reflexivity.
Qed.
