(** Proofs about hwp5proc ls and hwp5proc diststream. *)
From Coq Require Import ZArith String List Bool Lia Permutation.
From Verif Require Import Base BaseFacts Model_Text Spec_Text Model_Dataio Model_Record Model_Distdoc Model_Bintype Model_Storage Model_Json Model_Commands Spec_Record Spec_Distdoc Spec_Storage Spec_Commands Proof_Text Proof_Utf16 Proof_Dataio Proof_Record Proof_Distdoc Proof_Storage.
Import ListNotations.
Open Scope Z_scope.

(** ** Escapes *)

Lemma hex_of_lower : forall d, is_digit 16 d -> hex_digit_of (hexdigit_lower d) = Some d.
Proof.
  intros d H. unfold is_digit in H. unfold hex_digit_of, hexdigit_lower. destruct (d <? 10) eqn:E.
  - replace ((48 <=? 48 + d) && (48 + d <? 58)) with true by lia. f_equal. lia.
  - replace ((48 <=? 87 + d) && (87 + d <? 58)) with false by lia. replace ((97 <=? 87 + d) && (87 + d <? 103)) with true by lia. f_equal. lia.
Qed.
Lemma hex_number_digits : forall ds acc, Forall (is_digit 16) ds -> hex_number_of acc (map hexdigit_lower ds) = Some (acc * 16 ^ zlen ds + of_digits 16 ds).
Proof.
  induction ds as [|d ds IH]; intros acc F; [cbn; f_equal; lia|]. inversion F; subst. cbn [map hex_number_of]. rewrite hex_of_lower by assumption. rewrite IH by assumption.
  f_equal. change (d :: ds) with ([d] ++ ds). rewrite of_digits_app, zlen_app. change (zlen [d]) with 1. change (of_digits 16 [d]) with (0 * 16 + d).
  rewrite Z.pow_add_r by (pose proof (zlen_nonneg _ ds); lia). rewrite Z.pow_1_r. ring.
Qed.
Lemma fmt_x_reads : forall w n, 0 < w -> 0 <= n < 16 ^ w -> zlen (fmt_x w n) = w /\ hex_number_of 0 (fmt_x w n) = Some n /\ printable (fmt_x w n).
Proof.
  intros w n Hw Hn. destruct (fmt_x_digits w n ltac:(lia)) as (ds & E & V & F & L). pose proof (digits_length 16 n w ltac:(lia) Hw Hn) as D.
  rewrite E. split; [rewrite zlen_map; lia|]. split; [rewrite hex_number_digits by exact F; f_equal; lia|].
  unfold printable. apply Forall_forall. intros c HC. apply in_map_iff in HC. destruct HC as (d & <- & HI). rewrite Forall_forall in F. specialize (F d HI). unfold is_digit in F.
  unfold hexdigit_lower. destruct (d <? 10) eqn:X; lia.
Qed.
Lemma escape_reads : forall c r t, 0 <= c < 0x110000 -> reads_back r t -> reads_back (escape_char c ++ r) (c :: t).
Proof.
  intros c r t H R. unfold escape_char.
  destruct (c =? 92) eqn:E1; [replace c with 92 by lia; now apply rb_back|]. destruct (c =? 9) eqn:E2; [replace c with 9 by lia; now apply rb_t|].
  destruct (c =? 10) eqn:E3; [replace c with 10 by lia; now apply rb_n|]. destruct (c =? 13) eqn:E4; [replace c with 13 by lia; now apply rb_r|].
  destruct ((32 <=? c) && (c <? 127)) eqn:E5; [apply rb_char; [lia|exact R]|].
  destruct (c <? 0x100) eqn:E6; [|destruct (c <? 0x10000) eqn:E7].
  - destruct (fmt_x_reads 2 c) as (L & V & _); [lia|change (16 ^ 2) with 256; lia|]. now apply rb_x.
  - destruct (fmt_x_reads 4 c) as (L & V & _); [lia|change (16 ^ 4) with 65536; lia|]. now apply rb_u.
  - destruct (fmt_x_reads 8 c) as (L & V & _); [lia|change (16 ^ 8) with 4294967296; lia|]. now apply rb_U.
Qed.
Lemma escape_printable : forall c, 0 <= c < 0x110000 -> printable (escape_char c).
Proof.
  intros c H. unfold escape_char.
  destruct (c =? 92) eqn:E1; [repeat constructor; lia|]. destruct (c =? 9) eqn:E2; [repeat constructor; lia|].
  destruct (c =? 10) eqn:E3; [repeat constructor; lia|]. destruct (c =? 13) eqn:E4; [repeat constructor; lia|].
  destruct ((32 <=? c) && (c <? 127)) eqn:E5; [repeat constructor; lia|].
  destruct (c <? 0x100) eqn:E6; [|destruct (c <? 0x10000) eqn:E7].
  - destruct (fmt_x_reads 2 c) as (L & V & P); [lia|change (16 ^ 2) with 256; lia|]. constructor; [lia|]. constructor; [lia|]. exact P.
  - destruct (fmt_x_reads 4 c) as (L & V & P); [lia|change (16 ^ 4) with 65536; lia|]. constructor; [lia|]. constructor; [lia|]. exact P.
  - destruct (fmt_x_reads 8 c) as (L & V & P); [lia|change (16 ^ 8) with 4294967296; lia|]. constructor; [lia|]. constructor; [lia|]. exact P.
Qed.
Theorem escaped : forall t, code_text t -> printable (unicode_escape t) /\ reads_back (unicode_escape t) t.
Proof.
  intros t H. induction H as [|c t HC HT IH]; [split; constructor|]. destruct IH as [P R]. unfold unicode_escape. cbn [map concat]. split.
  - apply Forall_app. split; [now apply escape_printable|exact P].
  - now apply escape_reads.
Qed.
Lemma app_split : forall A (a b c d : list A), zlen a = zlen c -> a ++ b = c ++ d -> a = c /\ b = d.
Proof.
  intros A a. induction a as [|x a IH]; intros b [|y c] d L E.
  - split; [reflexivity|exact E].
  - exfalso. rewrite zlen_cons in L. pose proof (zlen_nonneg _ c). change (zlen (@nil A)) with 0 in L. lia.
  - exfalso. rewrite zlen_cons in L. pose proof (zlen_nonneg _ a). change (zlen (@nil A)) with 0 in L. lia.
  - rewrite !zlen_cons in L. cbn [app] in E. injection E as -> E. destruct (IH b c d ltac:(lia) E) as [-> ->]. split; reflexivity.
Qed.
Theorem read_back_unique : forall l t u, reads_back l t -> reads_back l u -> t = u.
Proof.
  intros l t u H. revert u. induction H; intros u K; inversion K; subst; try congruence; try (f_equal; auto; fail).
  all: match goal with HE : ?a ++ ?b = ?c ++ ?d |- _ => destruct (app_split _ a b c d ltac:(congruence) HE) as [? ?]; subst end.
  all: match goal with HA : hex_number_of 0 ?h = Some ?a, HB : hex_number_of 0 ?h = Some ?b |- _ => rewrite HA in HB; injection HB as <- end.
  all: f_equal; auto.
Qed.

(** ** Order *)

Lemma text_lt_name : forall a b, text_lt a b = true <-> name_before a b.
Proof.
  unfold name_before. induction a as [|x a IH]; intros [|y b]; cbn.
  - split; [discriminate|intros H; inversion H].
  - split; [intros _; constructor|reflexivity].
  - split; [discriminate|intros H; inversion H].
  - destruct (x <? y) eqn:E1; [split; [intros _; apply before_here; lia|reflexivity]|]. destruct (y <? x) eqn:E2.
    + split; [discriminate|intros H; inversion H; subst; lia].
    + assert (x = y) by lia. subst y. rewrite IH. split; [apply before_later|intros H; inversion H; subst; [lia|assumption]].
Qed.
Lemma name_before_trans : forall a b c, name_before a b -> name_before b c -> name_before a c.
Proof.
  unfold name_before. induction a as [|x a IH]; intros b c H K; inversion H; subst; inversion K; subst; try (apply before_end); try (apply before_here; lia).
  apply before_later. eapply IH; eassumption.
Qed.
Lemma name_before_total : forall a b, a <> b -> ~ name_before a b -> name_before b a.
Proof.
  unfold name_before. induction a as [|x a IH]; intros [|y b] H N; try congruence; try (now constructor).
  - exfalso. apply N. constructor.
  - destruct (Z.lt_total x y) as [L|[->|L]]; [exfalso; apply N; now apply before_here| |now apply before_here].
    apply before_later. apply IH; [congruence|]. intros K. apply N. now apply before_later.
Qed.

Lemma insert_perm : forall {A} (kv : list Z * A) l, Permutation (kv :: l) (insert_item kv l).
Proof.
  intros A kv l. induction l as [|x l IH]; cbn [insert_item]; [apply Permutation_refl|]. destruct (text_lt (fst x) (fst kv)); [|apply Permutation_refl].
  eapply Permutation_trans; [apply perm_swap|]. apply perm_skip. exact IH.
Qed.
Lemma sort_perm : forall {A} (l : list (list Z * A)), Permutation l (sort_items l).
Proof.
  intros A l. induction l as [|x l IH]; [apply Permutation_refl|]. cbn [sort_items fold_right].
  eapply Permutation_trans; [apply perm_skip; exact IH|]. apply insert_perm.
Qed.
Lemma insert_names : forall {A} (kv : list Z * A) l, insert_name (fst kv) (map fst l) = map fst (insert_item kv l).
Proof. intros A kv l. induction l as [|x l IH]; [reflexivity|]. cbn [map insert_name insert_item]. unfold name in *. destruct (text_lt (fst x) (fst kv)); [cbn [map]; f_equal; exact IH|reflexivity]. Qed.
Lemma sort_names_items : forall {A} (l : list (list Z * A)), sort_names (map fst l) = map fst (sort_items l).
Proof. intros A l. induction l as [|x l IH]; [reflexivity|]. cbn [map sort_names sort_items fold_right]. fold (sort_names (map fst l)). rewrite IH. apply insert_names. Qed.
Lemma insert_asc : forall {A} (kv : list Z * A) l, ~ In (fst kv) (map fst l) -> ascending name_before (map fst l) -> ascending name_before (map fst (insert_item kv l)).
Proof.
  intros A kv l. induction l as [|x l IH]; intros N H; cbn [insert_item map]; [constructor; [intros ? []|constructor]|].
  cbn in H. inversion H as [|? ? F G]; subst. destruct (text_lt (fst x) (fst kv)) eqn:E; cbn [map].
  - apply text_lt_name in E. constructor; [|apply IH; [intros I; apply N; right; exact I|exact G]].
    intros k I. apply (Permutation_in k (Permutation_map fst (Permutation_sym (insert_perm kv l)))) in I. cbn [map] in I. destruct I as [<-|I]; [exact E|apply F; exact I].
  - assert (B : name_before (fst kv) (fst x)).
    { apply name_before_total; [intros E'; apply N; left; exact E'|]. intros C. apply text_lt_name in C. congruence. }
    constructor; [|exact H]. intros k [<-|I]; [exact B|]. exact (name_before_trans _ _ _ B (F k I)).
Qed.
Lemma sort_asc : forall {A} (l : list (list Z * A)), NoDup (map fst l) -> ascending name_before (map fst (sort_items l)).
Proof.
  intros A l. induction l as [|x l IH]; intros H; [constructor|]. cbn [map] in H. inversion H; subst. cbn [sort_items fold_right]. apply insert_asc; [|apply IH; assumption].
  intros I. apply (Permutation_in (fst x) (Permutation_map fst (Permutation_sym (sort_perm l)))) in I. contradiction.
Qed.

(** ** The listing *)

(** The paths below each name, in the order of the listing. *)
Fixpoint blocks (d : dir) : list (name * list (list name)) :=
  match d with
  | DNil => []
  | DFile n _ r => (n, [[n]]) :: blocks r
  | DDir n s r => (n, map (cons n) (concat (map snd (sort_items (blocks s))))) :: blocks r
  end.
Definition listed (d : dir) : list (list name) := concat (map snd (sort_items (blocks d))).
Lemma blocks_names : forall d, map fst (blocks d) = dnames d.
Proof. induction d as [|n b r IH|n s IHs r IHr]; cbn; congruence. Qed.
Lemma concat_perm : forall A (l m : list (list A)), Permutation l m -> Permutation (concat l) (concat m).
Proof.
  intros A l m H. induction H; cbn [concat]; [constructor|now apply Permutation_app_head| |eapply Permutation_trans; eassumption].
  rewrite !app_assoc. apply Permutation_app_tail. apply Permutation_app_comm.
Qed.
Lemma listed_perm : forall d, Permutation (listed d) (map fst (files d)).
Proof.
  assert (H : forall d, Permutation (concat (map snd (blocks d))) (map fst (files d))).
  { induction d as [|n b r IH|n s IHs r IHr]; cbn [blocks map files concat fst snd app]; [constructor|now apply perm_skip|].
    rewrite map_app, map_map. cbn [fst]. rewrite <- (map_map fst (cons n)). apply Permutation_app; [|exact IHr]. apply Permutation_map.
    eapply Permutation_trans; [|exact IHs]. apply concat_perm. apply Permutation_map. apply Permutation_sym. apply sort_perm. }
  intros d. eapply Permutation_trans; [|apply H]. apply concat_perm. apply Permutation_map. apply Permutation_sym. apply sort_perm.
Qed.
Lemma block_heads : forall d n ps p, In (n, ps) (blocks d) -> In p ps -> exists q, p = n :: q.
Proof.
  induction d as [|m b r IH|m s IHs r IHr]; cbn [blocks]; intros n ps p HI HP; [contradiction| |].
  - destruct HI as [HI|HI]; [|eapply IH; eassumption]. injection HI as <- <-. destruct HP as [<-|[]]. now exists [].
  - destruct HI as [HI|HI]; [|eapply IHr; eassumption]. injection HI as <- <-. apply in_map_iff in HP. destruct HP as (q & <- & _). now exists q.
Qed.
Lemma asc_app : forall A (lt : A -> A -> Prop) l m, ascending lt l -> ascending lt m -> (forall x y, In x l -> In y m -> lt x y) -> ascending lt (l ++ m).
Proof.
  intros A lt l m HL HM HX. induction HL as [|x l HF HL IH]; [exact HM|]. cbn [app]. constructor.
  - intros y HI. apply in_app_iff in HI. destruct HI as [HI|HI]; [now apply HF|]. apply HX; [now left|exact HI].
  - apply IH. intros a b Ha Hb. apply HX; [now right|exact Hb].
Qed.
Lemma asc_map_cons : forall n l, ascending path_before l -> ascending path_before (map (cons n) l).
Proof.
  intros n l H. induction H as [|p l HF HL IH]; cbn [map]; constructor; [|exact IH].
  intros q HI. apply in_map_iff in HI. destruct HI as (q' & <- & HI). apply before_later. now apply HF.
Qed.
Lemma asc_blocks : forall l : list (name * list (list name)), ascending name_before (map fst l) ->
  (forall n ps p, In (n, ps) l -> In p ps -> exists q, p = n :: q) -> (forall n ps, In (n, ps) l -> ascending path_before ps) ->
  ascending path_before (concat (map snd l)).
Proof.
  induction l as [|[n ps] l IH]; intros HA HH HB; [constructor|]. cbn [map concat fst snd] in *. inversion HA as [|? ? HF HG]; subst.
  apply asc_app; [apply (HB n ps); now left|apply IH; [exact HG|intros m qs p HI HP; apply (HH m qs p); [now right|exact HP]|intros m qs HI; apply (HB m qs); now right]|].
  intros p q HP HQ. apply in_concat in HQ. destruct HQ as (qs & HI & HQ). apply in_map_iff in HI. destruct HI as ([m qs'] & <- & HI). cbn [snd] in HQ.
  destruct (HH n ps p (or_introl eq_refl) HP) as (p' & ->). destruct (HH m qs' q (or_intror HI) HQ) as (q' & ->).
  apply before_here. apply HF. apply in_map_iff. exists (m, qs'). split; [reflexivity|exact HI].
Qed.
Lemma dnames_nodup : forall d, distinct d -> NoDup (dnames d).
Proof. induction d as [|n b r IH|n s IHs r IHr]; cbn [distinct dnames]; intros H; constructor; try tauto. Qed.
Lemma sorted_blocks_in : forall d e, In e (sort_items (blocks d)) -> In e (blocks d).
Proof. intros d e H. eapply Permutation_in; [apply Permutation_sym, sort_perm|exact H]. Qed.
Lemma listed_asc : forall d, distinct d -> ascending path_before (listed d).
Proof.
  assert (H : forall d, distinct d -> forall n ps, In (n, ps) (blocks d) -> ascending path_before ps).
  { induction d as [|m b r IH|m s IHs r IHr]; cbn [blocks distinct]; intros HD n ps HI; [contradiction| |].
    - destruct HI as [HI|HI]; [|eapply IH; [tauto|eassumption]]. injection HI as <- <-. constructor; [intros ? []|constructor].
    - destruct HI as [HI|HI]; [|eapply IHr; [tauto|eassumption]]. injection HI as <- <-. apply asc_map_cons. apply asc_blocks.
      + apply sort_asc. rewrite blocks_names. apply dnames_nodup. tauto.
      + intros n ps p HI HP. eapply block_heads; [apply sorted_blocks_in; exact HI|exact HP].
      + intros n ps HI. eapply IHs; [tauto|]. apply sorted_blocks_in. exact HI. }
  intros d HD. unfold listed. apply asc_blocks.
  - apply sort_asc. rewrite blocks_names. now apply dnames_nodup.
  - intros n ps p HI HP. eapply block_heads; [apply sorted_blocks_in; exact HI|exact HP].
  - intros n ps HI. eapply H; [exact HD|]. apply sorted_blocks_in. exact HI.
Qed.

(** *** What is printed *)
Definition print_loop (g : name -> res item) (basepath : name) : list name -> gen (list Z) :=
  fix loop (names : list name) : gen (list Z) :=
    match names with
    | [] => ([], Finished)
    | n :: r =>
        match g n with
        | Raise e => ([], Failed e)
        | Ok y =>
            if is_storage y then gthen (printstorage y (basepath ++ n ++ [SLASH])) (loop r)
            else if is_stream y then gcons (unicode_escape (basepath ++ n) ++ [10]) (loop r)
            else loop r
        end
    end.
Lemma print_eq : forall x base, printstorage x base = match snd (iter x) with Finished => print_loop (get x) base (sort_names (fst (iter x))) | o => ([], o) end.
Proof. intros [s i g st o f] base. reflexivity. Qed.
Definition line (base : name) (p : list name) : list Z := unicode_escape (base ++ joined p) ++ [10].
(** What is printed for a name. *)
Definition prints (x : item) (base n : name) (ps : list (list name)) : Prop :=
  exists y, get x n = Ok y /\
    ((is_storage y = true /\ printstorage y (base ++ n ++ [SLASH]) = (map (line base) ps, Finished)) \/
     (is_storage y = false /\ is_stream y = true /\ ps = [[n]])).
Lemma print_blocks : forall x base l, Forall (fun e => prints x base (fst e) (snd e)) l -> print_loop (get x) base (map fst l) = (map (line base) (concat (map snd l)), Finished).
Proof.
  intros x base l H. induction H as [|[n ps] l HP HL IH]; [reflexivity|]. cbn [map concat fst snd] in *. cbn [print_loop]. fold (print_loop (get x) base).
  destruct HP as (y & HG & [(HS & HP)|(HS & HT & ->)]); rewrite HG, HS.
  - rewrite HP, IH. unfold gthen, gapp. cbn [fst snd]. now rewrite map_app.
  - rewrite HT, IH. reflexivity.
Qed.
Lemma sorted_forall : forall {A} (P : list Z * A -> Prop) l, Forall P l -> Forall P (sort_items l).
Proof. intros A P l H. eapply Permutation_Forall; [apply sort_perm|exact H]. Qed.
Lemma listed_nonempty : forall d p, In p (listed d) -> p <> [].
Proof.
  intros d p H. apply (Permutation_in p (listed_perm d)) in H. apply in_map_iff in H. destruct H as (e & <- & HI). pose proof (files_nonempty d) as HF. rewrite Forall_forall in HF. now apply HF.
Qed.
Lemma printed : forall d x base, entries x d -> streamed x d -> Forall (fun e => prints x base (fst e) (snd e)) (blocks d).
Proof.
  induction d as [|n b r IH|n s IHs r IHr]; intros x base HE HS; cbn [blocks]; [constructor| |].
  - destruct HE as [(y & HG & HN & HO) HE]. destruct HS as [HS1 HS]. constructor; [|now apply IH]. cbn [fst snd]. exists y. split; [exact HG|]. right. auto.
  - destruct HE as [(y & HG & HN & HI & HM & HEs) HE]. destruct HS as [HS1 HS]. constructor; [|now apply IHr]. cbn [fst snd]. exists y. split; [exact HG|]. left. split; [exact HN|].
    rewrite print_eq, HI. cbn [fst snd]. rewrite <- blocks_names, sort_names_items, print_blocks by (apply sorted_forall, IHs; [exact HEs|now apply HS1]).
    f_equal. rewrite map_map. apply map_ext_in. intros p HP. unfold line. rewrite joined_cons by (apply (listed_nonempty s); exact HP). rewrite <- !app_assoc. reflexivity.
Qed.
Lemma ls_lines : forall x d, represents x d -> streamed x d -> ls_main x = (map (line []) (listed d), Finished).
Proof.
  intros x d (_ & HI & _ & HE) HS. unfold ls_main. rewrite print_eq, HI. cbn [fst snd]. rewrite <- blocks_names, sort_names_items, print_blocks by (apply sorted_forall, printed; assumption). reflexivity.
Qed.
Lemma code_joined : forall p, Forall code_text p -> code_text (joined p).
Proof.
  induction p as [|n p IH]; intros H; [constructor|]. inversion H; subst. destruct p as [|m p]; [assumption|].
  rewrite joined_cons by discriminate. apply Forall_app. split; [assumption|]. constructor; [unfold SLASH; lia|now apply IH].
Qed.
Lemma listing_of : forall ps, Forall (fun p => code_text (joined p)) ps -> listing ps (map (line []) ps).
Proof. intros ps H. induction H as [|p ps HP HL IH]; cbn [map]; constructor; [apply escaped, HP|apply escaped, HP|exact IH]. Qed.
Theorem ls_listing : forall x d, represents x d -> distinct d -> streamed x d -> all_names code_text d ->
  exists ps ls, ls_main x = (ls, Finished) /\ Permutation ps (map fst (files d)) /\ ascending path_before ps /\ listing ps ls.
Proof.
  intros x d HR HD HS HN. exists (listed d), (map (line []) (listed d)). split; [now apply ls_lines|]. split; [apply listed_perm|]. split; [now apply listed_asc|].
  apply listing_of. apply Forall_forall. intros p HP. apply (Permutation_in p (listed_perm d)) in HP. apply in_map_iff in HP. destruct HP as (e & <- & HI).
  pose proof (files_paths _ _ HN) as HF. rewrite Forall_forall in HF. apply code_joined. now apply HF.
Qed.
Lemma listing_in : forall ps ls l, listing ps ls -> In l ls -> exists p k, In p ps /\ l = k ++ [10] /\ printable k /\ reads_back k (joined p).
Proof.
  intros ps ls l H. induction H as [|p ps k ls HP HR HL IH]; intros HI; [contradiction|]. destruct HI as [<-|HI]; [exists p, k; split; [now left|auto]|].
  destruct (IH HI) as (q & m & HQ & HX). exists q, m. split; [now right|exact HX].
Qed.
Theorem ls_opens : forall x d ls l, represents x d -> distinct d -> streamed x d -> all_names code_text d -> all_names no_slash d ->
  ls_main x = (ls, Finished) -> In l ls -> exists k t y b, l = k ++ [10] /\ reads_back k t /\ open_storage_item x t = Ok y /\ open y = Ok b.
Proof.
  intros x d ls l HR HD HS HN HW HL HI. destruct (ls_listing x d HR HD HS HN) as (ps & ls' & HE & HP & _ & HG). rewrite HE in HL. injection HL as ->.
  destruct (listing_in _ _ _ HG HI) as (p & k & HIp & -> & _ & HB). apply (Permutation_in p HP) in HIp. apply in_map_iff in HIp. destruct HIp as ([q b] & <- & HIq).
  destruct (leaves_openable x d q b HR HW HIq) as (y & HO & HY). exists k, (joined q), y, b. auto.
Qed.
Theorem ls_once : forall x d ls, represents x d -> distinct d -> streamed x d -> all_names code_text d -> all_names no_slash d ->
  ls_main x = (ls, Finished) -> NoDup ls.
Proof.
  intros x d ls HR HD HS HN HW HL. rewrite (ls_lines x d HR HS) in HL. injection HL as <-. pose proof (files_paths _ _ HN) as HF. pose proof (files_paths _ _ HW) as HG. rewrite Forall_forall in HF, HG.
  apply nodup_map_inj; [|eapply Permutation_NoDup; [apply Permutation_sym, listed_perm|now apply files_distinct]].
  intros p q HP HQ HE. apply (Permutation_in p (listed_perm d)) in HP. apply (Permutation_in q (listed_perm d)) in HQ. apply in_map_iff in HP. destruct HP as (e & <- & HP). apply in_map_iff in HQ. destruct HQ as (e' & <- & HQ).
  unfold line in HE. apply app_inv_tail in HE. destruct (HG _ HP) as [? ?]. destruct (HG _ HQ) as [? ?]. apply joined_inj; try assumption.
  destruct (escaped (joined (fst e))) as [_ R1]; [apply code_joined; now apply HF|]. destruct (escaped (joined (fst e'))) as [_ R2]; [apply code_joined; now apply HF|].
  cbn [app] in HE. rewrite HE in R1. exact (read_back_unique _ _ _ R1 R2).
Qed.
(** Nothing of a storage is printed if its names cannot be listed. *)
Theorem ls_unlisted : forall x ns e, iter x = (ns, Failed e) -> ls_main x = ([], Failed e).
Proof. intros x ns e H. unfold ls_main. rewrite print_eq, H. reflexivity. Qed.
Lemma dir_streamed : forall d, distinct d -> streamed (dir_item d) d.
Proof.
  assert (H : forall d, distinct d -> forall x, (forall n, In n (dnames d) -> get x n = look d n) -> streamed x d).
  { induction d as [|n b r IH|n s IHs r IHr]; cbn [distinct dnames]; intros HD x HG; cbn [streamed]; [exact I| |].
    - split; [intros y HY; rewrite HG in HY by (now left); cbn [look] in HY; rewrite name_eqb_refl in HY; injection HY as <-; reflexivity|].
      apply IH; [tauto|]. intros m HM. rewrite HG by (now right). cbn [look]. replace (name_eqb n m) with false; [reflexivity|]. symmetry. apply name_eqb_neq. intros ->. tauto.
    - split.
      + intros y HY. rewrite HG in HY by (now left). cbn [look] in HY. rewrite name_eqb_refl in HY. injection HY as <-. apply IHs; [tauto|]. intros m _. rewrite dir_item_eq. reflexivity.
      + apply IHr; [tauto|]. intros m HM. rewrite HG by (now right). cbn [look]. replace (name_eqb n m) with false; [reflexivity|]. symmetry. apply name_eqb_neq. intros ->. tauto. }
  intros d HD. apply H; [exact HD|]. intros n _. rewrite dir_item_eq. reflexivity.
Qed.

(** ** diststream *)

Lemma znth_mid : forall A (a b c : list A) i, 0 <= i < zlen b -> znth (zlen a + i) (a ++ b ++ c) = znth i b.
Proof.
  intros A a b c i H. pose proof (zlen_nonneg _ a). rewrite !znth_nth_error by lia. unfold zlen in *.
  rewrite nth_error_app2 by lia. rewrite nth_error_app1 by lia. f_equal. lia.
Qed.
Lemma znth_some : forall A (l : list A) i, 0 <= i < zlen l -> exists x, znth i l = Some x.
Proof.
  intros A l i H. rewrite znth_nth_error by lia. destruct (nth_error l (Z.to_nat i)) as [x|] eqn:E; [now exists x|]. apply nth_error_None in E. unfold zlen in H. lia.
Qed.
Lemma znth_bound : forall A (l : list A) i x, 0 <= i -> znth i l = Some x -> i < zlen l.
Proof.
  intros A l i x H E. rewrite znth_nth_error in E by lia. assert (nth_error l (Z.to_nat i) <> None) by congruence. apply nth_error_Some in H0. unfold zlen. lia.
Qed.
Lemma znth_ext : forall A (l m : list A), zlen l = zlen m -> (forall i, 0 <= i < zlen l -> znth i l = znth i m) -> l = m.
Proof.
  intros A l. induction l as [|x l IH]; intros [|y m] HL H.
  - reflexivity.
  - exfalso. rewrite zlen_cons in HL. pose proof (zlen_nonneg _ m). change (zlen (@nil A)) with 0 in HL. lia.
  - exfalso. rewrite zlen_cons in HL. pose proof (zlen_nonneg _ l). change (zlen (@nil A)) with 0 in HL. lia.
  - rewrite !zlen_cons in *. pose proof (zlen_nonneg _ l). assert (x = y) by (specialize (H 0 ltac:(lia)); cbn in H; congruence). subst y. f_equal. apply IH; [lia|].
    intros i Hi. specialize (H (i + 1) ltac:(lia)). cbn [znth] in H. replace (i + 1 =? 0) with false in H by lia. replace (i + 1 - 1) with i in H by lia. replace (i + 1 <=? 0) with false in H by lia. exact H.
Qed.
Lemma lxor_twice : forall a k, Z.lxor (Z.lxor a k) k = a.
Proof. intros a k. now rewrite Z.lxor_assoc, Z.lxor_nilpotent, Z.lxor_0_r. Qed.
Lemma znth_negative : forall A (l : list A) i x, znth i l = Some x -> 0 <= i.
Proof.
  intros A l. induction l as [|y l IH]; intros i x H; cbn in H; [discriminate|]. destruct (i =? 0) eqn:E; [lia|]. destruct (i <=? 0); [discriminate|]. apply IH in H. lia.
Qed.

Lemma hidden_digest : forall p w, all_bytes p -> zlen p = 256 -> (hides p w <-> decode_head_to_sha1 p = Ok w).
Proof.
  intros p w HB HL. destruct (digest_spec p HB HL) as (d & HD & LD & a & b & HE & LA). set (o := 4 + seed_of p mod 16) in *.
  assert (HK : forall i, 0 <= i < 80 -> exists j c, in_run (seed_of p) j (o + i) /\ znth (o + i) p = Some c /\ znth i d = Some (Z.lxor c (run_key (seed_of p) j))).
  { intros i Hi. assert (0 <= seed_of p mod 16 < 16) by (apply Z.mod_pos_bound; lia). assert (HO : 4 <= o + i < zlen p) by lia.
    destruct (in_run_exists (seed_of p) (o + i) ltac:(lia)) as [j Hj]. destruct (znth_some _ p (o + i) ltac:(lia)) as [c Hc]. exists j, c. split; [exact Hj|]. split; [exact Hc|].
    pose proof (decode_head_spec p (o + i) j HB ltac:(lia) Hj) as HS. rewrite Hc in HS. replace (o + i <? 4) with false in HS by lia.
    rewrite HE in HS. rewrite <- LA in HS at 1. rewrite znth_mid in HS by lia. exact HS. }
  rewrite HD. split.
  - intros (_ & _ & LW & HW). f_equal. symmetry. apply znth_ext; [lia|]. intros i Hi. destruct (znth_some _ w i Hi) as [c Hc].
    destruct (HK i ltac:(lia)) as (j & e & Hj & HP & HN). specialize (HW i c j Hc Hj). fold o in HW. rewrite HW in HP. injection HP as <-. rewrite lxor_twice in HN. congruence.
  - intros HX. injection HX as <-. split; [exact HB|]. split; [exact HL|]. split; [exact LD|]. intros i c j Hc Hj. fold o in Hj |- *.
    pose proof (znth_negative _ _ _ _ Hc) as H0. pose proof (znth_bound _ _ _ _ H0 Hc) as H1.
    destruct (HK i ltac:(lia)) as (k & e & Hk & HP & HN). rewrite (in_run_unique _ _ _ _ Hj Hk). rewrite HP. rewrite Hc in HN. injection HN as ->. now rewrite lxor_twice.
Qed.
Theorem hides_one : forall p, all_bytes p -> zlen p = 256 -> exists! w, hides p w.
Proof.
  intros p HB HL. destruct (digest_spec p HB HL) as (d & HD & _). exists d. split; [now apply hidden_digest|]. intros w HW. apply hidden_digest in HW; [congruence|exact HB|exact HL].
Qed.

Lemma digit_value : forall c d, hex_digit_value c = Some d <-> digit c d.
Proof.
  intros c d. unfold hex_digit_value. split.
  - intros H. destruct ((48 <=? c) && (c <=? 57)) eqn:E1; [injection H as <-; replace c with (48 + (c - 48)) at 1 by lia; constructor; lia|].
    destruct ((97 <=? c) && (c <=? 102)) eqn:E2; [injection H as <-; replace c with (87 + (c - 87)) at 1 by lia; constructor; lia|].
    destruct ((65 <=? c) && (c <=? 70)) eqn:E3; [injection H as <-; replace c with (55 + (c - 55)) at 1 by lia; constructor; lia|discriminate].
  - intros H. destruct H as [d H|d H|d H].
    + replace ((48 <=? 48 + d) && (48 + d <=? 57)) with true by lia. f_equal. lia.
    + replace ((48 <=? 87 + d) && (87 + d <=? 57)) with false by lia. replace ((97 <=? 87 + d) && (87 + d <=? 102)) with true by lia. f_equal. lia.
    + replace ((48 <=? 55 + d) && (55 + d <=? 57)) with false by lia. replace ((97 <=? 55 + d) && (55 + d <=? 102)) with false by lia. replace ((65 <=? 55 + d) && (55 + d <=? 70)) with true by lia. f_equal. lia.
Qed.
Lemma a2b_iff : forall t v, a2b_hex t = Ok v <-> spells t v.
Proof.
  assert (H : forall n t v, (List.length t <= n)%nat -> a2b_hex t = Ok v <-> spells t v).
  { induction n as [|n IH]; intros t v HN.
    - destruct t; [|cbn in HN; lia]. cbn. split; [intros H; injection H as <-; constructor|intros H; inversion H; reflexivity].
    - destruct t as [|a [|b t]].
      + cbn. split; [intros H; injection H as <-; constructor|intros H; inversion H; reflexivity].
      + cbn. split; [discriminate|intros H; inversion H].
      + cbn [a2b_hex]. assert (HI : forall v, a2b_hex t = Ok v <-> spells t v) by (intros; apply IH; cbn in HN; lia). split.
        * destruct (hex_digit_value a) as [x|] eqn:EA; [|discriminate]. destruct (hex_digit_value b) as [y|] eqn:EB; [|discriminate].
          destruct (a2b_hex t) as [u|e] eqn:ET; cbn; [|discriminate]. intros H. injection H as <-. constructor; [now apply digit_value|now apply digit_value|now apply HI].
        * intros H. inversion H as [|a0 b0 x y t0 v0 HA HB HT]; subst. apply digit_value in HA, HB. apply HI in HT. rewrite HA, HB, HT. reflexivity. }
  intros t v. apply (H (List.length t)). lia.
Qed.
Lemma a2b_error : forall t e, a2b_hex t = Raise e -> e = ValueError.
Proof.
  assert (H : forall n t e, (List.length t <= n)%nat -> a2b_hex t = Raise e -> e = ValueError).
  { induction n as [|n IH]; intros t e HN HE; (destruct t as [|a [|b t]]; [discriminate|cbn in HE; cbn in HN; congruence || lia|]).
    - cbn in HN. lia.
    - cbn [a2b_hex] in HE. destruct (hex_digit_value a); [|congruence]. destruct (hex_digit_value b); [|congruence].
      destruct (a2b_hex t) eqn:ET; cbn in HE; [discriminate|]. injection HE as <-. apply (IH t e0); [cbn in HN; lia|exact ET]. }
  intros t e. apply (H (List.length t)). lia.
Qed.
Lemma digit_ascii : forall c d, digit c d -> 48 <= c <= 102 /\ 0 <= d <= 15.
Proof. intros c d H. destruct H; lia. Qed.
Lemma spells_ascii : forall t v, spells t v -> Forall (fun c => 48 <= c <= 102) t /\ all_bytes v.
Proof.
  intros t v H. induction H as [|a b x y t v HA HB HT IH]; [split; constructor|]. apply digit_ascii in HA, HB. destruct IH. split; [constructor; [lia|constructor; [lia|assumption]]|].
  constructor; [unfold is_byte; lia|assumption].
Qed.
Lemma spells_length : forall t v, spells t v -> zlen t = 2 * zlen v.
Proof. intros t v H. induction H; [reflexivity|]. rewrite !zlen_cons. lia. Qed.
Lemma lower_digit : forall x, is_digit 16 x -> digit (hexdigit_lower x) x /\ lower_case (hexdigit_lower x).
Proof.
  intros x H. unfold is_digit in H. unfold hexdigit_lower, lower_case. destruct (x <? 10) eqn:E; (split; [constructor; lia|lia]).
Qed.
Lemma b2a_spells : forall v, all_bytes v -> spells (b2a_hex v) v /\ Forall lower_case (b2a_hex v).
Proof.
  intros v H. induction H as [|b v HB HV [IS IL]]; [split; constructor|]. unfold b2a_hex. cbn [map concat]. fold (b2a_hex v).
  destruct (fmt_x2_byte b HB) as (x & y & HE & HX & HY & <-). rewrite HE. cbn [app]. apply lower_digit in HX, HY. destruct HX, HY. split; [constructor; assumption|constructor; [assumption|constructor; assumption]].
Qed.
Lemma wide_utf16 : forall t, Forall (fun c => 48 <= c <= 102) t -> utf16le_bytes t = wide t /\ Forall scalar t.
Proof.
  intros t H. induction H as [|c t HC HT [IW IS]]; [split; [reflexivity|constructor]|]. split; [|constructor; [unfold scalar; lia|exact IS]].
  unfold utf16le_bytes, utf16_units, wide in *. cbn [map concat]. unfold utf16_units_of at 1. replace (c <? 0x10000) with true by lia. cbn [app map concat]. rewrite IW. unfold le16.
  rewrite Z.mod_small, Z.div_small by lia. reflexivity.
Qed.
Lemma all_bytes_slice : forall a b l, all_bytes l -> all_bytes (zslice a b l).
Proof. intros a b l H. unfold zslice. apply all_bytes_ztake, all_bytes_zdrop, H. Qed.

Section Diststream.
  Variable decrypt : list Z -> list Z -> res (list Z).
  Variables (h : list Z) (t l : Z) (p rest : list Z).
  Hypothesis HH : header_says h t l 256.
  Hypothesis HB : all_bytes p.
  Hypothesis HL : zlen p = 256.
  Local Notation run := (fun op raw => diststream_main decrypt op raw (h ++ p ++ rest)).

  Lemma head_read : input_head (open_bytes (h ++ p ++ rest)) = Ok p.
  Proof. unfold input_head. rewrite (read_first h t l 256 p rest HH ltac:(lia) HL). reflexivity. Qed.
  Lemma digest_bytes : forall w, hides p w -> all_bytes w.
  Proof.
    intros w HW. apply hidden_digest in HW; [|exact HB|exact HL]. unfold decode_head_to_sha1 in HW. rewrite HL in HW. cbn [Z.eqb Pos.eqb] in HW. injection HW as <-.
    apply all_bytes_slice. apply decode_head_bytes. exact HB.
  Qed.

  Theorem key_written : forall w, hides p w -> run OpKey true = Ok (ztake 16 w) /\
    exists k, run OpKey false = Ok k /\ spells k (ztake 16 w) /\ Forall lower_case k.
  Proof.
    intros w HW. pose proof (digest_bytes w HW) as WB. apply hidden_digest in HW; [|exact HB|exact HL]. cbn beta. unfold diststream_main, decode_head_to_key. rewrite head_read. cbn [bind]. rewrite HW. cbn [bind].
    split; [reflexivity|]. destruct (b2a_spells (ztake 16 w)) as [S1 S2]; [apply all_bytes_ztake; exact WB|]. eauto.
  Qed.
  Theorem sha1_written : forall text v, hides p (wide text) -> spells text v -> run OpSha1 true = Ok v /\
    exists k, run OpSha1 false = Ok k /\ spells k v /\ Forall lower_case k.
  Proof.
    intros text v HW HS. destruct (spells_ascii _ _ HS) as [HA HV]. destruct (wide_utf16 text HA) as [W1 W2]. pose proof (digest_bytes _ HW) as WB. apply hidden_digest in HW; [|exact HB|exact HL].
    cbn beta. unfold diststream_main. rewrite head_read. cbn [bind]. rewrite HW. cbn [bind].
    assert (HU : utf16le_decode (wide text) = Ok text) by (apply utf16le_decode_iff; [exact WB|auto]). rewrite HU. cbn [bind]. apply a2b_iff in HS. rewrite HS. cbn [bind].
    split; [reflexivity|]. destruct (b2a_spells v HV). eauto.
  Qed.
  Theorem sha1_digits : forall raw o, run OpSha1 raw = Ok o -> exists text v, hides p (wide text) /\ spells text v /\ zlen v = 20.
  Proof.
    intros raw o HO. destruct (hides_one p HB HL) as (w & HW & _). pose proof (digest_bytes _ HW) as WB. pose proof HW as HX. apply hidden_digest in HX; [|exact HB|exact HL].
    cbn beta in HO. unfold diststream_main in HO. rewrite head_read in HO. cbn [bind] in HO. rewrite HX in HO. cbn [bind] in HO.
    destruct (utf16le_decode w) as [text|e] eqn:EU; cbn [bind] in HO; [|discriminate]. destruct (a2b_hex text) as [v|e] eqn:EA; cbn [bind] in HO; [|discriminate].
    apply a2b_iff in EA. apply utf16le_decode_iff in EU; [|exact WB]. destruct EU as [EU _]. destruct (spells_ascii _ _ EA) as [HA _]. destruct (wide_utf16 text HA) as [W1 _].
    exists text, v. rewrite <- W1, <- EU. split; [exact HW|]. split; [exact EA|].
    destruct HW as (_ & _ & LW & _). apply spells_length in EA. rewrite EU, W1 in LW. unfold wide in LW.
    assert (X : forall q, zlen (concat (map (fun c => [c; 0]) q)) = 2 * zlen q) by (induction q as [|c q IHq]; [reflexivity|cbn [map concat]; rewrite zlen_app, IHq, !zlen_cons; change (zlen (@nil Z)) with 0; lia]).
    rewrite X in LW. lia.
  Qed.
  Theorem sha1_error : forall raw e, run OpSha1 raw = Raise e -> e = ValueError \/ e = UnicodeDecodeError.
  Proof.
    intros raw e HO. destruct (hides_one p HB HL) as (w & HW & _). apply hidden_digest in HW; [|exact HB|exact HL].
    cbn beta in HO. unfold diststream_main in HO. rewrite head_read in HO. cbn [bind] in HO. rewrite HW in HO. cbn [bind] in HO.
    destruct (utf16le_decode w) as [text|e'] eqn:EU; cbn [bind] in HO; [|right; apply utf16le_decode_error in EU; congruence].
    destruct (a2b_hex text) as [v|e'] eqn:EA; cbn [bind] in HO; [discriminate|]. apply a2b_error in EA. left. congruence.
  Qed.
  Theorem decoded_with_key : forall raw k, t = 28 -> run OpKey true = Ok k -> run OpDecode raw = decrypt k rest.
  Proof.
    intros raw k HT HK. cbn beta in *. unfold diststream_main in *. rewrite head_read in HK. cbn [bind] in HK. subst t.
    rewrite (decode_is decrypt h l 256 p rest HH ltac:(lia) HL). destruct (decode_head_to_key p) as [key|e]; cbn [bind] in HK; [injection HK as ->; reflexivity|discriminate].
  Qed.
End Diststream.

Theorem other_size_refused : forall decrypt h t l n p rest op raw, header_says h t l n -> 0 < n -> zlen p = n -> n <> 256 ->
  diststream_main decrypt op raw (h ++ p ++ rest) = Raise (match op with OpDecode => if t =? 28 then ValueError else IOError | _ => ValueError end).
Proof.
  intros decrypt h t l n p rest op raw HH HN HL HX. destruct (digest_wrong_length p) as [D1 D2]; [lia|].
  assert (HR : input_head (open_bytes (h ++ p ++ rest)) = Ok p) by (unfold input_head; rewrite (read_first h t l n p rest HH HN HL); reflexivity).
  unfold diststream_main. destruct op.
  - destruct (t =? 28) eqn:ET.
    + assert (t = 28) by lia. subst t. rewrite (decode_is decrypt h l n p rest HH HN HL), D2. reflexivity.
    + apply (decode_other_tag decrypt h t l n p rest HH HN HL). lia.
  - rewrite HR. cbn [bind]. rewrite D1. reflexivity.
  - rewrite HR. cbn [bind]. rewrite D2. reflexivity.
Qed.
