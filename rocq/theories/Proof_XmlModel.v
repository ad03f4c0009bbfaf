(** Proofs about the event passes: list headers, tables, languages, sections,
    columns, ids. *)
From Coq Require Import ZArith String List Bool Lia.
From Verif Require Import Base BaseFacts Model_Tree Spec_Tree Proof_Tree Model_ParaText Model_Shape Model_Lang Model_Classes Model_XmlModel Spec_XmlModel.
Import ListNotations.
Open Scope string_scope.
Open Scope list_scope.
Open Scope Z_scope.

Lemma gcons_gapp1 : forall A (x : A) l g, gcons x (gapp l g) = gapp (x :: l) g.
Proof. intros. rewrite gcons_gapp, gapp_gapp. reflexivity. Qed.
Lemma gapp_end : forall A (l : list A) o, gapp l ([], o) = (l, o).
Proof. intros. unfold gapp. cbn. now rewrite app_nil_r. Qed.
Lemma walk_app_cons : forall A (x : A) k n rest, walk (FCons x k n) ++ rest = EStart x :: walk k ++ EEnd x :: walk n ++ rest.
Proof. intros. cbn [walk app]. rewrite <- app_assoc. reflexivity. Qed.

Ltac gnorm := rewrite ?gcons_gapp, ?gapp_gapp; f_equal; cbn [app]; rewrite <- ?app_assoc; cbn [app]; rewrite <- ?app_assoc; try reflexivity.

(** ** List headers *)

Section Adopt.
  Variables isparent ischild : item -> bool.
  Hypothesis disjoint : forall x, isparent x = true -> ischild x = false.
  Notation loop := (listheader_loop isparent ischild).
  Notation ado := (adopt isparent ischild).

  (** Everything is above level [d]: nothing pending at [d + 1] or deeper. *)
  Definition quiet (d : Z) (st : list (Z * item)) : Prop := match st with [] => True | (l, _) :: _ => l <= d end.

  Lemma end_quiet : forall d st y rest o, quiet d st ->
    loop st d (EEnd y :: rest) o = if isparent y then loop st (d - 1) rest o else gcons (EEnd y) (loop st (d - 1) rest o).
  Proof.
    intros d st y rest o Q. cbn [listheader_loop]. destruct st as [|[l lh] st]; [rewrite gapp_nil; reflexivity|].
    cbn in Q. replace (l - 1 =? d) with false by lia. rewrite gapp_nil. reflexivity.
  Qed.

  Lemma end_pending : forall d st lh y rest o, quiet d st ->
    loop ((d + 1, lh) :: st) d (EEnd y :: rest) o = gapp [EEnd lh] (loop st d (EEnd y :: rest) o).
  Proof.
    intros d st lh y rest o Q. rewrite (end_quiet d st) by exact Q. cbn [listheader_loop].
    replace (d + 1 - 1 =? d) with true by lia. reflexivity.
  Qed.

  Lemma start_quiet : forall d st x rest o, quiet d st ->
    loop st d (EStart x :: rest) o = gcons (EStart x) (loop (if isparent x then (d + 1, x) :: st else st) (d + 1) rest o).
  Proof.
    intros d st x rest o Q. cbn [listheader_loop]. destruct st as [|[l lh] st]; [rewrite gapp_nil; reflexivity|].
    cbn in Q. replace (l =? d + 1) with false by lia. cbn [andb]. rewrite gapp_nil. reflexivity.
  Qed.

  Lemma start_pending : forall d st lh x rest o, quiet d st -> ischild x = false ->
    loop ((d + 1, lh) :: st) d (EStart x :: rest) o = gapp [EEnd lh] (loop st d (EStart x :: rest) o).
  Proof.
    intros d st lh x rest o Q C. rewrite (start_quiet d st) by exact Q. cbn [listheader_loop]. rewrite C, Z.eqb_refl. reflexivity.
  Qed.

  Lemma start_child : forall d st lh x rest o, ischild x = true ->
    loop ((d + 1, lh) :: st) d (EStart x :: rest) o = gcons (EStart x) (loop ((d + 1, lh) :: st) (d + 1) rest o).
  Proof.
    intros d st lh x rest o C. cbn [listheader_loop]. rewrite C, andb_false_r, gapp_nil.
    destruct (isparent x) eqn:E; [apply disjoint in E; congruence|reflexivity].
  Qed.

  Lemma quiet_S : forall d st, quiet d st -> quiet (d + 1) st.
  Proof. intros d [|[l lh] st]; cbn; lia. Qed.

  (** A walk of siblings at level d + 1, up to the end event of their parent:
      first without and then with a pending parent [lh] of this level. *)
  Lemma adopt_walk : forall f d st y rest o, quiet d st ->
    loop st d (walk f ++ EEnd y :: rest) o = gapp (walk (ado f)) (loop st d (EEnd y :: rest) o) /\
    forall lh, loop ((d + 1, lh) :: st) d (walk f ++ EEnd y :: rest) o =
      gapp (walk (frun ischild (ado f)) ++ EEnd lh :: walk (frest ischild (ado f))) (loop st d (EEnd y :: rest) o).
  Proof.
    induction f as [|x k IHk n IHn]; intros d st y rest o Q.
    - split; [cbn [walk app adopt]; now rewrite gapp_nil|]. intros lh. cbn [walk app adopt frun frest]. now apply end_pending.
    - assert (NP : loop st d (walk (FCons x k n) ++ EEnd y :: rest) o = gapp (walk (ado (FCons x k n))) (loop st d (EEnd y :: rest) o)).
      { rewrite walk_app_cons, start_quiet by exact Q. cbn [adopt]. destruct (isparent x) eqn:EP.
        - destruct (IHk (d + 1) ((d + 1, x) :: st) x (walk n ++ EEnd y :: rest) o) as [-> _]; [cbn; lia|].
          rewrite end_quiet by (cbn; lia). rewrite EP. replace (d + 1 - 1) with d by lia.
          destruct (IHn d st y rest o Q) as [_ ->]. cbn [walk]. rewrite walk_fapp. gnorm.
        - destruct (IHk (d + 1) st x (walk n ++ EEnd y :: rest) o (quiet_S _ _ Q)) as [-> _].
          rewrite end_quiet by now apply quiet_S. rewrite EP. replace (d + 1 - 1) with d by lia.
          destruct (IHn d st y rest o Q) as [-> _]. cbn [walk]. gnorm. }
      split; [exact NP|]. intros lh. destruct (ischild x) eqn:EC.
      + assert (EP : isparent x = false) by (destruct (isparent x) eqn:E; [apply disjoint in E; congruence|reflexivity]).
        rewrite walk_app_cons, start_child by exact EC. cbn [adopt]. rewrite EP. cbn [frun frest]. rewrite EC.
        destruct (IHk (d + 1) ((d + 1, lh) :: st) x (walk n ++ EEnd y :: rest) o) as [-> _]; [cbn; lia|].
        rewrite end_quiet by (cbn; lia). rewrite EP. replace (d + 1 - 1) with d by lia.
        destruct (IHn d st y rest o Q) as [_ ->]. cbn [walk]. gnorm.
      + assert (E : walk (FCons x k n) ++ EEnd y :: rest = EStart x :: walk k ++ EEnd x :: walk n ++ EEnd y :: rest) by apply walk_app_cons.
        rewrite E in *. rewrite start_pending by assumption. rewrite NP. rewrite gapp_gapp.
        replace (frun ischild (ado (FCons x k n))) with (@FNil item) by (cbn [adopt]; destruct (isparent x); cbn [frun]; now rewrite EC).
        replace (frest ischild (ado (FCons x k n))) with (ado (FCons x k n)) by (cbn [adopt]; destruct (isparent x); cbn [frest]; now rewrite EC).
        reflexivity.
  Qed.

  (** At the top, without parents there. *)
  Lemma adopt_top : forall f o, forallb (fun x => negb (isparent x)) (roots f) = true ->
    loop [] 0 (walk f) o = (walk (ado f), o).
  Proof.
    induction f as [|x k _ n IHn]; intros o H; [reflexivity|]. cbn in H. apply andb_true_iff in H. destruct H as [HP H]. apply negb_true_iff in HP.
    rewrite <- (app_nil_r (walk (FCons x k n))), walk_app_cons, start_quiet by exact I. rewrite HP.
    destruct (adopt_walk k (0 + 1) [] x (walk n ++ []) o I) as [-> _]. rewrite end_quiet by exact I. rewrite HP.
    replace (0 + 1 - 1) with 0 by lia. rewrite app_nil_r, (IHn o H). cbn [adopt]. rewrite HP. cbn [walk].
    unfold gapp, gcons. cbn. reflexivity.
  Qed.
End Adopt.

Lemma listheader_not_para : forall x, model_sub "ListHeader" x = true -> model_is "Paragraph" x = false.
Proof.
  intros x H. destruct (model_is "Paragraph" x) eqn:E; [|reflexivity]. unfold model_is in E. apply String.eqb_eq in E.
  unfold model_sub in H. rewrite E in H. vm_compute in H. discriminate.
Qed.
Lemma tablebody_not_cell : forall x, model_sub "TableBody" x = true -> model_is "TableCell" x = false.
Proof.
  intros x H. destruct (model_is "TableCell" x) eqn:E; [|reflexivity]. unfold model_is in E. apply String.eqb_eq in E.
  unfold model_sub in H. rewrite E in H. vm_compute in H. discriminate.
Qed.

Theorem listheader_pass : forall f, forallb (fun x => negb (is_listheader x)) (roots f) = true ->
  make_paragraphs_children_of_listheader (walk f, Finished) = (walk (adopt is_listheader is_para f), Finished).
Proof. intros f H. exact (adopt_top _ _ listheader_not_para f Finished H). Qed.

Theorem tablebody_pass : forall f, forallb (fun x => negb (model_sub "TableBody" x)) (roots f) = true ->
  make_cells_children_of_tablebody (walk f, Finished) = (walk (adopt (model_sub "TableBody") is_tablecell f), Finished).
Proof. intros f H. exact (adopt_top _ _ tablebody_not_cell f Finished H). Qed.

(** ** Tables *)

Lemma row_marks_cells : forall c, 1 <= c -> exists m, row_marks c = m /\ Z.of_nat (length m) = c.
Proof.
  intros c H. eexists. split; [reflexivity|]. unfold row_marks. destruct (c =? 1) eqn:E; [cbn; lia|].
  rewrite !app_length, repeat_length. cbn. lia.
Qed.

Lemma walk_ftake_fdrop : forall A n (f : forest A), walk (ftake n f) ++ walk (fdrop n f) = walk f.
Proof.
  induction n as [|n IH]; intros f; [reflexivity|]. destruct f as [|x k r]; [reflexivity|]. cbn [ftake fdrop walk app].
  rewrite <- app_assoc. cbn [app]. now rewrite IH.
Qed.

Lemma with_rows_roots : forall f, forallb is_tablecell (roots f) = true -> forallb is_tablecell (roots (with_rows f)) = true.
Proof.
  induction f as [|x k _ n IHn]; intros H; [reflexivity|]. cbn in H. apply andb_true_iff in H. destruct H as [H1 H2].
  cbn [with_rows]. unfold is_tablebody. destruct (model_is "TableBody" x) eqn:E; cbn; apply andb_true_iff; (split; [|now apply IHn]).
  - unfold is_tablecell, model_is in *. apply String.eqb_eq in H1. rewrite H1 in E. discriminate.
  - exact H1.
Qed.

Lemma flen_with_rows : forall f, flen (with_rows f) = flen f.
Proof. induction f as [|x k _ n IHn]; [reflexivity|]. cbn [with_rows]. destruct (is_tablebody x); cbn; now rewrite IHn. Qed.

Lemma cell_not_body : forall x, is_tablecell x = true -> is_tablebody x = false.
Proof. unfold is_tablecell, is_tablebody, model_is. intros x H. apply String.eqb_eq in H. rewrite H. reflexivity. Qed.

(** The events of cells with their marks. *)
Definition opens (m : Z) : list (event item) := if negb (Z.land m ROW_OPEN =? 0) then [EStart row_item] else [].
Definition closes (m : Z) : list (event item) := if negb (Z.land m ROW_CLOSE =? 0) then [EEnd row_item] else [].
Fixpoint marked (marks : list Z) (f : forest item) {struct f} : list (event item) :=
  match f, marks with
  | FCons x k n, m :: ms => opens m ++ EStart x :: walk k ++ EEnd x :: closes m ++ marked ms n
  | _, _ => []
  end.

Lemma marked_tail : forall j ms cells, (j < flen cells)%nat ->
  marked (repeat 0 j ++ ROW_CLOSE :: ms) cells = walk (ftake (S j) cells) ++ EEnd row_item :: marked ms (fdrop (S j) cells).
Proof.
  induction j as [|j IH]; intros ms cells H; (destruct cells as [|x k n]; [cbn in H; lia|]); cbn in H.
  - cbn. rewrite <- app_assoc. reflexivity.
  - cbn [repeat app marked]. rewrite IH by lia. change (opens 0) with (@nil (event item)). change (closes 0) with (@nil (event item)).
    cbn [ftake fdrop walk app]. rewrite <- app_assoc. reflexivity.
Qed.

Lemma marked_row : forall c ms cells, 1 <= c -> (Z.to_nat c <= flen cells)%nat ->
  marked (row_marks c ++ ms) cells = EStart row_item :: walk (ftake (Z.to_nat c) cells) ++ EEnd row_item :: marked ms (fdrop (Z.to_nat c) cells).
Proof.
  intros c ms cells Hc HL. unfold row_marks. destruct (c =? 1) eqn:E.
  - apply Z.eqb_eq in E. subst. destruct cells as [|x k n]; [cbn in HL; lia|]. change (Z.to_nat 1) with 1%nat.
    cbn [ftake fdrop walk app marked]. change (opens (Z.lor ROW_OPEN ROW_CLOSE)) with [EStart row_item]. change (closes (Z.lor ROW_OPEN ROW_CLOSE)) with [EEnd row_item].
    cbn [app]. rewrite <- app_assoc. reflexivity.
  - replace (Z.to_nat c) with (S (S (Z.to_nat (c - 2)))) in * by lia. destruct cells as [|x k n]; [cbn in HL; lia|]. cbn in HL.
    cbn [app]. rewrite <- app_assoc. cbn [app marked]. rewrite marked_tail by lia. change (opens ROW_OPEN) with [EStart row_item]. change (closes ROW_OPEN) with (@nil (event item)).
    remember (Z.to_nat (c - 2)) as j eqn:EJ. clear EJ. cbn [ftake fdrop walk app]. rewrite <- app_assoc. cbn [app]. reflexivity.
Qed.

Lemma flen_fdrop : forall A n (f : forest A), flen (fdrop n f) = (flen f - n)%nat.
Proof. induction n as [|n IH]; intros f; [cbn; lia|]. destruct f as [|x k r]; [reflexivity|]. cbn. apply IH. Qed.

Lemma marked_rows : forall l cells, Forall (fun c => 1 <= c) l -> Z.of_nat (flen cells) = zsum l ->
  marked (flat_map row_marks l) cells = walk (group_rows l cells).
Proof.
  intros l cells HP. revert cells. induction HP as [|c l Hc HP IH]; intros cells HL.
  - destruct cells; [reflexivity|cbn in HL; lia].
  - cbn [flat_map group_rows]. cbn in HL. fold (zsum l) in HL.
    assert (0 <= zsum l) by (clear -HP; induction HP; cbn; [lia|unfold zsum in *; lia]).
    rewrite marked_row by lia. cbn [walk]. rewrite IH; [reflexivity|]. rewrite flen_fdrop. lia.
Qed.

Lemma marks_length : forall l, Forall (fun c => 1 <= c) l -> Z.of_nat (length (flat_map row_marks l)) = zsum l.
Proof.
  induction 1 as [|c l Hc HP IH]; [reflexivity|]. cbn [flat_map zsum fold_right].
  rewrite app_length, Nat2Z.inj_add. destruct (row_marks_cells c Hc) as (m & <- & E). rewrite E. unfold zsum in IH. lia.
Qed.

Section Rows.
  Notation loop := tablebody_loop.

  Lemma rows_walk : forall f st rest o, everywhere table_node f ->
    (forallb (fun y => negb (is_tablecell y)) (roots f) = true ->
      loop st (walk f ++ rest) o = gapp (walk (with_rows f)) (loop st rest o)) /\
    (forall marks, forallb is_tablecell (roots f) = true -> (flen f <= length marks)%nat ->
      loop (marks :: st) (walk f ++ rest) o = gapp (marked marks (with_rows f)) (loop (skipn (flen f) marks :: st) rest o)).
  Proof.
    induction f as [|x k IHk n IHn]; intros st rest o HE.
    - split; [intros _; cbn [walk app with_rows]; now rewrite gapp_nil|].
      intros marks _ _. cbn [walk app with_rows ftrees flen skipn marked]. now rewrite gapp_nil.
    - rewrite walk_app_cons. cbn [everywhere] in HE. destruct HE as (HN & HK & HS). split.
      + intros HR. cbn [roots forallb] in HR. apply andb_true_iff in HR. destruct HR as [HX HR]. apply negb_true_iff in HX.
        cbn [tablebody_loop with_rows]. unfold is_tablecell in HX.
        unfold table_node in HN. destruct (is_tablebody x) eqn:EB; unfold is_tablebody in EB; rewrite EB.
        * destruct HN as ((l & EL) & HP & HC & HLEN). rewrite EL. unfold rowcols_of in *. rewrite EL in *.
          pose proof (marks_length l HP) as LEN.
          destruct (IHk st (EEnd x :: walk n ++ rest) o HK) as [_ IHk2]. rewrite (IHk2 _ HC) by lia. clear IHk2.
          cbn [tablebody_loop]. rewrite EB.
          destruct (IHn st rest o HS) as [IHn1 _]. rewrite (IHn1 HR). cbn [walk].
          rewrite marked_rows; [|exact HP|rewrite flen_with_rows; exact HLEN].
          gnorm.
        * rewrite HX. destruct (IHk st (EEnd x :: walk n ++ rest) o HK) as [IHk1 _]. rewrite (IHk1 HN). clear IHk1.
          cbn [tablebody_loop]. rewrite EB, HX. destruct (IHn st rest o HS) as [IHn1 _]. rewrite (IHn1 HR). cbn [walk].
          gnorm.
      + intros marks HR HL. cbn [roots forallb] in HR. apply andb_true_iff in HR. destruct HR as [HX HR].
        pose proof (cell_not_body x HX) as HB. unfold table_node in HN. rewrite HB in HN. cbn [flen] in HL.
        destruct marks as [|m marks]; [cbn in HL; lia|]. cbn in HL. cbn [tablebody_loop with_rows]. unfold is_tablecell in HX. rewrite HB. unfold is_tablebody in HB.
        rewrite HB, HX. destruct (IHk ((m :: marks) :: st) (EEnd x :: walk n ++ rest) o HK) as [IHk1 _]. rewrite (IHk1 HN). clear IHk1.
        cbn [tablebody_loop]. rewrite HB, HX. destruct (IHn st rest o HS) as [_ IHn2]. rewrite (IHn2 marks HR) by lia. cbn [flen skipn marked].
        unfold opens, closes. gnorm.
  Qed.
End Rows.

Theorem rows_pass : forall f, tables_ok f -> restructure_tablebody (walk f, Finished) = (walk (with_rows f), Finished).
Proof.
  intros f [HR HE]. unfold restructure_tablebody. cbn [fst snd]. rewrite <- (app_nil_r (walk f)).
  destruct (rows_walk f [] [] Finished HE) as [H _]. rewrite (H HR). cbn [tablebody_loop]. apply gapp_end.
Qed.

(** ** Languages *)

Lemma walk_tokens : forall shape toks, walk (token_forest shape toks) =
  flat_map (fun tok => [EStart (token_item shape (fst tok) (snd tok)); EEnd (token_item shape (fst tok) (snd tok))]) toks.
Proof. induction toks as [|t toks IH]; [reflexivity|]. cbn [token_forest fold_right walk flat_map app]. unfold token_forest in IH. now rewrite IH. Qed.

Lemma tokens_walk : forall f rest o, everywhere text_node f ->
  tokenize_loop_events (walk f ++ rest) o = gapp (walk (tokenized f)) (tokenize_loop_events rest o).
Proof.
  induction f as [|x k IHk n IHn]; intros rest o HE; [cbn [walk app tokenized]; now rewrite gapp_nil|].
  cbn [everywhere] in HE. destruct HE as (HX & HK & HN). rewrite walk_app_cons. cbn [tokenize_loop_events tokenized].
  destruct (is_text x) eqn:EX.
  - destruct (HX EX) as (-> & shape & t & E1 & E2). unfold is_text in EX. rewrite EX. unfold text_tokens. rewrite E1, E2. cbn [walk app tokenize_loop_events]. rewrite EX.
    rewrite (IHn rest o HN), walk_fapp, walk_tokens, gapp_gapp. reflexivity.
  - unfold is_text in EX. rewrite EX, (IHk _ o HK). cbn [tokenize_loop_events]. rewrite EX, (IHn rest o HN). cbn [walk].
    gnorm.
Qed.

Theorem tokens_pass : forall f, everywhere text_node f -> tokenize_text_by_lang (walk f, Finished) = (walk (tokenized f), Finished).
Proof.
  intros f H. unfold tokenize_text_by_lang. cbn [fst snd]. rewrite <- (app_nil_r (walk f)), (tokens_walk f [] Finished H). cbn [tokenize_loop_events]. apply gapp_end.
Qed.

(** ** Sections *)

Definition someev (e : event item) : event (option item) := match e with EStart x => EStart (Some x) | EEnd x => EEnd (Some x) end.
Definition no_sectiondef (evs : list (event item)) : Prop := Forall (fun e => match e with EStart x => is_sectiondef x = false | EEnd _ => True end) evs.

Lemma section_buffer : forall sid pre buf rest o, no_sectiondef pre ->
  section_loop sid buf (pre ++ rest) o = section_loop sid (rev pre ++ buf) rest o.
Proof.
  intros sid pre. induction pre as [|e pre IH]; intros buf rest o H; [reflexivity|]. inversion H as [|? ? He Hp]; subst.
  cbn [app rev]. rewrite <- app_assoc. cbn [app]. destruct e as [x|x]; cbn [section_loop].
  - unfold is_sectiondef in He. rewrite He. now apply IH.
  - now apply IH.
Qed.

(** The events before the definition, its children and the events after. *)
Theorem section_events_split : forall sid pre s kids post, no_sectiondef pre -> is_sectiondef s = true ->
  wrap_section sid (pre ++ EStart s :: walk kids ++ EEnd s :: post, Finished) =
  (map someev (EStart (section_item sid s) :: walk kids ++ pre ++ post ++ [EEnd (section_item sid s)]), Finished).
Proof.
  intros sid pre s kids post HP HS. unfold wrap_section. cbn [fst snd]. rewrite section_buffer by exact HP. rewrite app_nil_r.
  cbn [section_loop]. unfold is_sectiondef in HS. rewrite HS.
  rewrite (build_subtree_walk _ kids s post), Z.eqb_refl. rewrite rev_involutive, tree_events_multi_walk. unfold gapp. cbn [fst snd].
  f_equal. fold someev.
  cbn [map app]. f_equal. rewrite !map_app. cbn [map someev]. now rewrite <- !app_assoc.
Qed.

Theorem section_without_definition : forall sid evs, no_sectiondef evs -> wrap_section sid (evs, Finished) = ([EEnd None], Finished).
Proof.
  intros sid evs H. unfold wrap_section. cbn [fst snd]. rewrite <- (app_nil_r evs), section_buffer by exact H. reflexivity.
Qed.

(** On trees. *)
Lemma extract_none : forall f, extract_section f = None -> no_sectiondef (walk f).
Proof.
  induction f as [|x k IHk n IHn]; intros H; [constructor|]. cbn [extract_section] in H. destruct (is_sectiondef x) eqn:EX; [discriminate|].
  destruct (extract_section k) as [[[s sk] k']|] eqn:EK; [discriminate|]. destruct (extract_section n) as [[[s sk] n']|]; [discriminate|].
  cbn [walk]. constructor; [exact EX|]. apply Forall_app. split; [now apply IHk|]. constructor; [exact I|now apply IHn].
Qed.

Lemma extract_walk : forall f s sk f', extract_section f = Some (s, sk, f') -> is_sectiondef s = true /\
  exists pre post, walk f = pre ++ EStart s :: walk sk ++ EEnd s :: post /\ no_sectiondef pre /\ walk f' = pre ++ post.
Proof.
  induction f as [|x k IHk n IHn]; intros s sk f' H; [discriminate|]. cbn [extract_section] in H. destruct (is_sectiondef x) eqn:EX.
  - injection H as <- <- <-. split; [exact EX|]. exists [], (walk n). split; [reflexivity|]. split; [constructor|reflexivity].
  - destruct (extract_section k) as [[[s1 sk1] k']|] eqn:EK.
    + injection H as <- <- <-. destruct (IHk _ _ _ eq_refl) as (HS & pre & post & E1 & E2 & E3). split; [exact HS|].
      exists (EStart x :: pre), (post ++ EEnd x :: walk n). cbn [walk]. rewrite E1, E3. split; [cbn [app]; f_equal; rewrite <- !app_assoc; cbn [app]; f_equal; f_equal; now rewrite <- !app_assoc|].
      split; [constructor; [exact EX|exact E2]|]. cbn [app]. now rewrite <- !app_assoc.
    + destruct (extract_section n) as [[[s1 sk1] n']|] eqn:EN; [|discriminate]. injection H as <- <- <-.
      destruct (IHn _ _ _ eq_refl) as (HS & pre & post & E1 & E2 & E3). split; [exact HS|].
      exists (EStart x :: walk k ++ EEnd x :: pre), post. cbn [walk]. rewrite E1, E3. split; [cbn [app]; f_equal; rewrite <- !app_assoc; reflexivity|].
      split; [|cbn [app]; f_equal; rewrite <- !app_assoc; reflexivity]. constructor; [exact EX|]. apply Forall_app. split; [now apply extract_none|]. constructor; [exact I|exact E2].
Qed.

Theorem section_pass : forall sid f s sk f', extract_section f = Some (s, sk, f') ->
  wrap_section sid (walk f, Finished) = (map someev (walk (FCons (section_item sid s) (fapp sk f') FNil)), Finished).
Proof.
  intros sid f s sk f' H. destruct (extract_walk f s sk f' H) as (HS & pre & post & E1 & E2 & E3). rewrite E1, section_events_split by assumption.
  f_equal. f_equal. cbn [walk]. rewrite walk_fapp, E3, <- !app_assoc. reflexivity.
Qed.

(** ** Columns *)

Definition swalk (f : forest item) : list (event (option item)) := map someev (walk f).
Lemma swalk_cons : forall x k n rest, swalk (FCons x k n) ++ rest = EStart (Some x) :: swalk k ++ EEnd (Some x) :: swalk n ++ rest.
Proof. intros. unfold swalk. cbn [walk map someev app]. f_equal. rewrite map_app, <- app_assoc. reflexivity. Qed.

Section Columns.
  Notation loop := columns_loop.

  Lemma newcol_para : forall x, newcol x = true -> is_para x = true.
  Proof. intros x H. unfold newcol in H. now apply andb_true_iff in H. Qed.
  Lemma new_columnsdef_is : forall x, is_para x = true -> (exists s, split_number x = Some s) -> new_columnsdef x = Ok (newcol x).
  Proof. intros x H [s E]. unfold newcol, new_columnsdef. unfold split_number in *. rewrite H. destruct (attr_get "split" (i_attrs x)) as [[]|]; try discriminate; reflexivity. Qed.
  Lemma columnset : a_columnset = columns_item.
  Proof. reflexivity. Qed.
  Lemma newcol_node : forall x, is_para x = false -> newcol x = false.
  Proof. intros x H. unfold newcol. now rewrite H. Qed.
  Lemma para_not_columns : forall x, is_para x = true -> not_columns x = true.
  Proof. unfold is_para, not_columns, model_is. intros x H. apply String.eqb_eq in H. rewrite H. reflexivity. Qed.

  Lemma columns_walk : forall f, everywhere column_node f ->
    (forall st rest o, forallb (fun y => negb (newcol y)) (roots f) = true ->
       loop st (swalk f ++ rest) o = gapp (walk (in_columns f)) (loop st rest o)) /\
    (forall y st rest o, is_para y = false -> not_columns y = true ->
       loop (y :: st) (swalk f ++ EEnd (Some y) :: rest) o = gapp (walk (in_columns f)) (gcons (EEnd y) (loop st rest o)) /\
       loop (columns_item :: y :: st) (swalk f ++ EEnd (Some y) :: rest) o =
         gapp (walk (frun not_columns (in_columns f)) ++ EEnd columns_item :: walk (frest not_columns (in_columns f)))
              (gcons (EEnd y) (loop st rest o))).
  Proof.
    induction f as [|x k IHk n IHn]; intros HE.
    - split.
      + intros st rest o _. cbn [swalk walk map app in_columns]. now rewrite gapp_nil.
      + intros y st rest o HY HC. cbn [swalk walk map app in_columns frun frest columns_loop]. unfold is_para in HY. rewrite HY. rewrite String.eqb_refl. split.
        * now rewrite gapp_nil.
        * unfold not_columns, model_is in HC. apply negb_true_iff in HC.
          change (i_model columns_item) with "ColumnSet". rewrite HC. change (model_is "ColumnSet" columns_item) with true. cbn iota. gnorm.
    - cbn [everywhere] in HE. destruct HE as ((HC & HP) & HK & HS). specialize (IHk HK). specialize (IHn HS). destruct IHk as [IHkA IHkB]. destruct IHn as [IHnA IHnB].
      destruct (is_para x) eqn:EX.
      + destruct (HP eq_refl) as [HSP HKP]. clear HP. pose proof (new_columnsdef_is x EX HSP) as EN. assert (EX' := EX). unfold is_para in EX'.
        assert (HKN : forallb (fun y => negb (newcol y)) (roots k) = true).
        { clear -HKP. induction (roots k) as [|z l IH]; [reflexivity|]. cbn in *. apply andb_true_iff in HKP. destruct HKP as [H1 H2].
          rewrite (newcol_node z) by now apply negb_true_iff in H1. cbn. now apply IH. }
        split.
        * intros st rest o HR. cbn [roots forallb] in HR. apply andb_true_iff in HR. destruct HR as [HX HR]. apply negb_true_iff in HX.
          rewrite swalk_cons. cbn [columns_loop in_columns]. rewrite EX', EN, HX. rewrite IHkA by exact HKN. cbn [columns_loop]. rewrite EX', IHnA by exact HR.
          cbn [walk]. gnorm.
        * intros y st rest o HY HYC. rewrite swalk_cons. destruct (IHnB y st rest o HY HYC) as [N1 N2]. cbn [columns_loop in_columns]. rewrite EX', EN.
          assert (HYC' := HYC). unfold not_columns in HYC'. apply negb_true_iff in HYC'. destruct (newcol x) eqn:EW.
          -- rewrite columnset, HYC'. change (model_is "ColumnSet" columns_item) with true. cbn iota. rewrite !IHkA by exact HKN. cbn [columns_loop]. rewrite EX', N2. cbn [walk frun frest].
             change (not_columns columns_item) with false. cbn iota. cbn [walk]. split; gnorm.
          -- rewrite !IHkA by exact HKN. cbn [columns_loop]. rewrite EX', N1, N2. cbn [walk frun frest]. rewrite (para_not_columns x EX). cbn [walk]. split; gnorm.
      + clear HP. assert (EX' := EX). unfold is_para in EX'. split.
        * intros st rest o HR. cbn [roots forallb] in HR. apply andb_true_iff in HR. destruct HR as [HX HR].
          rewrite swalk_cons. cbn [columns_loop in_columns]. rewrite EX', (newcol_node x EX).
          destruct (IHkB x st (swalk n ++ rest) o EX HC) as [K1 _]. rewrite K1, IHnA by exact HR. cbn [walk]. gnorm.
        * intros y st rest o HY HYC. rewrite swalk_cons. destruct (IHnB y st rest o HY HYC) as [N1 N2]. cbn [columns_loop in_columns]. rewrite EX', (newcol_node x EX).
          destruct (IHkB x (y :: st) (swalk n ++ EEnd (Some y) :: rest) o EX HC) as [K1 _].
          destruct (IHkB x (columns_item :: y :: st) (swalk n ++ EEnd (Some y) :: rest) o EX HC) as [K2 _].
          rewrite K1, K2, N1, N2. cbn [frun frest]. rewrite HC. cbn [walk]. split; gnorm.
  Qed.
End Columns.

Theorem columns_pass : forall f, everywhere column_node f -> forallb (fun y => negb (newcol y)) (roots f) = true ->
  wrap_columns (swalk f, Finished) = (walk (in_columns f), Finished).
Proof.
  intros f HE HR. unfold wrap_columns. cbn [fst snd]. rewrite <- (app_nil_r (swalk f)).
  destruct (columns_walk f HE) as [H _]. rewrite H by exact HR. cbn [columns_loop]. apply gapp_end.
Qed.

(** ** Ids *)

Lemma id_attribute_set : forall it key v, id_attribute (set_item key v it) = id_attribute it.
Proof. reflexivity. Qed.

Definition keyed (x : item) : bool := match id_attribute x with Some _ => true | None => false end.
Lemma keyed_has_id : forall x, keyed x = has_id x.
Proof.
  intros x. unfold keyed, has_id, id_attribute. cbn [id_names existsb fst].
  destruct (model_is "Paragraph" x); [reflexivity|]. destruct (model_is "TableControl" x); [reflexivity|].
  destruct (model_is "GShapeObjectControl" x); [reflexivity|]. destruct (model_is "ShapeComponent" x); reflexivity.
Qed.
Definition id_refs (l : list item) : list Z := map i_ref (filter keyed l).
Definition key_eqb (a b : option string) : bool :=
  match a, b with Some x, Some y => String.eqb x y | None, None => true | _, _ => false end.
Definition count_kind (key : string) (l : list item) : Z := zlen (filter (fun y => key_eqb (id_attribute y) (Some key)) l).

Definition counters_of (before : list item) : counters :=
  (count_kind "paragraph_id" before, count_kind "table_id" before, count_kind "gshape_id" before, count_kind "shape_id" before).

Lemma count_snoc : forall key l x, count_kind key (l ++ [x]) = count_kind key l + (if key_eqb (id_attribute x) (Some key) then 1 else 0).
Proof.
  intros. unfold count_kind. rewrite filter_app, zlen_app. cbn [filter]. destruct (key_eqb _ _); cbn; lia.
Qed.

Lemma next_id_counters : forall before x key, id_attribute x = Some key ->
  next_id x (counters_of before) = (count_kind key before, counters_of (before ++ [x])).
Proof.
  intros before x key H. unfold next_id, counters_of. rewrite !count_snoc. rewrite H. unfold id_attribute in H.
  destruct (model_is "Paragraph" x); [injection H as <-; cbn [key_eqb String.eqb]; cbn; rewrite ?Z.add_0_r; reflexivity|].
  destruct (model_is "TableControl" x); [injection H as <-; cbn; rewrite ?Z.add_0_r; reflexivity|].
  destruct (model_is "GShapeObjectControl" x); [injection H as <-; cbn; rewrite ?Z.add_0_r; reflexivity|].
  destruct (model_is "ShapeComponent" x); [injection H as <-; cbn; rewrite ?Z.add_0_r; reflexivity|discriminate].
Qed.

Lemma counters_none : forall before x, id_attribute x = None -> counters_of (before ++ [x]) = counters_of before.
Proof. intros before x H. unfold counters_of. rewrite !count_snoc, H. cbn [key_eqb]. now rewrite !Z.add_0_r. Qed.

Lemma given_skip : forall ref given it, ~ In ref (map fst given) -> given_ids ref given it = it.
Proof.
  induction given as [|[r [key n]] given IH]; intros it H; [reflexivity|]. cbn [given_ids]. cbn in H.
  replace (r =? ref) with false by (symmetry; apply Z.eqb_neq; tauto). apply IH. tauto.
Qed.

(** The items numbered; [given] is everything given so far. *)
Definition given_after (before : list item) (given : list (Z * (string * Z))) (x : item) :=
  match id_attribute x with Some key => (i_ref x, (key, count_kind key before)) :: given | None => given end.
Fixpoint given_all (before : list item) (given : list (Z * (string * Z))) (l : list item) :=
  match l with [] => given | x :: r => given_all (before ++ [x]) (given_after before given x) r end.

Lemma given_all_app : forall l1 l2 before given, given_all before given (l1 ++ l2) = given_all (before ++ l1) (given_all before given l1) l2.
Proof. induction l1 as [|x l1 IH]; intros; cbn [app given_all]; [now rewrite app_nil_r|]. rewrite IH, <- app_assoc. reflexivity. Qed.

Lemma given_all_refs : forall l before given r, In r (map fst (given_all before given l)) -> In r (map fst given) \/ In r (id_refs l).
Proof.
  induction l as [|x l IH]; intros before given r H; [now left|]. cbn [given_all] in H. apply IH in H. unfold id_refs. cbn [filter]. unfold given_after, keyed in *.
  destruct (id_attribute x); cbn in *; tauto.
Qed.

Lemma given_all_keep : forall l before given ref it, ~ In ref (id_refs l) -> given_ids ref (given_all before given l) it = given_ids ref given it.
Proof.
  induction l as [|x l IH]; intros before given ref it H; [reflexivity|]. cbn [given_all]. unfold id_refs in H. cbn [filter] in H. unfold keyed in H.
  rewrite IH by (unfold id_refs, keyed; destruct (id_attribute x); cbn in *; tauto). unfold given_after. destruct (id_attribute x); [|reflexivity].
  cbn [given_ids]. cbn in H. replace (i_ref x =? ref) with false by (symmetry; apply Z.eqb_neq; tauto). reflexivity.
Qed.

Fixpoint numbered_forest (before : list item) (f : forest item) : forest item :=
  match f with
  | FNil => FNil
  | FCons x k n =>
      FCons (match id_attribute x with Some key => set_item key (VInt (count_kind key before)) x | None => x end)
            (numbered_forest (before ++ [x]) k) (numbered_forest (before ++ [x] ++ starts (walk k)) n)
  end.

Lemma starts_app : forall A (a b : list (event A)), starts (a ++ b) = starts a ++ starts b.
Proof. induction a as [|[x|x] a IH]; intros b; cbn; [reflexivity| |]; now rewrite ?IH. Qed.
Lemma starts_walk_cons : forall A (x : A) k n, starts (walk (FCons x k n)) = x :: starts (walk k) ++ starts (walk n).
Proof. intros. cbn [walk starts]. rewrite starts_app. reflexivity. Qed.

Lemma nodup_app : forall A (a b : list A), NoDup (a ++ b) -> NoDup a /\ NoDup b /\ (forall r, In r a -> ~ In r b).
Proof.
  induction a as [|x a IH]; intros b H; cbn [app] in H.
  - repeat split; [constructor|exact H|intros r []].
  - inversion H as [|? ? H1 H2]; subst. apply IH in H2. destruct H2 as (H2 & H3 & H4). repeat split.
    + constructor; [|exact H2]. intros HI. apply H1, in_or_app. now left.
    + exact H3.
    + intros r [<-|HI]; [intros HB; apply H1, in_or_app; now right|now apply H4].
Qed.

Lemma ids_walk : forall f before given rest o,
  NoDup (id_refs (starts (walk f))) -> (forall r, In r (id_refs (starts (walk f))) -> ~ In r (map fst given)) ->
  ids_loop (counters_of before) given (walk f ++ rest) o =
  gapp (walk (numbered_forest before f)) (ids_loop (counters_of (before ++ starts (walk f))) (given_all before given (starts (walk f))) rest o).
Proof.
  induction f as [|x k IHk n IHn]; intros before given rest o HND HG.
  - cbn [walk app starts numbered_forest given_all]. rewrite app_nil_r, gapp_nil. reflexivity.
  - rewrite walk_app_cons. rewrite starts_walk_cons in *.
    assert (HB : before ++ x :: starts (walk k) ++ starts (walk n) = (before ++ [x] ++ starts (walk k)) ++ starts (walk n)) by (rewrite <- !app_assoc; reflexivity).
    rewrite HB. clear HB. cbn [ids_loop numbered_forest given_all]. rewrite given_all_app.
    assert (HB : (before ++ [x]) ++ starts (walk k) = before ++ [x] ++ starts (walk k)) by now rewrite <- app_assoc. rewrite HB.
    assert (ER : id_refs (x :: starts (walk k) ++ starts (walk n)) = (if keyed x then [i_ref x] else []) ++ id_refs (starts (walk k)) ++ id_refs (starts (walk n))).
    { unfold id_refs. cbn [filter]. rewrite filter_app. destruct (keyed x); cbn [map app]; now rewrite map_app. }
    rewrite ER in HND, HG. clear ER. unfold keyed in HND, HG. set (rk := id_refs (starts (walk k))) in *. set (rn := id_refs (starts (walk n))) in *.
    destruct (nodup_app _ _ _ HND) as (_ & HND' & HX). destruct (nodup_app _ _ _ HND') as (HNDk & HNDn & HKN).
    destruct (id_attribute x) as [key|] eqn:EK.
    + assert (XG : ~ In (i_ref x) (map fst given)) by (apply HG; now left).
      specialize (HX (i_ref x) (or_introl eq_refl)).
      rewrite (next_id_counters before x key EK). cbn [given_ids]. rewrite Z.eqb_refl, given_skip by exact XG.
      replace (given_after before given x) with ((i_ref x, (key, count_kind key before)) :: given) by (unfold given_after; now rewrite EK).
      assert (HGk : forall r, In r rk -> ~ In r (map fst ((i_ref x, (key, count_kind key before)) :: given))).
      { intros r Hr. cbn [map fst In]. intros [E|HI].
        - apply HX, in_or_app. left. rewrite E. exact Hr.
        - apply (HG r); [|exact HI]. apply in_or_app. right. apply in_or_app. now left. }
      rewrite IHk by assumption.
      cbn [ids_loop]. rewrite EK. rewrite given_all_keep by (intros HI; apply HX; apply in_or_app; now left).
      cbn [given_ids]. rewrite Z.eqb_refl, given_skip by exact XG. rewrite HB.
      rewrite IHn; [|exact HNDn|].
      2:{ intros r Hr HI. apply given_all_refs in HI. destruct HI as [[<-|HI]|HI].
        - apply HX; apply in_or_app; now right.
        - apply (HG r); [|exact HI]. apply in_or_app. right. apply in_or_app; now right.
        - exact (HKN r HI Hr). }
      cbn [walk]. gnorm.
    + replace (given_after before given x) with given by (unfold given_after; now rewrite EK).
      rewrite <- (counters_none before x EK). rewrite IHk; [|exact HNDk|intros r Hr; apply HG; apply in_or_app; right; apply in_or_app; now left].
      cbn [ids_loop]. rewrite EK, HB. rewrite IHn; [|exact HNDn|].
      2:{ intros r Hr HI. apply given_all_refs in HI. destruct HI as [HI|HI].
        - apply (HG r); [|exact HI]. apply in_or_app; right; apply in_or_app; now right.
        - exact (HKN r HI Hr). }
      cbn [walk]. gnorm.
Qed.

Lemma attr_get_set : forall key v attrs, attr_get key (attr_set key v attrs) = Some v.
Proof. induction attrs as [|[k w] r IH]; cbn; [now rewrite String.eqb_refl|]. destruct (String.eqb k key) eqn:E; cbn; rewrite E; [reflexivity|exact IH]. Qed.
Lemma attr_get_set_other : forall key key' v attrs, key' <> key -> attr_get key' (attr_set key v attrs) = attr_get key' attrs.
Proof.
  induction attrs as [|[k w] r IH]; intros H; cbn.
  - destruct (String.eqb key key') eqn:E; [apply String.eqb_eq in E; congruence|reflexivity].
  - destruct (String.eqb k key) eqn:E; cbn; [|now rewrite IH]. apply String.eqb_eq in E. subst k. destruct (String.eqb key key') eqn:E; [apply String.eqb_eq in E; congruence|reflexivity].
Qed.
Lemma attr_set_new : forall key v attrs, attr_get key attrs = None -> attr_set key v attrs = attrs ++ [(key, v)].
Proof. induction attrs as [|[k w] r IH]; cbn; intros H; [reflexivity|]. destruct (String.eqb k key); [discriminate|]. now rewrite IH. Qed.

Lemma count_kind_model : forall c key l, (forall x, key_eqb (id_attribute x) (Some key) = model_is c x) -> count_kind key l = count_model c l.
Proof. intros c key l H. unfold count_kind, count_model. f_equal. induction l as [|x l IH]; cbn; [reflexivity|]. now rewrite H, IH. Qed.
Ltac kind_model := let x := fresh "x" in let E := fresh "E" in intros x; unfold id_attribute; unfold model_is;
  destruct (String.eqb (i_model x) "Paragraph") eqn:E; [apply String.eqb_eq in E; rewrite ?E; reflexivity|]; clear E;
  destruct (String.eqb (i_model x) "TableControl") eqn:E; [apply String.eqb_eq in E; rewrite ?E; reflexivity|]; clear E;
  destruct (String.eqb (i_model x) "GShapeObjectControl") eqn:E; [apply String.eqb_eq in E; rewrite ?E; reflexivity|]; clear E;
  destruct (String.eqb (i_model x) "ShapeComponent"); reflexivity.

Definition number_of (before : list item) (x : item) : item :=
  match id_attribute x with Some key => set_item key (VInt (count_kind key before)) x | None => x end.
Lemma number_of_ok : forall before x, with_id before x (number_of before x).
Proof.
  intros before x. unfold with_id, number_of. cbn [id_names find fst].
  assert (K1 : count_kind "paragraph_id" before = count_model "Paragraph" before) by (apply count_kind_model; kind_model).
  assert (K2 : count_kind "table_id" before = count_model "TableControl" before) by (apply count_kind_model; kind_model).
  assert (K3 : count_kind "gshape_id" before = count_model "GShapeObjectControl" before) by (apply count_kind_model; kind_model).
  assert (K4 : count_kind "shape_id" before = count_model "ShapeComponent" before) by (apply count_kind_model; kind_model).
  unfold id_attribute.
  destruct (model_is "Paragraph" x); [|destruct (model_is "TableControl" x); [|destruct (model_is "GShapeObjectControl" x); [|destruct (model_is "ShapeComponent" x)]]].
  1-4: rewrite <- ?K1, <- ?K2, <- ?K3, <- ?K4; unfold set_item; cbn [i_model i_ref i_attrs]; split; [reflexivity|]; split; [reflexivity|]; split; [apply attr_get_set|]; split; [intros key' H; now apply attr_get_set_other|apply attr_set_new].
  repeat split.
Qed.

Lemma numbered_app : forall l1 l1' l2 l2' before, numbered before l1 l1' -> numbered (before ++ l1) l2 l2' -> numbered before (l1 ++ l2) (l1' ++ l2').
Proof.
  induction l1 as [|x l1 IH]; intros [|x' l1'] l2 l2' before H1 H2; cbn [app numbered] in *; try contradiction.
  - now rewrite app_nil_r in H2.
  - destruct H1 as [H0 H1]. split; [exact H0|]. apply IH; [exact H1|]. now rewrite <- app_assoc.
Qed.

Lemma numbered_forest_ok : forall f before, same_shape f (numbered_forest before f) /\ numbered before (starts (walk f)) (starts (walk (numbered_forest before f))).
Proof.
  induction f as [|x k IHk n IHn]; intros before; [split; exact I|]. cbn [numbered_forest]. split.
  - cbn [same_shape]. split; [apply IHk|apply IHn].
  - rewrite !starts_walk_cons. cbn [numbered]. split; [apply number_of_ok|].
    apply numbered_app; [apply IHk|]. rewrite <- app_assoc. apply IHn.
Qed.

Theorem ids_pass : forall f, NoDup (map i_ref (filter has_id (starts (walk f)))) ->
  exists f', give_elements_unique_id (walk f, Finished) = (walk f', Finished) /\
    same_shape f f' /\ numbered [] (starts (walk f)) (starts (walk f')).
Proof.
  intros f H. exists (numbered_forest [] f). destruct (numbered_forest_ok f []) as [H1 H2]. split; [|now split].
  unfold give_elements_unique_id. cbn [fst snd]. rewrite <- (app_nil_r (walk f)).
  change (0, 0, 0, 0) with (counters_of []). rewrite ids_walk; [| |intros r _ []].
  - cbn [ids_loop]. apply gapp_end.
  - unfold id_refs. rewrite (filter_ext _ _ keyed_has_id). exact H.
Qed.

(** ** More about adoption, columns, ids *)
Lemma walk_run_rest : forall (p : item -> bool) f, walk (frun p f) ++ walk (frest p f) = walk f.
Proof.
  induction f as [|x k IHk n IHn]; [reflexivity|]. cbn [frun frest]. destruct (p x); [|reflexivity]. cbn [walk app]. f_equal. rewrite <- app_assoc. cbn [app]. now rewrite IHn.
Qed.

Lemma adopt_order : forall isp isc f, starts (walk (adopt isp isc f)) = starts (walk f).
Proof.
  intros isp isc. induction f as [|x k IHk n IHn]; [reflexivity|]. cbn [adopt]. destruct (isp x); rewrite !starts_walk_cons; f_equal; [|now rewrite IHk, IHn].
  rewrite walk_fapp, starts_app, <- app_assoc, <- starts_app, walk_run_rest, IHk, IHn. reflexivity.
Qed.

Lemma columns_keep : forall f, everywhere column_node f -> filter not_columns_event (walk (in_columns f)) = walk f.
Proof.
  induction f as [|x k IHk n IHn]; intros HE; [reflexivity|]. destruct HE as ((H1 & _) & H2 & H3). specialize (IHk H2). specialize (IHn H3). cbn [in_columns].
  assert (HX : not_columns_event (EStart x) = true /\ not_columns_event (EEnd x) = true) by now split. destruct HX as [HX1 HX2].
  destruct (newcol x).
  - cbn [walk]. cbn [filter]. change (not_columns_event (EStart a_columnset)) with false. cbn iota. cbn [app filter]. rewrite HX1. f_equal.
    rewrite !filter_app. cbn [filter]. rewrite HX2. change (not_columns_event (EEnd a_columnset)) with false. cbn iota. rewrite IHk, <- app_assoc. f_equal. cbn [app]. f_equal.
    rewrite <- filter_app, walk_run_rest. exact IHn.
  - cbn [walk filter]. rewrite HX1. f_equal. rewrite filter_app. cbn [filter]. rewrite HX2, IHk, IHn. reflexivity.
Qed.

Lemma newcol_not_columns : forall x, newcol x = true -> not_columns x = true.
Proof. intros x H. apply para_not_columns. now apply newcol_para. Qed.
Lemma run_no_newcol : forall f, no_newcol f \/ True -> no_newcol (frun not_columns (in_columns f)) /\ True.
Proof.
  intros f _. split; [|exact I]. unfold no_newcol. induction f as [|x k IHk n IHn]; [reflexivity|]. cbn [in_columns]. destruct (newcol x) eqn:E; [reflexivity|].
  cbn [frun]. destruct (not_columns x); [|reflexivity]. cbn [roots forallb]. rewrite E. exact IHn.
Qed.
Lemma rest_everywhere : forall (p : item -> bool) P f, everywhere P f -> everywhere P (frun p f) /\ everywhere P (frest p f).
Proof.
  induction f as [|x k IHk n IHn]; intros H; [now split|]. destruct H as (H1 & H2 & H3). destruct (IHn H3) as [A B]. cbn [frun frest]. destruct (p x); [|now repeat split]. split; [|exact B]. now repeat split.
Qed.
Lemma in_columns_roots : forall f, everywhere column_node f -> no_newcol (in_columns f).
Proof.
  induction f as [|x k IHk n IHn]; intros HE; [reflexivity|]. destruct HE as ((H1 & _) & H2 & H3). unfold no_newcol. cbn [in_columns].
  assert (HR : forall g, no_newcol g -> no_newcol (frest not_columns g)).
  { clear. induction g as [|y ky IHk g IHg]; intros H; [reflexivity|]. unfold no_newcol in *. cbn [roots forallb frest] in *. apply andb_true_iff in H. destruct H as [Ha Hb]. destruct (not_columns y); [now apply IHg|]. cbn [roots forallb]. now rewrite Ha, Hb. }
  destruct (newcol x) eqn:E; cbn [roots forallb].
  - change (newcol a_columnset) with false. cbn [negb andb]. apply HR. now apply IHn.
  - rewrite E. now apply IHn.
Qed.
Lemma columns_shape : forall f, everywhere column_node f -> no_newcol (in_columns f) /\ everywhere columns_node (in_columns f).
Proof.
  intros f HE. split; [now apply in_columns_roots|]. induction f as [|x k IHk n IHn]; [exact I|]. assert (HE' := HE). destruct HE as ((H1 & HP) & H2 & H3). specialize (IHk H2). specialize (IHn H3).
  destruct (rest_everywhere not_columns columns_node _ IHn) as [R1 R2]. cbn [in_columns].
  assert (HX : columns_node x (in_columns k)).
  { unfold columns_node. unfold not_columns in H1. apply negb_true_iff in H1. rewrite H1. now apply in_columns_roots. }
  assert (HX' : forall g, no_newcol g -> columns_node x g) by (intros g Hg; unfold columns_node; unfold not_columns in H1; apply negb_true_iff in H1; rewrite H1; exact Hg).
  destruct (newcol x) eqn:E; cbn [everywhere].
  - split; [unfold columns_node; change (model_is "ColumnSet" a_columnset) with true; cbn iota; do 3 eexists; split; [reflexivity|]; split; [exact E|]; apply (run_no_newcol n); auto|].
    split; [split; [exact HX|split; [exact IHk|exact R1]]|exact R2].
  - split; [exact HX|]. now split.
Qed.

Lemma numbered_counts : forall c name xs ys before, In (c, name) id_names -> numbered before xs ys ->
  map (fun y => attr_get name (i_attrs y)) (filter (model_is c) ys) =
  map (fun n => Some (VInt n)) (upto (count_model c before) (List.length (filter (model_is c) xs))).
Proof.
  intros c name. induction xs as [|x xs IH]; intros [|y ys] before HC H; cbn [numbered] in H; try contradiction; [reflexivity|].
  destruct H as [HW HN]. assert (HM : model_is c y = model_is c x) by (unfold model_is; destruct HW as (-> & _); reflexivity).
  cbn [filter]. rewrite HM. specialize (IH ys (before ++ [x]) HC HN). unfold count_model in IH. rewrite filter_app, zlen_app in IH. cbn [filter] in IH.
  destruct (model_is c x) eqn:EX.
  - cbn [map List.length upto]. f_equal; [|rewrite IH; reflexivity].
    destruct HW as (_ & _ & HW). unfold model_is in EX. apply String.eqb_eq in EX. unfold model_is in HW. rewrite EX in HW.
    cbn in HC. repeat (destruct HC as [HC|HC]; [injection HC as <- <-; apply HW|]). contradiction.
  - rewrite IH. change (zlen (@nil item)) with 0. rewrite Z.add_0_r. reflexivity.
Qed.

(** ** Class tests *)
Lemma unknown_class : forall c b, class_base c = None -> issubclass c b = String.eqb b c.
Proof. intros c b H. unfold issubclass, class_mro_fuel. cbn [mro]. rewrite H. cbn [existsb]. apply orb_false_r. Qed.
Lemma known_class : forall c d, class_base c = Some d -> In c (map cd_name class_table).
Proof.
  intros c d H. unfold class_base in H. destruct (find _ class_table) as [e|] eqn:E; [|discriminate]. apply find_some in E. destruct E as [E1 E2]. apply String.eqb_eq in E2. subst c. now apply in_map.
Qed.
Lemma class_test : forall b l, In b l -> forallb (fun c => Bool.eqb (issubclass c b) (existsb (String.eqb c) l)) (map cd_name class_table) = true ->
  forallb (fun c => existsb (String.eqb c) (map cd_name class_table)) l = true ->
  forall c, issubclass c b = true <-> In c l.
Proof.
  intros b l HB H HL c. destruct (class_base c) as [d|] eqn:E.
  - apply known_class in E. rewrite forallb_forall in H. specialize (H c E). apply eqb_prop in H. rewrite H, existsb_exists. split.
    + intros (y & Hy & Q). apply String.eqb_eq in Q. now subst y.
    + intros Hc. exists c. split; [exact Hc|apply String.eqb_refl].
  - rewrite unknown_class by exact E. rewrite String.eqb_eq. split; [now intros <-|]. intros Hc. exfalso. rewrite forallb_forall in HL. specialize (HL c Hc).
    apply existsb_exists in HL. destruct HL as (y & Hy & Q). apply String.eqb_eq in Q. subst y. unfold class_base in E. destruct (find _ class_table) eqn:F; [discriminate|].
    apply in_map_iff in Hy. destruct Hy as (d & <- & Hd). apply (find_none _ _ F) in Hd. rewrite String.eqb_refl in Hd. discriminate.
Qed.
