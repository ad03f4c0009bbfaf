(** The text of a section through all passes. *)
From Coq Require Import ZArith String List Bool Lia.
From Verif Require Import Base BaseFacts Model_Tree Spec_Tree Model_ParaText Spec_ParaText Model_Shape Spec_Shape Model_Lang Model_Classes
  Model_XmlModel Spec_XmlModel Proof_Tree Proof_Shape Proof_XmlModel Proof_XmlInline Proof_XmlFields Proof_XmlTexts Spec_Section Proof_Section Spec_Plaintext.
Import ListNotations.
Open Scope string_scope.
Open Scope list_scope.
Open Scope Z_scope.

(** ** Meanings *)
Lemma then_nothing : forall a, and_then a nothing = a.
Proof. intros [n f b]. unfold and_then. cbn. now rewrite Nat.add_0_r, !app_nil_r. Qed.
Lemma nothing_then : forall a, and_then nothing a = a.
Proof. intros [n f b]. reflexivity. Qed.
Lemma then_then : forall a b c, and_then (and_then a b) c = and_then a (and_then b c).
Proof. intros [n f b] [n' f' b'] [m g c]. unfold and_then. cbn. now rewrite Nat.add_assoc, !app_assoc. Qed.
Lemma all_app : forall a b, all_of (a ++ b) = and_then (all_of a) (all_of b).
Proof. induction a as [|m a IH]; intros b; [symmetry; apply nothing_then|]. cbn [app all_of fold_right]. fold (all_of (a ++ b)). fold (all_of a). now rewrite IH, then_then. Qed.

(** ** What document trees say *)
Definition node_says (tx : item -> list Z) (x : item) (m : meaning) : meaning :=
  if is_para x then and_then m (says [10])
  else if is_text x then mkMeaning (definitions m) (front m) (tx x)
  else if is_char x then mkMeaning (definitions m) (front m) []
  else element_says x m.
Fixpoint means (tx : item -> list Z) (f : forest item) : meaning :=
  match f with FNil => nothing | FCons x k n => and_then (node_says tx x (means tx k)) (means tx n) end.
Definition text_of_item (x : item) : list Z := match attr_get "text" (i_attrs x) with Some (VText t) => t | _ => [] end.

Lemma means_fapp : forall tx f g, means tx (fapp f g) = and_then (means tx f) (means tx g).
Proof. intros tx f g. induction f as [|x k _ n IH]; [symmetry; apply nothing_then|]. cbn [fapp means]. now rewrite IH, then_then. Qed.
Lemma means_run : forall tx p f, and_then (means tx (frun p f)) (means tx (frest p f)) = means tx f.
Proof. intros tx p f. induction f as [|x k _ n IH]; [reflexivity|]. cbn [frun frest]. destruct (p x); [|apply nothing_then]. cbn [means]. now rewrite then_then, IH. Qed.
Lemma means_take : forall tx n f, and_then (means tx (ftake n f)) (means tx (fdrop n f)) = means tx f.
Proof.
  intros tx. induction n as [|n IH]; intros f; [destruct f; apply nothing_then|]. destruct f as [|x k r]; [reflexivity|]. cbn [ftake fdrop means]. now rewrite then_then, IH.
Qed.

(** Elements that only hold others. *)
Definition holds (x : item) : Prop :=
  is_para x = false /\ is_text x = false /\ is_char x = false /\ model_is "TableControl" x = false /\ model_is "GShapeObjectControl" x = false /\ is_sectiondef x = false.
Lemma holder_says : forall tx x m, holds x -> node_says tx x m = m.
Proof. intros tx x m (H1 & H2 & H3 & H4 & H5 & H6). unfold node_says, element_says. now rewrite H1, H2, H3, H4, H5, H6. Qed.
Lemma listheader_holds : forall x, is_listheader x = true -> holds x.
Proof. intros x H. unfold holds. repeat split; by_model x. Qed.
Lemma body_holds : forall x, is_tablebody x = true -> holds x.
Proof. intros x H. unfold holds. repeat split; by_model x. Qed.
Lemma field_holds : forall x, is_field x = true -> holds x.
Proof. intros x H. unfold holds. repeat split; by_model x. Qed.
Lemma line_holds : forall x, is_lineseg x = true -> holds x.
Proof. intros x H. unfold holds. repeat split; by_model x. Qed.

(** ** The passes *)
Lemma adopt_means : forall tx isp isc f, (forall x, isp x = true -> holds x) -> means tx (adopt isp isc f) = means tx f.
Proof.
  intros tx isp isc f H. induction f as [|x k IHk n IHn]; [reflexivity|]. cbn [adopt]. destruct (isp x) eqn:E; cbn [means]; [|now rewrite IHk, IHn].
  rewrite !holder_says by (now apply H). rewrite means_fapp, IHk, then_then, means_run, IHn. reflexivity.
Qed.
Lemma rows_group : forall tx l f, Forall (fun c => 1 <= c) l -> Z.of_nat (flen f) = zsum l -> means tx (group_rows l f) = means tx f.
Proof.
  intros tx. induction l as [|c l IH]; intros f HL HF; [destruct f; [reflexivity|cbn in HF; lia]|]. inversion HL as [|? ? H1 H2]; subst. cbn [group_rows means]. rewrite holder_says by (repeat split).
  rewrite IH; [apply means_take|exact H2|]. cbn [zsum fold_right] in HF. fold (zsum l) in HF.
  assert (HN : 0 <= zsum l) by (clear - H2; induction H2; cbn [zsum fold_right]; [lia|]; fold (zsum l); lia).
  assert (HD : forall n g, (n <= flen g)%nat -> flen (@fdrop item n g) = (flen g - n)%nat).
  { clear. induction n as [|n IH]; intros g H; [destruct g; cbn; lia|]. destruct g as [|x k r]; [cbn in *; lia|]. cbn [fdrop flen] in *. rewrite IH; lia. }
  rewrite HD; lia.
Qed.
Lemma del_says : forall tx key x m, (is_text x = false) -> node_says tx (del_item key x) m = node_says tx x m.
Proof. intros tx key x m H. unfold node_says. change (is_text (del_item key x)) with (is_text x). rewrite H. reflexivity. Qed.
Lemma rows_flen : forall f, flen (with_rows f) = flen f.
Proof. induction f as [|x k _ n IH]; [reflexivity|]. cbn [with_rows]. destruct (is_tablebody x); cbn [flen]; now rewrite IH. Qed.
Lemma rows_means : forall tx f, everywhere table_node f -> means tx (with_rows f) = means tx f.
Proof.
  intros tx. induction f as [|x k IHk n IHn]; intros H; [reflexivity|]. destruct H as (H & HK & HN). cbn [with_rows]. unfold table_node in H. destruct (is_tablebody x) eqn:E; cbn [means]; [|now rewrite IHk, IHn].
  rewrite del_says by (now apply body_unlike). destruct H as (_ & H1 & _ & H2). rewrite rows_group; [now rewrite IHk, IHn|exact H1|]. now rewrite rows_flen.
Qed.

Lemma tokens_lossless : forall t buf bl, concat (map snd (tokenize_loop buf bl t)) = rev buf ++ t.
Proof.
  induction t as [|u t IH]; intros buf bl; cbn [tokenize_loop].
  - destruct buf; cbn [map concat snd]; rewrite ?app_nil_r; reflexivity.
  - assert (HB : forall b l, b = u :: buf -> concat (map snd (tokenize_loop b l t)) = rev buf ++ u :: t) by (intros b l ->; rewrite IH; cbn [rev]; now rewrite <- app_assoc).
    destruct (get_unichr_lang u) as [lang|]; [|now apply HB]. destruct bl as [bl|]; [|now apply HB]. destruct (String.eqb bl lang); [now apply HB|]. cbn [map concat snd]. now rewrite IH.
Qed.
Lemma token_means : forall tx shape toks, (forall s l t, tx (a_token s l t) = t) -> means tx (token_forest shape toks) = says (concat (map snd toks)).
Proof.
  intros tx shape toks H. induction toks as [|[l t] toks IH]; [reflexivity|]. cbn [token_forest fold_right means fst snd map concat]. fold (token_forest shape toks). rewrite IH. unfold node_says.
  change (is_para (a_token shape l t)) with false. change (is_text (a_token shape l t)) with true. cbn match. rewrite H. reflexivity.
Qed.
Lemma tokenized_means : forall tx f, (forall s l t, tx (a_token s l t) = t) -> everywhere text_node f -> means tx (tokenized f) = means text_of_item f.
Proof.
  intros tx f HT. induction f as [|x k IHk n IHn]; intros H; [reflexivity|]. destruct H as (H & HK & HN). cbn [tokenized means]. destruct (is_text x) eqn:E.
  - destruct (H E) as (-> & shape & t & E1 & E2). rewrite means_fapp, (IHn HN). f_equal. unfold text_tokens. rewrite E1, E2, (token_means tx shape _ HT). unfold tokenize_unicode_by_lang. rewrite tokens_lossless.
    unfold node_says, text_of_item. rewrite E, E2. destruct (text_unlike x E) as (_ & -> & _). reflexivity.
  - cbn [means]. rewrite (IHk HK), (IHn HN). f_equal. unfold node_says. now rewrite E.
Qed.
Lemma columns_means : forall tx f, means tx (in_columns f) = means tx f.
Proof.
  intros tx. induction f as [|x k IHk n IHn]; [reflexivity|]. cbn [in_columns]. destruct (newcol x); cbn [means]; [|now rewrite IHk, IHn].
  rewrite holder_says by (repeat split). now rewrite then_then, means_run, IHk, IHn.
Qed.

(** ** Fields *)
Definition frames_say (tx : item -> list Z) (fr : list (item * forest item)) : meaning := fold_right (fun p m => and_then m (means tx (snd p))) nothing fr.
Definition line_says (tx : item -> list Z) (z : line_state) : meaning := and_then (frames_say tx (snd z)) (means tx (fst z)).
Definition frames_hold (z : line_state) : Prop := Forall (fun p => is_field (fst p) = true) (snd z).
Lemma finish_says : forall tx fr cur, Forall (fun p => is_field (fst p) = true) fr -> means tx (finish_line cur fr) = and_then (frames_say tx fr) (means tx cur).
Proof.
  intros tx. induction fr as [|[x outer] fr IH]; intros cur H; [symmetry; apply nothing_then|]. inversion H as [|? ? H1 H2]; subst. cbn [finish_line]. rewrite (IH _ H2). unfold leaf_after. rewrite means_fapp.
  cbn [means frames_say fold_right snd]. fold (frames_say tx fr). rewrite holder_says by (now apply field_holds). now rewrite then_nothing, then_then.
Qed.
Lemma reopen_says : forall tx st, line_says tx (reopen st) = nothing.
Proof.
  intros tx st. unfold line_says, reopen. cbn [fst snd means]. rewrite then_nothing. induction st as [|x st IH]; [reflexivity|]. cbn [map frames_say fold_right snd means]. fold (frames_say tx (map (fun x => (x, FNil)) st)).
  now rewrite then_nothing.
Qed.
Lemma reopen_hold : forall st, fields st -> frames_hold (reopen st).
Proof. intros st H. unfold frames_hold, reopen. cbn [snd]. induction H; constructor; assumption. Qed.
Lemma hold_fields : forall z, frames_hold z -> fields (open_fields z).
Proof. intros z H. unfold frames_hold, fields, open_fields in *. induction H; constructor; assumption. Qed.
Definition char_leaf (x : item) (k : forest item) : Prop := is_char x = true -> k = FNil.
Lemma regroup_means : forall tx f, everywhere char_leaf f ->
  (forall st, fields st -> means tx (fst (regroup st None f)) = means tx f /\ fields (snd (regroup st None f))) /\
  (forall st z, frames_hold z -> means tx (fst (regroup st (Some z) f)) = and_then (line_says tx z) (means tx f) /\ fields (snd (regroup st (Some z) f))).
Proof.
  intros tx. induction f as [|x k IHk n IHn]; intros H.
  - split; [intros st HS; now split|]. intros st z HZ. cbn [regroup fst snd]. split; [|now apply hold_fields]. rewrite finish_says by exact HZ. now rewrite then_nothing.
  - destruct H as (HX & HK & HN). destruct (IHk HK) as [K1 K2]. destruct (IHn HN) as [N1 N2].
    assert (IN : forall cur, fields cur -> let r := regroup cur (if is_lineseg x then Some (reopen cur) else None) k in means tx (fst r) = means tx k /\ fields (snd r)).
    { intros cur HC. cbn zeta. destruct (is_lineseg x); [|now apply K1]. destruct (K2 cur (reopen cur) (reopen_hold cur HC)) as [E1 E2]. rewrite reopen_says, nothing_then in E1. now split. }
    cbn zeta in IN. split.
    + intros st HS. cbn [regroup]. destruct (IN st HS) as [E1 E2]. destruct (N1 _ E2) as [E3 E4]. cbn [fst snd means]. rewrite E1, E3. now split.
    + intros st z HZ. pose proof (hold_fields z HZ) as HO. cbn [regroup]. destruct (is_field x) eqn:EF.
      * destruct (IN (x :: open_fields z)) as [E1 E2]; [constructor; assumption|].
        destruct (N2 st (open_field x (fst (regroup (x :: open_fields z) (if is_lineseg x then Some (reopen (x :: open_fields z)) else None) k)) z)) as [E3 E4]; [constructor; assumption|].
        split; [|exact E4]. rewrite E3. unfold line_says, open_field. cbn [fst snd frames_say fold_right means]. fold (frames_say tx (snd z)). rewrite E1, (holder_says tx x) by (now apply field_holds). now rewrite !then_then.
      * destruct (field_end_char x) eqn:EE.
        -- assert (EC : is_char x = true) by (unfold field_end_char in EE; apply andb_prop in EE; apply EE). specialize (HX EC). subst k.
           assert (HZ' : frames_hold (close_field z) /\ line_says tx (close_field z) = line_says tx z).
           { unfold close_field, frames_hold, line_says in *. destruct (snd z) as [|[y outer] fr] eqn:E; [rewrite E; now split|]. inversion HZ as [|? ? H1 H2]; subst. cbn [fst snd] in *. split; [exact H2|].
             unfold leaf_after. rewrite means_fapp. cbn [means frames_say fold_right snd]. fold (frames_say tx fr). rewrite holder_says by (now apply field_holds). now rewrite then_nothing, then_then. }
           destruct HZ' as [HZ1 HZ2]. destruct (N2 st _ HZ1) as [E3 E4]. split; [|exact E4]. rewrite E3, HZ2. f_equal. cbn [means].
           unfold node_says. destruct (char_unlike x EC) as (-> & _ & _ & _ & _ & -> & _). rewrite EC. symmetry. apply nothing_then.
        -- destruct (IN (open_fields z) HO) as [E1 E2].
           destruct (N2 st (put x (fst (regroup (open_fields z) (if is_lineseg x then Some (reopen (open_fields z)) else None) k)) z) HZ) as [E3 E4].
           split; [|exact E4]. rewrite E3. unfold line_says, put. cbn [fst snd]. unfold leaf_after. rewrite means_fapp. cbn [means]. rewrite E1, then_nothing. now rewrite !then_then.
Qed.

(** ** Section definitions *)
(** What the style sheet makes of a tree. *)
Definition node_prints (tx : item -> list Z) (x : item) (t : list Z) : list Z :=
  if is_para x then t ++ [10] else if is_text x then tx x else if is_char x then []
  else if model_is "TableControl" x then a_table else if model_is "GShapeObjectControl" x then a_picture else t.
Fixpoint prints (tx : item -> list Z) (f : forest item) : list Z :=
  match f with FNil => [] | FCons x k n => node_prints tx x (prints tx k) ++ prints tx n end.
Lemma prints_fapp : forall tx f g, prints tx (fapp f g) = prints tx f ++ prints tx g.
Proof. intros tx f g. induction f as [|x k _ n IH]; [reflexivity|]. cbn [fapp prints]. now rewrite IH, app_assoc. Qed.
Lemma prints_run : forall tx p f, prints tx (frun p f) ++ prints tx (frest p f) = prints tx f.
Proof. intros tx p f. induction f as [|x k _ n IH]; [reflexivity|]. cbn [frun frest]. destruct (p x); [|reflexivity]. cbn [prints]. now rewrite <- app_assoc, IH. Qed.
Lemma columns_prints : forall tx f, prints tx (in_columns f) = prints tx f.
Proof.
  intros tx. induction f as [|x k IHk n IHn]; [reflexivity|]. cbn [in_columns]. destruct (newcol x); cbn [prints]; [|now rewrite IHk, IHn].
  change (node_prints tx a_columnset ?t) with t. now rewrite <- app_assoc, prints_run, IHk, IHn.
Qed.
Lemma node_parts : forall tx x m, is_sectiondef x = false ->
  definitions (node_says tx x m) = definitions m /\ front (node_says tx x m) = front m /\ body (node_says tx x m) = node_prints tx x (body m).
Proof.
  intros tx x m H. unfold node_says, node_prints, element_says. rewrite H. destruct (is_para x); [cbn; rewrite Nat.add_0_r, app_nil_r; auto|].
  destruct (is_text x); [auto|]. destruct (is_char x); [auto|]. destruct (model_is "TableControl" x); [auto|]. destruct (model_is "GShapeObjectControl" x); auto.
Qed.
Lemma def_node : forall tx x m, is_sectiondef x = true -> node_says tx x m = mkMeaning (S (definitions m)) (front m ++ body m) [].
Proof.
  intros tx x m H. assert (HU : is_para x = false /\ is_text x = false /\ is_char x = false /\ model_is "TableControl" x = false /\ model_is "GShapeObjectControl" x = false) by (repeat split; by_model x).
  destruct HU as (U1 & U2 & U3 & U4 & U5). unfold node_says, element_says. now rewrite U1, U2, U3, U4, U5, H.
Qed.
Lemma def_prints : forall tx x t, is_sectiondef x = true -> node_prints tx x t = t.
Proof.
  intros tx x m H. assert (HU : is_para x = false /\ is_text x = false /\ is_char x = false /\ model_is "TableControl" x = false /\ model_is "GShapeObjectControl" x = false) by (repeat split; by_model x).
  destruct HU as (U1 & U2 & U3 & U4 & U5). unfold node_prints. now rewrite U1, U2, U3, U4, U5.
Qed.
Lemma no_definitions : forall tx f, definitions (means tx f) = 0%nat -> front (means tx f) = [] /\ body (means tx f) = prints tx f.
Proof.
  intros tx. induction f as [|x k IHk n IHn]; intros H; [now split|]. cbn [means prints] in *. cbn [and_then definitions front body] in *.
  destruct (is_sectiondef x) eqn:E; [rewrite def_node in H by exact E; cbn in H; lia|]. destruct (node_parts tx x (means tx k) E) as (E1 & E2 & E3). rewrite E1 in H. rewrite E2, E3.
  destruct IHk as [K1 K2]; [lia|]. destruct IHn as [N1 N2]; [lia|]. rewrite K1, K2, N1, N2. now split.
Qed.
Lemma extract_none : forall tx f, extract_section f = None -> definitions (means tx f) = 0%nat.
Proof.
  intros tx. induction f as [|x k IHk n IHn]; intros H; [reflexivity|]. cbn [extract_section] in H. destruct (is_sectiondef x) eqn:E; [discriminate H|].
  destruct (extract_section k) as [[[s sk] k']|] eqn:EK; [discriminate H|]. destruct (extract_section n) as [[[s sk] n']|] eqn:EN; [discriminate H|].
  cbn [means and_then definitions]. destruct (node_parts tx x (means tx k) E) as (-> & _). rewrite IHk, IHn; reflexivity.
Qed.
Lemma extract_some : forall tx f s sk rest, extract_section f = Some (s, sk, rest) -> (1 <= definitions (means tx f))%nat.
Proof.
  intros tx. induction f as [|x k IHk n IHn]; intros s sk rest H; [discriminate H|]. cbn [extract_section means and_then definitions] in *. destruct (is_sectiondef x) eqn:E; [rewrite def_node by exact E; cbn; lia|].
  destruct (node_parts tx x (means tx k) E) as (-> & _).
  destruct (extract_section k) as [[[s1 sk1] k']|]; [specialize (IHk _ _ _ eq_refl); lia|]. destruct (extract_section n) as [[[s1 sk1] n']|]; [specialize (IHn _ _ _ eq_refl); lia|discriminate H].
Qed.
Lemma extract_prints : forall tx f s sk rest, extract_section f = Some (s, sk, rest) -> definitions (means tx f) = 1%nat ->
  is_sectiondef s = true /\ front (means tx f) = prints tx sk /\ body (means tx f) = prints tx rest.
Proof.
  intros tx. induction f as [|x k IHk n IHn]; intros s sk rest H HD; [discriminate H|]. cbn [extract_section means and_then definitions front body] in *. destruct (is_sectiondef x) eqn:E.
  - injection H as <- <- <-. rewrite def_node in * by exact E. cbn [definitions front body] in *. destruct (no_definitions tx k) as [K1 K2]; [lia|]. destruct (no_definitions tx n) as [N1 N2]; [lia|].
    rewrite K1, K2, N1, N2, app_nil_r. now split.
  - destruct (node_parts tx x (means tx k) E) as (E1 & E2 & E3). rewrite E1 in HD. rewrite E2, E3. destruct (extract_section k) as [[[s1 sk1] k']|] eqn:EK.
    + injection H as <- <- <-. pose proof (extract_some tx _ _ _ _ EK) as L. destruct (IHk _ _ _ eq_refl) as (K1 & K2 & K3); [lia|]. destruct (no_definitions tx n) as [N1 N2]; [lia|].
      rewrite K2, K3, N1, N2, app_nil_r. now split.
    + destruct (extract_section n) as [[[s1 sk1] n']|] eqn:EN; [|discriminate H]. injection H as <- <- <-. pose proof (extract_none tx _ EK) as K0. destruct (no_definitions tx k K0) as [K1 K2].
      destruct (IHn _ _ _ eq_refl) as (N1 & N2 & N3); [lia|]. rewrite K1, K2, N2, N3. now split.
Qed.

(** ** Lines of text *)
Definition controls_in (l : list chunk) : nat := List.length (filter extended_code (concat (map (fun c => map chunk_control_code (ctl_of c)) l))).
Lemma laid_app : forall a b cs, laid_out (a ++ b) cs = and_then (laid_out a cs) (laid_out b (skipn (controls_in a) cs)).
Proof.
  unfold controls_in. induction a as [|[t|ct] a IH]; intros b cs; [symmetry; apply nothing_then| |].
  - cbn [app laid_out map concat ctl_of]. now rewrite IH, then_then.
  - cbn [app laid_out map concat ctl_of filter]. destruct (extended_code (chunk_control_code ct)); [|apply IH]. cbn [List.length]. destruct cs as [|m cs]; [rewrite IH; now rewrite !skipn_nil|]. cbn [skipn]. now rewrite IH, then_then.
Qed.
Lemma laid_cut : forall bs s e c ps, cut_at bs s e c = Some ps -> forall r cs, laid_out (map snd ps ++ r) cs = laid_out (c :: r) cs.
Proof.
  intros bs s e [t|ct] ps H r cs; [|apply cut_control in H; now subst ps].
  revert s e t ps H. induction bs as [|b bs IH]; intros s e t ps H; cbn [cut_at] in H; [now injection H as <-|].
  destruct ((s <? b) && (b <? e)); [|now apply (IH s e)]. destruct (cut_at bs b e (ChText (zdrop (b - s) t))) as [ps'|] eqn:E; [|discriminate H]. injection H as <-. cbn [map snd app laid_out].
  rewrite (IH _ _ _ _ E). cbn [laid_out]. rewrite <- then_then. f_equal. unfold says, and_then. cbn. f_equal. now rewrite ztake_zdrop.
Qed.
Lemma laid_split : forall S A (d : S) shapes (chunks : list ((Z * Z) * A * chunk)) out, split_spec d shapes chunks Finished = (out, Finished) ->
  forall cs, laid_out (map snd out) cs = laid_out (map snd chunks) cs.
Proof.
  intros S A d shapes. induction chunks as [|[[[s e] a] c] chunks IH]; intros out H cs; cbn [split_spec] in H; [now injection H as <-|].
  destruct (cut_at (map fst shapes) s e c) as [ps|] eqn:EC; [|discriminate H]. destruct (split_spec d shapes chunks Finished) as [out' o'] eqn:ES. unfold gapp in H. cbn [fst snd] in H. injection H as <- ->.
  specialize (IH out' eq_refl). rewrite map_app, map_map. cbn [snd map]. rewrite (laid_cut _ _ _ _ _ EC). cbn [laid_out]. destruct c as [t|ct]; [now rewrite IH|].
  destruct (extended_code (chunk_control_code ct)); [|apply IH]. destruct cs; now rewrite IH.
Qed.
Lemma flatten_chunks : forall S A (gs : list (S * list ((Z * Z) * A * chunk))), map snd (flatten gs) = concat (map (fun g => map snd (snd g)) gs).
Proof. intros S A. induction gs as [|[s l] gs IH]; [reflexivity|]. rewrite flatten_cons. unfold piece. rewrite map_app, IH, map_map. reflexivity. Qed.
Lemma lines_laid : forall l lf, para_lines l lf -> exists chunks gs, para_chunks l chunks /\ lf = line_trees gs /\
  (forall cs, laid_out (concat (map (fun g => map snd (snd g)) gs)) cs = laid_out (map snd chunks) cs) /\ Forall (fun g => Forall (fun c => known_control (snd c)) (snd g)) gs.
Proof.
  intros l lf (chunks & shape0 & shapes & line0 & lines & gs & HL & HG & ->). exists chunks, gs. destruct HL as [HC HS HSG _ _ [HF1 HF2] HK]. split; [exact HC|]. split; [reflexivity|].
  pose proof (spec_outcome_fits (snd shape0) (shape0 :: shapes) (plain_chunks chunks) HF1) as EO1.
  destruct (split_spec (snd shape0) (shape0 :: shapes) (plain_chunks chunks) Finished) as [out1 o1] eqn:E1. cbn [snd fst] in *. subst o1.
  pose proof (pieces_control_fits _ _ _ _ _ E1 HF2) as HF2'.
  pose proof (spec_outcome_fits (snd line0) (line0 :: lines) out1 HF2') as EO2.
  destruct (split_spec (snd line0) (line0 :: lines) out1 Finished) as [out2 o2] eqn:E2. cbn [snd fst] in *. subst o2. destruct HG as [HG _]. split.
  - intros cs. rewrite <- flatten_chunks, HG, (laid_split _ _ _ _ _ _ E2), (laid_split _ _ _ _ _ _ E1). f_equal. unfold plain_chunks. rewrite map_map. reflexivity.
  - apply known_groups. rewrite HG.
    assert (K1 : Forall (fun c => known_control (snd c)) out1).
    { pose proof (known_pieces _ _ (snd shape0) (shape0 :: shapes) (plain_chunks chunks) Finished) as H. rewrite E1 in H. apply H. unfold plain_chunks. rewrite Forall_map. cbn [snd]. exact HK. }
    pose proof (known_pieces _ _ (snd line0) (line0 :: lines) out1 Finished K1) as H. now rewrite E2 in H.
Qed.

(** ** Controls in lines *)
Definition tree_says (c : ctree) : meaning := node_says text_of_item (fst c) (means text_of_item (snd c)).
Lemma leaves_means : forall l cs k r, Forall (fun c : (Z * Z) * (Z * unit) * chunk => known_control (snd c)) l -> fill (map some_tree cs) (chunk_leaves l) = Some (k, r) ->
  means text_of_item k = laid_out (map snd l) (map tree_says cs) /\ r = map some_tree (skipn (controls_in (map snd l)) cs).
Proof.
  unfold controls_in. induction l as [|[[rg [sh u]] c] l IH]; intros cs k r HK H.
  - injection H as <- <-. now split.
  - inversion HK as [|? ? K1 K2]; subst. cbn [snd] in K1. cbn [chunk_leaves fold_right fst snd fill] in H. fold (chunk_leaves l) in H. cbn [map snd laid_out ctl_of concat app]. destruct c as [t|ct].
    + cbn [chunk_elem] in H. change (extended (a_text t sh)) with false in H. cbn match in H. destruct (fill (map some_tree cs) (chunk_leaves l)) as [[n' r']|] eqn:E; [|discriminate H]. injection H as <- <-.
      destruct (IH _ _ _ K2 E) as [E1 E2]. split; [|exact E2]. cbn [means]. now rewrite E1.
    + destruct K1 as [kd K1]. set (code := chunk_control_code ct) in *. cbn [chunk_elem] in H. fold code in H. rewrite K1 in H. cbn [ctl_of map app filter]. fold code.
      assert (EX : extended (a_char code kd sh) = extended_code code) by (unfold extended, extended_code; rewrite K1; destruct kd; reflexivity). rewrite EX in H.
      destruct (extended_code code) eqn:EE.
      * destruct cs as [|c0 cs]; [discriminate H|]. cbn [map some_tree] in H. destruct (fill (map some_tree cs) (chunk_leaves l)) as [[n' r']|] eqn:E; [|discriminate H]. injection H as <- <-.
        destruct (IH _ _ _ K2 E) as [E1 E2]. split; [|exact E2]. cbn [means map]. now rewrite E1.
      * destruct (fill (map some_tree cs) (chunk_leaves l)) as [[n' r']|] eqn:E; [|discriminate H]. injection H as <- <-. destruct (IH _ _ _ K2 E) as [E1 E2]. split; [|exact E2]. cbn [means]. rewrite E1. apply nothing_then.
Qed.
Lemma lines_means : forall gs cs k r, Forall (fun g : (Z * list (string * Z)) * _ => Forall (fun c => known_control (snd c)) (snd g)) gs -> fill (map some_tree cs) (line_trees gs) = Some (k, r) ->
  means text_of_item k = laid_out (concat (map (fun g => map snd (snd g)) gs)) (map tree_says cs).
Proof.
  induction gs as [|[ls l] gs IH]; intros cs k r HK H; [now injection H as <- <-|].
  inversion HK as [|? ? K1 K2]; subst. cbn [snd map concat] in *. cbn [line_trees fold_right fst snd fill] in H. fold (line_trees gs) in H. change (extended (line_elem ls)) with false in H. cbn match in H.
  destruct (fill (map some_tree cs) (chunk_leaves l)) as [[k1 cs1]|] eqn:E1; [|discriminate H]. destruct (leaves_means _ _ _ _ K1 E1) as [M1 ->].
  destruct (fill (map some_tree (skipn (controls_in (map snd l)) cs)) (line_trees gs)) as [[n1 cs2]|] eqn:E2; [|discriminate H]. injection H as <- <-. specialize (IH _ _ _ K2 E2).
  cbn [means]. rewrite holder_says by (repeat split). rewrite laid_app, M1, IH. now rewrite skipn_map.
Qed.

(** ** Texts and controls *)
Lemma told_app_all : forall a b : list (item * meaning), all_of (map snd (a ++ b)) = and_then (all_of (map snd a)) (all_of (map snd b)).
Proof. intros. now rewrite map_app, all_app. Qed.
Lemma told_roots : forall f, map fst (told f) = roots f.
Proof. induction f as [|x k _ n IH]; [reflexivity|]. cbn [told map fst roots]. now rewrite IH. Qed.
Lemma chunks_laid : forall l chunks cs, para_chunks (filter is_para_data l) chunks -> laid_out (map snd chunks) cs = laid_out (chunks_of l) cs.
Proof.
  intros l chunks cs H. unfold para_chunks in H. unfold chunks_of. rewrite last_text in H. destruct (last_of "ParaText" l) as [x|]; [now rewrite H|]. now subst chunks.
Qed.
Lemma plain_says : forall tx x m, is_para x = false -> is_char x = false -> is_text x = false -> node_says tx x m = element_says x m.
Proof. intros tx x m H1 H2 H3. unfold node_says. now rewrite H1, H2, H3. Qed.
Lemma plain_not_text : forall x, plain_record x = true -> is_text x = false.
Proof. intros x H. unfold plain_record in H. destruct (is_text x); [|reflexivity]. rewrite !orb_true_r in H. cbn [orb negb] in H. rewrite ?orb_true_r in H. discriminate H. Qed.
Lemma ctl_not_text : forall x, is_ctl x = true -> is_text x = false.
Proof. intros x H. destruct (is_text x) eqn:E; [|reflexivity]. apply text_unlike in E. destruct E as (_ & _ & _ & _ & E & _). congruence. Qed.
Lemma data_says : forall x m, is_para_data x = true -> element_says x m = m.
Proof.
  intros x m H. unfold element_says. assert (HU : model_is "TableControl" x = false /\ model_is "GShapeObjectControl" x = false /\ is_sectiondef x = false).
  { unfold is_para_data in H. repeat split; repeat (apply orb_prop in H; destruct H as [H|H]); by_model x. }
  destruct HU as (-> & -> & ->). reflexivity.
Qed.
Lemma text_means : forall f f1, with_lines f f1 ->
  (shaped false f -> forall f2, inlined f1 = Some f2 -> means text_of_item f2 = section_says f) /\
  (shaped true f -> forall q cs, others f1 = Some q -> ctls f1 = map some_tree cs ->
     means text_of_item q = all_of (map snd (filter (fun t => negb (is_ctl (fst t))) (told f))) /\ map tree_says cs = map snd (filter (fun t => is_ctl (fst t)) (told f))).
Proof.
  unfold section_says. induction f as [|x k IHk n IHn]; intros f1 HW; pose proof HW as HW0; cbn [with_lines] in HW.
  - subst f1. split; [intros _ f2 H; now injection H as <-|]. intros _ q cs H1 H2. injection H1 as <-. destruct cs; [|discriminate H2]. now split.
  - destruct HW as (k' & n' & HK & HN & HW). destruct (IHk _ HK) as [KI KP]. destruct (IHn _ HN) as [NI NP]. split; cbn [shaped]; intros [HX HS].
    + intros f2 H. cbn [told map snd all_of fold_right]. fold (all_of (map snd (told n))). destruct (is_para x) eqn:EP.
      * destruct HW as (lf & HL & ->). destruct HX as [_ HX]. rewrite (proj2 (shaped_items k) HX) in HL. destruct (lines_laid _ _ HL) as (chunks & gs & L1 & -> & L2 & L3).
        rewrite inlined_cons in H. unfold node in H. rewrite EP in H. destruct (inline_para (converted (fapp k' (line_trees gs)))) as [kk|] eqn:EI; [|discriminate H].
        destruct (inlined n') as [n2|] eqn:EN; [|discriminate H]. injection H as <-. cbn [means]. rewrite (NI HS _ eq_refl). f_equal.
        destruct (texts_controls _ _ HK) as [_ TP]. destruct (TP HX) as (_ & _ & q & cs & Q1 & Q2 & Q3 & _). destruct (KP HX q cs Q1 Q2) as [M1 M2].
        rewrite inline_para_eq in EI. unfold others, ctls in *. rewrite converted_fapp, !filter_app, collect_app, Q1, Q2 in EI.
        destruct (inlined_lines _ (lines_lines_ok gs)) as (_ & I2 & I3). unfold others, ctls in I2, I3. rewrite I2, I3, app_nil_r in EI.
        rewrite fill_after in EI by (now apply (placed_noext q Paragraph_)). destruct (fill (map some_tree cs) (line_trees gs)) as [[g r]|] eqn:EF; [|discriminate EI]. injection EI as <-.
        unfold node_says. rewrite EP, means_fapp, M1, (lines_means _ _ _ _ L3 EF), L2, (chunks_laid _ _ _ L1), M2. unfold paragraph_says. now rewrite told_roots, then_then.
      * assert (HU : is_para_data x = false /\ is_char x = false /\ is_text x = false).
        { destruct (is_tablebody x) eqn:EB; [destruct (body_unlike x EB) as (_ & _ & _ & _ & C & _ & B & _ & A); auto|]. destruct HX as [[H1|H1] _]; [pose proof (plain_not_text x H1); apply plain_unlike in H1; destruct H1 as [(_ & A & B & _) _]; auto|].
          destruct (cell_listheader x H1) as (_ & _ & _ & _ & C & _ & B & _ & A); auto. }
        destruct HU as (UD & UC & UT). rewrite UD in HW. subst f1. rewrite inlined_cons in H. unfold node in H. rewrite EP in H. fold (inlined k') in H. destruct (inlined k') as [k2|] eqn:EK; [|discriminate H].
        destruct (inlined n') as [n2|] eqn:EN; [|discriminate H]. injection H as <-. cbn [means]. rewrite (NI HS _ eq_refl). f_equal. rewrite plain_says by assumption. f_equal.
        destruct (is_tablebody x); [destruct HX as [-> _]; cbn [with_lines] in HK; subst k'; now injection EK as <-|]. destruct HX as (_ & HX & _). now apply KI.
    + intros q cs H1 H2. cbn [told filter fst]. destruct HX as [[HD ->]|(HX & HX1 & _)].
      * assert (EP : is_para x = false) by (destruct (is_para x) eqn:EP; [apply para_unlike in EP; destruct EP as (_ & _ & _ & _ & _ & _ & _ & _ & E); congruence|reflexivity]).
        assert (EC : is_ctl x = false) by (destruct (is_ctl x) eqn:EC; [apply ctl_unlike in EC; destruct EC as (_ & E & _); congruence|reflexivity]).
        rewrite EP, HD in HW. cbn [with_lines] in HK. subst k' f1. cbn [fapp] in *. destruct (NP HS q cs H1 H2) as [M1 M2]. rewrite EC, EP. cbn [negb map snd all_of fold_right told]. split; [|exact M2]. rewrite data_says by exact HD.
        fold (all_of (map snd (filter (fun t => negb (is_ctl (fst t))) (told n)))). rewrite nothing_then. exact M1.
      * assert (HU : is_para x = false /\ is_para_data x = false /\ is_char x = false /\ is_text x = false).
        { destruct HX as [H|H]; [destruct (ctl_unlike x H) as (A & B & C & D & _); pose proof (ctl_not_text x H)|destruct (plain_unlike x H) as [(A & B & C & D & _) _]; pose proof (plain_not_text x H)]; auto. }
        destruct HU as (EP & ED & EH & ET). rewrite EP, ED in HW. subst f1. rewrite others_cons in H1. rewrite ctls_cons in H2. unfold node in H1, H2. rewrite EP in H1, H2. rewrite EP.
        fold (inlined k') in H1, H2. destruct (is_ctl x) eqn:EC; cbn [negb map snd all_of fold_right].
        -- destruct cs as [|[c ck] cs]; [discriminate H2|]. cbn [map some_tree fst snd] in H2. injection H2 as -> EK H2. destruct (NP HS q cs H1 H2) as [M1 M2]. split; [exact M1|]. cbn [map]. f_equal; [|exact M2].
           unfold tree_says. cbn [fst snd]. rewrite plain_says by assumption. f_equal. now apply KI.
        -- fold (all_of (map snd (filter (fun t => negb (is_ctl (fst t))) (told n)))). destruct (inlined k') as [k2|] eqn:EK; [|discriminate H1]. destruct (others n') as [q'|] eqn:EO; [|discriminate H1]. injection H1 as <-.
           destruct (NP HS q' cs eq_refl H2) as [M1 M2]. split; [|exact M2]. cbn [means]. rewrite M1. f_equal. rewrite plain_says by assumption. f_equal. now apply KI.
Qed.

Lemma placed_char_leaf : forall f m, placed m f -> everywhere char_leaf f.
Proof.
  induction f as [|x k IHk n IHn]; intros m H; [exact I|]. cbn [placed] in H. destruct H as [H HN]. split; [|split; [|now apply (IHn m)]].
  - intros EC. destruct (char_unlike x EC) as (U1 & U2 & U3 & U4 & _ & _ & U5). destruct m.
    + rewrite U1, U2 in H. destruct H as [[H|H] _]; [|congruence]. apply plain_unlike in H. destruct H as [(_ & _ & A & _) _]. congruence.
    + rewrite U5 in H. destruct H as [H _]. apply plain_unlike in H. destruct H as [(_ & _ & A & _) _]. congruence.
    + rewrite U4 in H. apply H.
  - destruct m.
    + destruct (is_para x); [now apply (IHk Paragraph_)|]. destruct (is_tablebody x); [now destruct H as [-> _]|]. now apply (IHk Inside).
    + destruct (is_lineseg x); [now apply (IHk Line)|]. now apply (IHk Inside).
    + destruct (is_ctl x); [now apply (IHk Inside)|]. now destruct H as [_ ->].
Qed.

(** ** The whole pipeline *)
Definition token_text (tx : item -> list Z) : Prop := forall s l t, tx (a_token s l t) = t.
Lemma everywhere_and : forall (P Q : item -> forest item -> Prop) f, everywhere (fun x k => P x k /\ Q x k) f -> everywhere P f /\ everywhere Q f.
Proof. intros P Q. induction f as [|x k IHk n IHn]; intros H; [now split|]. destruct H as ([H1 H2] & H3 & H4). destruct (IHk H3). destruct (IHn H4). now repeat split. Qed.
Theorem section_prints : forall tx sid f g, token_text tx -> section_ok f -> section_tree sid f g -> definitions (section_says f) = 1%nat -> prints tx g = section_text f.
Proof.
  intros tx sid f g HT [HP HS HD] (f1 & f2 & s & sk & rest & HW & HI & HX & ->) HN.
  destruct (texts_controls f f1 HW) as [HR _]. destruct (HR HS) as (R1 & R2 & f2' & R3 & R4 & R5 & R6 & R7). rewrite HI in R3. injection R3 as <-.
  destruct (fields_fine f2) as (FF & _). destruct (FF R4 [] (Forall_nil _)) as (F1 & F2 & F3 & _).
  assert (ET : means tx (tokenized (with_rows (adopt is_tablebody is_tablecell (adopt is_listheader is_para (fst (regroup [] None f2)))))) = section_says f).
  { pose proof (listheaders_ok _ F2) as O1.
    assert (O2 : everywhere body_ok (adopt is_tablebody is_tablecell (adopt is_listheader is_para (fst (regroup [] None f2))))).
    { apply (bodies_ok _ None O1). rewrite <- (app_nil_l (roots _)). apply follow_inert; [exact I|]. apply paras_inert. apply roots_adopt. now rewrite F3, R5. }
    pose proof (rows_ok _ O2) as O3.
    assert (OT : everywhere table_node (adopt is_tablebody is_tablecell (adopt is_listheader is_para (fst (regroup [] None f2))))) by (apply (everywhere_and _ _ _ O2)).
    rewrite tokenized_means; [|exact HT|apply (everywhere_and _ _ _ O3)]. rewrite rows_means by exact OT. rewrite adopt_means by apply body_holds. rewrite adopt_means by apply listheader_holds.
    destruct (regroup_means text_of_item f2 (placed_char_leaf f2 Inside R4)) as [G1 _]. destruct (G1 [] (Forall_nil _)) as [-> _]. now apply (text_means f f1 HW). }
  destruct (extract_prints tx _ _ _ _ HX) as (S1 & S2 & S3); [now rewrite ET|]. rewrite ET in S2, S3.
  rewrite columns_prints. cbn [prints]. rewrite def_prints by (destruct sid; exact S1). rewrite app_nil_r, prints_fapp, <- S2, <- S3. reflexivity.
Qed.

(** ** What the text does not depend on *)
Lemma model_same : forall c x y, i_model y = i_model x -> model_is c y = model_is c x.
Proof. intros c x y H. unfold model_is. now rewrite H. Qed.
Lemma find_same : forall c l l', Forall2 (fun x y => i_model y = i_model x /\ (i_model x = c -> i_attrs y = i_attrs x)) l l' ->
  match find (model_is c) l, find (model_is c) l' with Some x, Some y => i_attrs y = i_attrs x | None, None => True | _, _ => False end.
Proof.
  intros c l l' H. induction H as [|x y l l' [H1 H2] H IH]; [exact I|]. cbn [find]. rewrite (model_same c x y H1). destruct (model_is c x) eqn:E; [|exact IH]. apply H2. now apply String.eqb_eq.
Qed.
Lemma rev_same : forall A B (R : A -> B -> Prop) l l', Forall2 R l l' -> Forall2 R (rev l) (rev l').
Proof. intros A B R l l' H. induction H; [constructor|]. cbn [rev]. apply Forall2_app; [assumption|]. repeat constructor. assumption. Qed.
Lemma told_same : forall f g, same_text f g ->
  Forall2 (fun x y => i_model (fst y) = i_model (fst x) /\ (i_model (fst x) = "ParaText" -> i_attrs (fst y) = i_attrs (fst x)) /\ snd y = snd x) (told f) (told g).
Proof.
  induction f as [|x k IHk n IHn]; intros [|y k' n'] H; cbn [same_text] in H; try contradiction; [constructor|]. destruct H as (H1 & H2 & H3 & H4). specialize (IHk _ H3). specialize (IHn _ H4). cbn [told].
  constructor; [|exact IHn]. cbn [fst snd]. split; [exact H1|]. split; [exact H2|]. unfold is_para. rewrite (model_same _ x y H1).
  assert (F : forall p : bool -> bool, map snd (filter (fun t => p (is_ctl (fst t))) (told k')) = map snd (filter (fun t => p (is_ctl (fst t))) (told k))).
  { intros p. clear - IHk. induction IHk as [|[a m] [b m'] l l' (E1 & E2 & E3) H IH]; [reflexivity|]. cbn [fst snd filter] in *. subst m'. assert (EC : is_ctl b = is_ctl a) by (unfold is_ctl, model_sub; now rewrite E1). rewrite EC. destruct (p (is_ctl a)); cbn [map snd]; now rewrite ?IH. }
  assert (A : map snd (told k') = map snd (told k)).
  { clear - IHk. induction IHk as [|[a m] [b m'] l l' (E1 & E2 & E3) H IH]; [reflexivity|]. cbn [map fst snd] in *. now rewrite E3, IH. }
  destruct (model_is _ x).
  - unfold paragraph_says. rewrite (F (fun b => negb b)), (F (fun b => b)). f_equal. f_equal. f_equal. unfold chunks_of.
    assert (R : Forall2 (fun x y => i_model y = i_model x /\ (i_model x = "ParaText" -> i_attrs y = i_attrs x)) (map fst (told k)) (map fst (told k'))).
    { clear - IHk. induction IHk as [|[a m] [b m'] l l' (E1 & E2 & E3) H IH]; constructor; cbn [fst] in *; auto. }
    apply rev_same in R. apply find_same in R. unfold last_of. destruct (find _ (rev (map fst (told k)))) as [a|]; destruct (find _ (rev (map fst (told k')))) as [b|]; try contradiction; [now rewrite R|reflexivity].
  - unfold element_says, is_sectiondef. rewrite !(model_same _ x y H1), A. reflexivity.
Qed.
Theorem text_same : forall f g, same_text f g -> section_text g = section_text f.
Proof.
  intros f g H. apply told_same in H. unfold section_text, section_says. replace (map snd (told g)) with (map snd (told f)); [reflexivity|].
  induction H as [|x y l l' (_ & _ & E) H IH]; [reflexivity|]. cbn [map]. now rewrite E, IH.
Qed.
Theorem laid_plain : forall chunks, Forall not_extended chunks -> forall ms, laid_out chunks ms = says (characters_of chunks).
Proof.
  intros chunks H. induction H as [|[t|ct] chunks H1 H IH]; intros ms; [reflexivity| |].
  - cbn [laid_out characters_of flat_map]. now rewrite IH.
  - cbn [laid_out characters_of flat_map app]. cbn [not_extended] in H1. rewrite H1. apply IH.
Qed.
Theorem laid_without : forall a ct b ms, extended_code (chunk_control_code ct) = false -> laid_out (a ++ ChCtl ct :: b) ms = laid_out (a ++ b) ms.
Proof.
  induction a as [|[t|c] a IH]; intros ct b ms H; cbn [app laid_out]; [now rewrite H|now rewrite IH|]. destruct (extended_code (chunk_control_code c)); [|now apply IH]. destruct ms as [|m ms]; now rewrite IH.
Qed.
