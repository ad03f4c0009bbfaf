From Coq Require Import ZArith List Bool Lia.
From Verif Require Import Base BaseFacts Model_Readers Spec_Readers.
Import ListNotations.
Open Scope Z_scope.

(** ** Readers *)

Lemma py_take_nonneg : forall A k (b : list A), 0 <= k -> py_take k b = ztake k b.
Proof. intros. unfold py_take, slice_index. replace (k <? 0) with false by lia. reflexivity. Qed.
Lemma py_drop_nonneg : forall A k (b : list A), 0 <= k -> py_drop k b = zdrop k b.
Proof. intros. unfold py_drop, slice_index. replace (k <? 0) with false by lia. reflexivity. Qed.

Lemma ztake_app_le : forall A k (a b : list A), k <= zlen a -> ztake k (a ++ b) = ztake k a.
Proof.
  intros A k a b H. rewrite !ztake_firstn, firstn_app. unfold zlen in H.
  replace (Z.to_nat k - List.length a)%nat with O by lia. cbn. now rewrite app_nil_r.
Qed.
Lemma zdrop_app_le : forall A k (a b : list A), k <= zlen a -> zdrop k (a ++ b) = zdrop k a ++ b.
Proof.
  intros A k a b H. rewrite !zdrop_skipn, skipn_app. unfold zlen in H.
  replace (Z.to_nat k - List.length a)%nat with O by lia. reflexivity.
Qed.

(** The exact answer of a sized read. *)
Lemma read_sized_enough : forall chunks fin buf n, 0 <= n -> chunks <> [] -> n <= zlen (buf ++ concat chunks) ->
  exists rest pulled, chunks = pulled ++ rest /\ pulled <> [] /\
  read_sized chunks fin buf n = (Ok (ztake n (buf ++ concat chunks)), mkReader rest fin (zdrop n (buf ++ concat pulled))) /\
  n <= zlen (buf ++ concat pulled).
Proof.
  induction chunks as [|c chunks IH]; intros fin buf n Hn HC HL; [now elim HC|]. cbn [read_sized concat] in *.
  destruct (n <=? zlen (buf ++ c)) eqn:E.
  - exists chunks, [c]. replace (Z.min (zlen (buf ++ c)) n) with n by lia.
    rewrite py_take_nonneg, py_drop_nonneg by lia. cbn [concat]. rewrite app_nil_r.
    repeat split; try discriminate; try lia. f_equal. f_equal. rewrite app_assoc. symmetry. apply ztake_app_le. lia.
  - destruct (list_eq_dec (list_eq_dec Z.eq_dec) chunks []) as [->|NE].
    + cbn [concat] in HL. rewrite app_nil_r in HL. lia.
    + rewrite app_assoc in HL. destruct (IH fin (buf ++ c) n Hn NE HL) as (rest & pulled & E1 & E2 & E3 & E4).
      exists rest, (c :: pulled). rewrite E3. cbn [concat app]. rewrite !app_assoc in *. repeat split; try discriminate; auto. now rewrite E1.
Qed.

Lemma read_sized_short : forall chunks fin buf n, zlen (buf ++ concat chunks) < n \/ chunks = [] ->
  read_sized chunks fin buf n =
  match fin with
  | Failed e => (Raise e, mkReader [] Finished (buf ++ concat chunks))
  | _ => (Ok (buf ++ concat chunks), mkReader [] Finished [])
  end.
Proof.
  induction chunks as [|c chunks IH]; intros fin buf n H.
  - cbn. rewrite app_nil_r. reflexivity.
  - destruct H as [H|H]; [|discriminate]. cbn [read_sized concat] in *.
    rewrite app_assoc in H. pose proof (zlen_nonneg _ (concat chunks)). pose proof H as H'. rewrite zlen_app in H'.
    replace (n <=? zlen (buf ++ c)) with false by lia. rewrite IH by auto. now rewrite app_assoc.
Qed.

Theorem read_is : forall r n d r', 0 <= n -> g_end r = Finished -> greader_read r (Some n) = (Ok d, r') ->
  d = (match g_chunks r with [] => remaining r | _ => ztake n (remaining r) end) /\
  d ++ remaining r' = remaining r /\ g_end r' = Finished.
Proof.
  intros [chunks fin buf] n d r' Hn Hf H. cbn [g_end] in Hf. subst fin. unfold greader_read in H. cbn [g_chunks g_end g_buffer] in H.
  unfold remaining at 1 2 4. cbn [g_chunks g_buffer].
  destruct chunks as [|c chunks].
  - rewrite read_sized_short in H by auto. injection H as <- <-. unfold remaining. cbn. rewrite !app_nil_r. auto.
  - destruct (Z_lt_le_dec (zlen (buf ++ concat (c :: chunks))) n) as [L|L].
    + rewrite read_sized_short in H by auto. injection H as <- <-. rewrite (ztake_all _ n) by lia.
      unfold remaining. cbn [g_buffer g_chunks concat]. rewrite !app_nil_r. auto.
    + destruct (read_sized_enough (c :: chunks) Finished buf n Hn ltac:(discriminate) L) as (rest & pulled & E1 & _ & E3 & E4).
      rewrite E3 in H. injection H as <- <-. split; [reflexivity|]. split; [|reflexivity].
      assert (EQ : buf ++ concat (c :: chunks) = (buf ++ concat pulled) ++ concat rest) by now rewrite E1, concat_app, app_assoc.
      cbn [concat] in EQ |- *. rewrite EQ. unfold remaining. cbn [g_buffer g_chunks].
      rewrite ztake_app_le by lia. rewrite app_assoc, ztake_zdrop. reflexivity.
Qed.

Theorem read_never_fails : forall r n, g_end r = Finished -> exists d r', greader_read r n = (Ok d, r').
Proof.
  intros [chunks fin buf] n Hf. cbn [g_end] in Hf. subst. destruct n as [n|]; [|do 2 eexists; reflexivity].
  unfold greader_read. cbn [g_chunks g_end g_buffer]. revert buf.
  induction chunks as [|c chunks IH]; intros buf; cbn [read_sized]; [do 2 eexists; reflexivity|].
  destruct (n <=? zlen (buf ++ c)); [do 2 eexists; reflexivity|apply IH].
Qed.

Lemma read_rest_is : forall r d r', g_end r = Finished -> greader_read r None = (Ok d, r') ->
  d = remaining r /\ remaining r' = [] /\ g_end r' = Finished.
Proof.
  intros [chunks fin buf] d r' Hf H. cbn [g_end] in Hf. subst. cbn in H. injection H as <- <-. auto.
Qed.

Theorem read_conserves : forall r n d r', positive_size n -> g_end r = Finished -> greader_read r n = (Ok d, r') ->
  d ++ remaining r' = remaining r /\ g_end r' = Finished /\ (d = [] <-> remaining r = []).
Proof.
  intros r [n|] d r' Hn Hf H; cbn in Hn.
  - destruct (read_is r n d r' ltac:(lia) Hf H) as (E1 & E2 & E3). split; [exact E2|]. split; [exact E3|].
    subst d. destruct (g_chunks r); [tauto|]. split; [|intros ->; reflexivity].
    intros E. destruct (remaining r) as [|x t]; [reflexivity|]. cbn [ztake] in E. replace (n <=? 0) with false in E by lia. discriminate.
  - destruct (read_rest_is r d r' Hf H) as (-> & E2 & E3). rewrite E2, app_nil_r. repeat split; auto.
Qed.

Theorem reads_conserve : forall sizes r g r', Forall positive_size sizes -> g_end r = Finished -> reads r sizes = (g, r') ->
  snd g = Finished /\ List.length (fst g) = List.length sizes /\ concat (fst g) ++ remaining r' = remaining r.
Proof.
  induction sizes as [|n sizes IH]; intros r g r' HF Hf H; cbn [reads] in H.
  - injection H as <- <-. auto.
  - inversion HF as [|? ? Hn HF']; subst. destruct (read_never_fails r n Hf) as (d & r1 & E). rewrite E in H.
    destruct (read_conserves r n d r1 Hn Hf E) as (C1 & C2 & _).
    destruct (reads r1 sizes) as [g1 r2] eqn:E1. injection H as <- <-. destruct (IH r1 g1 r2 HF' C2 E1) as (A & B & C).
    destruct g1 as [l o]. cbn [gcons fst snd List.length concat] in *. rewrite B, <- app_assoc, C, C1. auto.
Qed.

Theorem reads_until_empty : forall sizes r l r', Forall positive_size sizes -> g_end r = Finished ->
  reads r sizes = ((l ++ [[]], Finished), r') -> concat l = remaining r.
Proof.
  induction sizes as [|n sizes IH]; intros r l r' HF Hf H; cbn [reads] in H.
  - injection H as H _. now destruct l.
  - inversion HF as [|? ? Hn HF']; subst. destruct (read_never_fails r n Hf) as (d & r1 & E). rewrite E in H.
    destruct (read_conserves r n d r1 Hn Hf E) as (C1 & C2 & C3).
    destruct (reads r1 sizes) as [g1 r2] eqn:E1. destruct g1 as [l1 o1]. cbn [gcons] in H. injection H as H1 H2 H3.
    destruct l as [|x l]; cbn [app] in H1; injection H1 as H1 H4.
    + subst d. cbn. symmetry. now apply C3.
    + subst x l1 o1. cbn [concat]. rewrite (IH r1 l r2 HF' C2 E1). exact C1.
Qed.

Theorem read_exceeds_only_exhausted : forall r n d r', 0 < n -> g_end r = Finished -> greader_read r (Some n) = (Ok d, r') ->
  zlen d > n -> g_chunks r = [] /\ d = remaining r /\ remaining r' = [].
Proof.
  intros r n d r' Hn Hf H HL. destruct (read_is r n d r' ltac:(lia) Hf H) as (E1 & E2 & _).
  destruct (g_chunks r) as [|c t] eqn:EC.
  - split; [reflexivity|]. split; [exact E1|]. subst d. rewrite <- (app_nil_r (remaining r)) in E2 at 2. now apply app_inv_head in E2.
  - subst d. rewrite zlen_ztake in HL. lia.
Qed.

Theorem cat_copies_all : forall fuel r, g_end r = Finished -> zlen (remaining r) < Z.of_nat fuel ->
  exists l, cat_loop fuel r = (l, Finished) /\ concat l = remaining r /\ Forall (fun d => d <> []) l.
Proof.
  induction fuel as [|k IH]; intros r Hf HL; [pose proof (zlen_nonneg _ (remaining r)); lia|].
  cbn [cat_loop]. destruct (read_never_fails r (Some 4096) Hf) as (d & r1 & E). rewrite E.
  destruct (read_conserves r (Some 4096) d r1 ltac:(cbn; lia) Hf E) as (C1 & C2 & C3).
  destruct d as [|x d].
  - exists []. repeat split; [|constructor]. symmetry. now apply C3.
  - assert (L : zlen (remaining r1) < Z.of_nat k).
    { rewrite <- C1, zlen_app, zlen_cons in HL. pose proof (zlen_nonneg _ d). lia. }
    destruct (IH r1 C2 L) as (l & E1 & E2 & E3). exists ((x :: d) :: l). rewrite E1. cbn [gcons concat]. rewrite E2.
    repeat split; [exact C1|]. constructor; [discriminate|exact E3].
Qed.

(** Failing generators: a sized read keeps everything, reading all loses it. *)
Theorem failing_read_keeps : forall r n e e' r', 0 < n -> g_end r = Failed e -> greader_read r (Some n) = (Raise e', r') ->
  e' = e /\ remaining r' = remaining r /\ g_end r' = Finished.
Proof.
  intros [chunks fin buf] n e e' r' Hn Hf H. cbn [g_end] in Hf. subst. unfold greader_read in H. cbn [g_chunks g_end g_buffer] in H.
  destruct chunks as [|c chunks].
  - rewrite read_sized_short in H by auto. injection H as <- <-. unfold remaining. cbn. now rewrite !app_nil_r.
  - destruct (Z_lt_le_dec (zlen (buf ++ concat (c :: chunks))) n) as [L|L].
    + rewrite read_sized_short in H by auto. injection H as <- <-. unfold remaining. cbn [g_buffer g_chunks g_end concat]. now rewrite app_nil_r.
    + destruct (read_sized_enough (c :: chunks) (Failed e) buf n ltac:(lia) ltac:(discriminate) L) as (rest & pulled & _ & _ & E3 & _).
      rewrite E3 in H. discriminate.
Qed.

(** ** JSON *)

Scheme json_value_mind := Induction for json_value Sort Prop
with json_elements_mind := Induction for json_elements Sort Prop
with json_members_mind := Induction for json_members Sort Prop.
Combined Scheme json_mutind from json_value_mind, json_elements_mind, json_members_mind.

Lemma ws10 : Forall json_ws [10].
Proof. constructor; [unfold json_ws; auto|constructor]. Qed.

Lemma json_loop_false : forall tokens, Forall json_value tokens -> forall v, json_value v ->
  json_elements (v :: tokens) ([10] ++ v ++ concat (json_array_loop false tokens) ++ [10]).
Proof.
  intros tokens HT. induction HT as [|t tokens Ht HT IH]; intros v Hv.
  - cbn [json_array_loop concat]. apply je_last; auto using ws10.
  - cbn [json_array_loop concat]. unfold COMMA, NEWLINE.
    replace ([10] ++ v ++ ([44; 10] ++ t ++ concat (json_array_loop false tokens)) ++ [10])
      with ([10] ++ v ++ [] ++ [44] ++ ([10] ++ t ++ concat (json_array_loop false tokens) ++ [10])).
    + apply je_more; auto using ws10.
    + cbn [app]. rewrite <- !app_assoc. reflexivity.
Qed.

Theorem json_array_is : forall tokens, tokens <> [] -> Forall json_value tokens ->
  exists chunks, generate_json_array (tokens, Finished) = (chunks, Finished) /\ array_of tokens (concat chunks).
Proof.
  intros [|t tokens] HN HT; [now elim HN|]. inversion HT; subst. eexists. split; [reflexivity|].
  exists ([10] ++ t ++ concat (json_array_loop false tokens) ++ [10]). split; [now apply json_loop_false|].
  cbn [fst json_array_loop]. rewrite concat_app. cbn [concat]. rewrite app_nil_r. unfold LBRACKET, RBRACKET, NEWLINE.
  rewrite <- !app_assoc. reflexivity.
Qed.

Lemma value_head : forall v, json_value v -> exists c s, v = c :: s /\ ~ json_ws c /\ c <> 93.
Proof.
  intros v H. unfold json_ws. destruct H; try (do 2 eexists; split; [reflexivity|lia]).
  destruct s as [|c s]; [now elim H|]. inversion H0; subst. unfold number_char, digit in *. do 2 eexists; split; [reflexivity|lia].
Qed.

Lemma array_is_value : forall es t, array_of es t -> json_value t.
Proof. intros es t (s & H & ->). eapply jv_array; eassumption. Qed.

Theorem json_empty_invalid : exists chunks, generate_json_array ([], Finished) = (chunks, Finished) /\ ~ json_text (concat chunks).
Proof.
  eexists. split; [reflexivity|]. intros (w & v & w' & E & Hw & Hv & Hw').
  destruct (value_head v Hv) as (c & s & -> & N & N'). cbn in E. unfold NEWLINE, RBRACKET in E.
  destruct w as [|x [|y w]]; cbn [app] in E.
  - injection E as <- E. apply N. unfold json_ws. auto.
  - injection E as <- <- E. now apply N'.
  - injection E as <- <- E. inversion Hw as [|? ? _ Hw2]; subst. inversion Hw2 as [|? ? B _]; subst. unfold json_ws in B. lia.
Qed.

(** Splitting a text at its top-level commas, up to the closing bracket. *)
Inductive mode := Normal | Quoted | Escaped.
Fixpoint split (d : nat) (m : mode) (cur t : list Z) : option (list (list Z)) :=
  match t with
  | [] => None
  | c :: r =>
      match m with
      | Escaped => split d Quoted (cur ++ [c]) r
      | Quoted => split d (if c =? 92 then Escaped else if c =? 34 then Normal else Quoted) (cur ++ [c]) r
      | Normal =>
          if c =? 34 then split d Quoted (cur ++ [c]) r
          else if (c =? 91) || (c =? 123) then split (S d) Normal (cur ++ [c]) r
          else match d with
               | S k => split (if (c =? 93) || (c =? 125) then k else d) Normal (cur ++ [c]) r
               | O => if c =? 44 then option_map (cons cur) (split O Normal [] r)
                      else if (c =? 93) || (c =? 125) then Some [cur]
                      else split O Normal (cur ++ [c]) r
               end
      end
  end.

Definition plain (c : Z) : Prop := c <> 34 /\ c <> 91 /\ c <> 123 /\ c <> 44 /\ c <> 93 /\ c <> 125.

Lemma split_plain : forall s, Forall plain s -> forall d cur rest, split d Normal cur (s ++ rest) = split d Normal (cur ++ s) rest.
Proof.
  induction 1 as [|c s Hc Hs IH]; intros d cur rest; [now rewrite app_nil_r|].
  unfold plain in Hc. cbn [app split]. replace (c =? 34) with false by lia.
  replace ((c =? 91) || (c =? 123)) with false by lia. replace ((c =? 93) || (c =? 125)) with false by lia.
  replace (c =? 44) with false by lia. destruct d; rewrite IH; now rewrite <- app_assoc.
Qed.

Lemma split_string : forall s, json_string_rest s -> forall d cur rest, split d Quoted cur (s ++ rest) = split d Normal (cur ++ s) rest.
Proof.
  induction 1; intros dd cur rest; cbn [app split].
  - reflexivity.
  - replace (c =? 92) with false by lia. replace (c =? 34) with false by lia. rewrite IHjson_string_rest. now rewrite <- app_assoc.
  - cbn [Z.eqb Pos.eqb]. rewrite IHjson_string_rest. now rewrite <- !app_assoc.
  - cbn [Z.eqb Pos.eqb].
    assert (P : forall x, hexdigit x -> x <> 34 /\ x <> 92) by (unfold hexdigit, digit; lia).
    repeat match goal with H : hexdigit ?x |- _ => apply P in H; destruct H; replace (x =? 92) with false by lia; replace (x =? 34) with false by lia end.
    rewrite IHjson_string_rest. now rewrite <- !app_assoc.
Qed.

Lemma ws_plain : forall w, Forall json_ws w -> Forall plain w.
Proof. intros w. apply Forall_impl. unfold json_ws, plain. lia. Qed.

Lemma split_open : forall c d cur r, c = 91 \/ c = 123 -> split d Normal cur (c :: r) = split (S d) Normal (cur ++ [c]) r.
Proof. intros c d cur r [->| ->]; reflexivity. Qed.
Lemma split_close : forall c d cur r, c = 93 \/ c = 125 -> split (S d) Normal cur (c :: r) = split d Normal (cur ++ [c]) r.
Proof. intros c d cur r [->| ->]; reflexivity. Qed.
Lemma split_comma : forall d cur r, split (S d) Normal cur (44 :: r) = split (S d) Normal (cur ++ [44]) r.
Proof. reflexivity. Qed.

Lemma split_json :
  (forall v, json_value v -> forall d cur rest, split d Normal cur (v ++ rest) = split d Normal (cur ++ v) rest) /\
  (forall es s, json_elements es s -> forall d cur rest, split (S d) Normal cur (s ++ rest) = split (S d) Normal (cur ++ s) rest) /\
  (forall s, json_members s -> forall d cur rest, split (S d) Normal cur (s ++ rest) = split (S d) Normal (cur ++ s) rest).
Proof.
  assert (Q : forall k d cur rest, json_string_rest k -> split d Normal cur ((34 :: k) ++ rest) = split d Normal (cur ++ 34 :: k) rest).
  { intros k d cur rest Hk. cbn [app split Z.eqb Pos.eqb]. rewrite split_string by assumption. now rewrite <- app_assoc. }
  apply json_mutind; intros.
  1-3: apply split_plain; repeat constructor; unfold plain; lia.
  - apply split_plain. revert f. apply Forall_impl. unfold number_char, digit, plain. lia.
  - now apply Q.
  - rewrite <- !app_assoc. cbn [app]. rewrite split_open by auto. rewrite split_plain by now apply ws_plain. rewrite split_close by auto.
    now rewrite <- !app_assoc.
  - rewrite <- !app_assoc. cbn [app]. rewrite split_open by auto. rewrite H. rewrite split_close by auto. now rewrite <- !app_assoc.
  - rewrite <- !app_assoc. cbn [app]. rewrite split_open by auto. rewrite split_plain by now apply ws_plain. rewrite split_close by auto.
    now rewrite <- !app_assoc.
  - rewrite <- !app_assoc. cbn [app]. rewrite split_open by auto. rewrite H. rewrite split_close by auto. now rewrite <- !app_assoc.
  - rewrite <- !app_assoc. rewrite split_plain by now apply ws_plain. rewrite H. rewrite split_plain by now apply ws_plain. now rewrite <- !app_assoc.
  - rewrite <- !app_assoc. rewrite split_plain by now apply ws_plain. rewrite H. rewrite split_plain by now apply ws_plain.
    cbn [app]. rewrite split_comma, H0. now rewrite <- !app_assoc.
  - rewrite <- !app_assoc. rewrite split_plain by now apply ws_plain. rewrite Q by assumption. rewrite split_plain by now apply ws_plain.
    rewrite (split_plain [58]) by (repeat constructor; unfold plain; lia). rewrite split_plain by now apply ws_plain. rewrite H.
    rewrite split_plain by now apply ws_plain. now rewrite <- !app_assoc.
  - rewrite <- !app_assoc. rewrite split_plain by now apply ws_plain. rewrite Q by assumption. rewrite split_plain by now apply ws_plain.
    rewrite (split_plain [58]) by (repeat constructor; unfold plain; lia). rewrite split_plain by now apply ws_plain. rewrite H.
    rewrite split_plain by now apply ws_plain. cbn [app]. rewrite split_comma, H0. now rewrite <- !app_assoc.
Qed.

Definition is_ws (c : Z) : bool := (c =? 32) || (c =? 9) || (c =? 10) || (c =? 13).
Fixpoint lstrip (l : list Z) : list Z := match l with [] => [] | c :: t => if is_ws c then lstrip t else l end.
Definition strip (l : list Z) : list Z := rev (lstrip (rev (lstrip l))).

Lemma lstrip_ws : forall w l, Forall json_ws w -> lstrip (w ++ l) = lstrip l.
Proof.
  induction 1 as [|c w Hc Hw IH]; [reflexivity|]. cbn [app lstrip].
  replace (is_ws c) with true; [exact IH|]. unfold is_ws, json_ws in *. lia.
Qed.

Lemma string_rest_last : forall s, json_string_rest s -> exists t, s = t ++ [34].
Proof.
  induction 1 as [|c s _ _ _ _ [t ->]|c s _ _ [t ->]|a b c d s _ _ _ _ _ [t ->]].
  - now exists [].
  - exists (c :: t); reflexivity.
  - exists (92 :: c :: t); reflexivity.
  - exists (92 :: 117 :: a :: b :: c :: d :: t); reflexivity.
Qed.

Lemma value_last : forall v, json_value v -> exists c s, v = s ++ [c] /\ ~ json_ws c.
Proof.
  intros v H. unfold json_ws. destruct H.
  - exists 101, [116; 114; 117]. split; [reflexivity|lia].
  - exists 101, [102; 97; 108; 115]. split; [reflexivity|lia].
  - exists 108, [110; 117; 108]. split; [reflexivity|lia].
  - destruct (exists_last H) as (t & c & ->). exists c, t. split; [reflexivity|]. apply Forall_app in H0. destruct H0 as [_ H0].
    inversion H0; subst. unfold number_char, digit in *. lia.
  - destruct (string_rest_last s H) as [t ->]. exists 34, (34 :: t). split; [reflexivity|lia].
  - exists 93, ([91] ++ w). split; [now rewrite app_assoc|lia].
  - exists 93, ([91] ++ s). split; [now rewrite app_assoc|lia].
  - exists 125, ([123] ++ w). split; [now rewrite app_assoc|lia].
  - exists 125, ([123] ++ s). split; [now rewrite app_assoc|lia].
Qed.

Lemma strip_value : forall w v w', Forall json_ws w -> json_value v -> Forall json_ws w' -> strip (w ++ v ++ w') = v.
Proof.
  intros w v w' Hw Hv Hw'. unfold strip. rewrite lstrip_ws by exact Hw.
  assert (A : lstrip (v ++ w') = v ++ w').
  { destruct (value_head v Hv) as (c & s & -> & N & _). cbn [app lstrip]. replace (is_ws c) with false; [reflexivity|]. unfold is_ws, json_ws in *. lia. }
  rewrite A, rev_app_distr, lstrip_ws by now apply Forall_rev.
  assert (B : lstrip (rev v) = rev v).
  { destruct (value_last v Hv) as (c & s & -> & N). rewrite rev_app_distr. cbn [rev app lstrip]. replace (is_ws c) with false; [reflexivity|]. unfold is_ws, json_ws in *. lia. }
  rewrite B. apply rev_involutive.
Qed.

Lemma split_elements : forall es s, json_elements es s -> exists segs, split O Normal [] (s ++ [93]) = Some segs /\ map strip segs = es.
Proof.
  intros es s H. induction H as [w v w' Hw Hv Hw'|w v w' es s Hw Hv Hw' He (segs & E1 & E2)].
  - exists [w ++ v ++ w']. rewrite <- !app_assoc. rewrite split_plain by now apply ws_plain.
    rewrite (proj1 split_json v Hv). rewrite split_plain by now apply ws_plain. cbn. rewrite <- !app_assoc.
    split; [reflexivity|]. now rewrite strip_value.
  - exists ((w ++ v ++ w') :: segs). rewrite <- !app_assoc. rewrite split_plain by now apply ws_plain.
    rewrite (proj1 split_json v Hv). rewrite split_plain by now apply ws_plain. cbn [app split Z.eqb Pos.eqb orb].
    rewrite E1. cbn [option_map map]. rewrite <- !app_assoc, E2, strip_value by assumption. split; reflexivity.
Qed.

Theorem array_elements_unique : forall es es' t, array_of es t -> array_of es' t -> es = es'.
Proof.
  intros es es' t (s & H & ->) (s' & H' & E). apply app_inv_head in E. apply app_inv_tail in E. subst s'.
  destruct (split_elements _ _ H) as (segs & E1 & E2). destruct (split_elements _ _ H') as (segs' & E3 & E4). congruence.
Qed.

(** A failing element stream leaves a proper prefix: no closing bracket. *)
Theorem json_array_failed : forall tokens e chunks o, generate_json_array (tokens, Failed e) = (chunks, o) ->
  o = Failed e /\ generate_json_array (tokens, Finished) = (chunks ++ [[10; 93]], Finished).
Proof. intros tokens e chunks o H. injection H as <- <-. split; reflexivity. Qed.

Theorem json_objects_is : forall A (f : A -> list Z) (objs : list A), objs <> [] -> (forall x, In x objs -> json_value (f x)) ->
  exists chunks, json_objects_generate (fun x => Ok (f x)) (objs, Finished) = (chunks, Finished) /\ array_of (map f objs) (concat chunks).
Proof.
  intros A f objs HN HV. unfold json_objects_generate. cbn [fst snd].
  assert (E : map_gen (fun x => Ok (f x)) objs Finished = (map f objs, Finished)).
  { clear. induction objs as [|x objs IH]; [reflexivity|]. cbn. now rewrite IH. }
  rewrite E. apply json_array_is.
  - now destruct objs.
  - apply Forall_forall. intros y Hy. apply in_map_iff in Hy. destruct Hy as (x & <- & Hx). auto.
Qed.
