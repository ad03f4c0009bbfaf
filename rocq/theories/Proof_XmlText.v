From Coq Require Import ZArith List Bool Lia.
From Verif Require Import Base BaseFacts Model_XmlText Spec_XmlText.
Import ListNotations.
Open Scope Z_scope.

Lemma flat_map_flat_map : forall A B C (f : A -> list B) (g : B -> list C) l, flat_map g (flat_map f l) = flat_map (fun x => flat_map g (f x)) l.
Proof. induction l as [|x l IH]; [reflexivity|]. cbn. now rewrite flat_map_app, IH. Qed.

Lemma flat_map_ext' : forall A B (f g : A -> list B) l, (forall x, f x = g x) -> flat_map f l = flat_map g l.
Proof. intros A B f g l H. apply flat_map_ext. exact H. Qed.

Definition esc (c : Z) : list Z := if c =? 38 then AMP_ENT else if c =? 62 then GT_ENT else if c =? 60 then LT_ENT else [c].
Definition esc_attr (c : Z) : list Z := if c =? 13 then CR_ENT else if c =? 10 then NL_ENT else if c =? 9 then TAB_ENT else esc c.
Definition esc_quot (c : Z) : list Z := if c =? 34 then QUOT_ENT else esc_attr c.

Lemma escape_is : forall s, escape s = flat_map esc s.
Proof.
  intros s. unfold escape, replace_char. rewrite !flat_map_flat_map. apply flat_map_ext'. intros x. unfold esc.
  destruct (x =? 38) eqn:E1; [reflexivity|]. cbn [flat_map app]. destruct (x =? 62) eqn:E2; [reflexivity|].
  cbn [flat_map app]. destruct (x =? 60); reflexivity.
Qed.

Lemma escape_entities_is : forall s, escape_entities s = flat_map esc_attr s.
Proof.
  intros s. unfold escape_entities. rewrite escape_is. unfold replace_char. rewrite !flat_map_flat_map. apply flat_map_ext'. intros x.
  unfold esc_attr, esc.
  destruct (x =? 38) eqn:E1; [apply Z.eqb_eq in E1; subst; reflexivity|].
  destruct (x =? 62) eqn:E2; [apply Z.eqb_eq in E2; subst; reflexivity|].
  destruct (x =? 60) eqn:E3; [apply Z.eqb_eq in E3; subst; reflexivity|].
  cbn [flat_map app]. destruct (x =? 13); [reflexivity|]. cbn [flat_map app]. destruct (x =? 10); [reflexivity|].
  cbn [flat_map app]. destruct (x =? 9); reflexivity.
Qed.

Lemma without_nul_flat : forall s, without_nul s = flat_map (fun c => if c =? 0 then [] else [c]) s.
Proof. induction s as [|c s IH]; [reflexivity|]. unfold without_nul in *. cbn [filter flat_map]. rewrite <- IH. destruct (c =? 0); reflexivity. Qed.

Lemma drop_nul_app : forall a b, drop_nul (a ++ b) = drop_nul a ++ drop_nul b.
Proof. intros. unfold drop_nul, replace_char. apply flat_map_app. Qed.

Lemma drop_nul_esc : forall f s, (forall c, c <> 0 -> drop_nul (f c) = f c) -> f 0 = [0] -> drop_nul (flat_map f s) = flat_map f (without_nul s).
Proof.
  intros f s H H0. rewrite without_nul_flat, flat_map_flat_map. unfold drop_nul, replace_char. rewrite flat_map_flat_map.
  apply flat_map_ext'. intros x. destruct (x =? 0) eqn:E.
  - apply Z.eqb_eq in E. subst. rewrite H0. reflexivity.
  - cbn [flat_map]. rewrite app_nil_r. apply H. lia.
Qed.

Ltac esc_cases c := unfold esc_quot, esc_attr, esc;
  repeat match goal with |- context [c =? ?k] => destruct (c =? k) eqn:? end.

Lemma esc_nonul : forall c, c <> 0 -> drop_nul (esc c) = esc c.
Proof. intros c H. esc_cases c; try reflexivity. cbn. replace (c =? 0) with false by lia. reflexivity. Qed.
Lemma esc_attr_nonul : forall c, c <> 0 -> drop_nul (esc_attr c) = esc_attr c.
Proof. intros c H. esc_cases c; try reflexivity. cbn. replace (c =? 0) with false by lia. reflexivity. Qed.
Lemma esc_quot_nonul : forall c, c <> 0 -> drop_nul (esc_quot c) = esc_quot c.
Proof. intros c H. esc_cases c; try reflexivity. cbn. replace (c =? 0) with false by lia. reflexivity. Qed.

Lemma ref_ok : forall s, Forall (fun c => 33 <= c <= 126 /\ c <> 59) s -> ~ In 59 s /\ Forall xml_char s.
Proof.
  intros s H. split.
  - intros HI. rewrite Forall_forall in H. apply H in HI. lia.
  - revert H. apply Forall_impl. unfold xml_char. lia.
Qed.

Ltac use_ref rule s0 :=
  match goal with |- _ (?out) (_ :: ?t) => idtac end;
  let K := fresh in assert (K : ~ In 59 s0 /\ Forall xml_char s0) by (apply ref_ok; repeat constructor; lia);
  destruct K as [K1 K2]; apply (rule s0); [exact K1|exact K2|reflexivity|].

Lemma content_escaped : forall t, Forall (fun c => xml_char c /\ c <> 13) t -> content_text (flat_map esc t) t.
Proof.
  induction 1 as [|c t [Hc H13] Ht IH]; [constructor|]. cbn [flat_map]. unfold esc at 1.
  destruct (c =? 38) eqn:E1; [apply Z.eqb_eq in E1; subst; change (AMP_ENT ++ flat_map esc t) with ([38] ++ [97; 109; 112] ++ [59] ++ flat_map esc t); use_ref ct_ref [97; 109; 112]; exact IH|].
  destruct (c =? 62) eqn:E2; [apply Z.eqb_eq in E2; subst; change (GT_ENT ++ flat_map esc t) with ([38] ++ [103; 116] ++ [59] ++ flat_map esc t); use_ref ct_ref [103; 116]; exact IH|].
  destruct (c =? 60) eqn:E3; [apply Z.eqb_eq in E3; subst; change (LT_ENT ++ flat_map esc t) with ([38] ++ [108; 116] ++ [59] ++ flat_map esc t); use_ref ct_ref [108; 116]; exact IH|].
  cbn [app]. apply ct_char; auto; lia.
Qed.

Lemma attr_escaped : forall f q, f = esc_quot \/ f = esc_attr -> (q = 34 \/ q = 39) ->
  forall v, Forall (fun c => xml_char c) v -> (f = esc_attr -> ~ In q v) -> (f = esc_quot -> q = 34) ->
  attr_value q (flat_map f v) v.
Proof.
  intros f q Hf Hq v Hv. induction Hv as [|c v Hc Hv IH]; intros Hn Hq34; [constructor|]. cbn [flat_map].
  assert (IH' : attr_value q (flat_map f v) v) by (apply IH; [intros E HI; apply (Hn E); now right|exact Hq34]). clear IH.
  assert (A : f = esc_attr -> c <> q) by (intros E ->; apply (Hn E); now left).
  assert (AA : forall g, g = f -> attr_value q (esc_attr c ++ flat_map g v) (c :: v) \/ c = q).
  { intros g ->. destruct (Z.eq_dec c q) as [->|NQ]; [now right|left]. unfold esc_attr, esc.
    destruct (c =? 13) eqn:E1; [apply Z.eqb_eq in E1; subst c; change (CR_ENT ++ flat_map f v) with ([38] ++ [35; 49; 51] ++ [59] ++ flat_map f v); use_ref (av_ref q) [35; 49; 51]; exact IH'|].
    destruct (c =? 10) eqn:E2; [apply Z.eqb_eq in E2; subst c; change (NL_ENT ++ flat_map f v) with ([38] ++ [35; 49; 48] ++ [59] ++ flat_map f v); use_ref (av_ref q) [35; 49; 48]; exact IH'|].
    destruct (c =? 9) eqn:E3; [apply Z.eqb_eq in E3; subst c; change (TAB_ENT ++ flat_map f v) with ([38] ++ [35; 57] ++ [59] ++ flat_map f v); use_ref (av_ref q) [35; 57]; exact IH'|].
    destruct (c =? 38) eqn:E4; [apply Z.eqb_eq in E4; subst c; change (AMP_ENT ++ flat_map f v) with ([38] ++ [97; 109; 112] ++ [59] ++ flat_map f v); use_ref (av_ref q) [97; 109; 112]; exact IH'|].
    destruct (c =? 62) eqn:E5; [apply Z.eqb_eq in E5; subst c; change (GT_ENT ++ flat_map f v) with ([38] ++ [103; 116] ++ [59] ++ flat_map f v); use_ref (av_ref q) [103; 116]; exact IH'|].
    destruct (c =? 60) eqn:E6; [apply Z.eqb_eq in E6; subst c; change (LT_ENT ++ flat_map f v) with ([38] ++ [108; 116] ++ [59] ++ flat_map f v); use_ref (av_ref q) [108; 116]; exact IH'|].
    cbn [app]. apply av_char; auto; lia. }
  destruct Hf as [->| ->].
  - unfold esc_quot at 1. destruct (c =? 34) eqn:E0.
    + apply Z.eqb_eq in E0. subst c. change (QUOT_ENT ++ flat_map esc_quot v) with ([38] ++ [113; 117; 111; 116] ++ [59] ++ flat_map esc_quot v).
      use_ref (av_ref q) [113; 117; 111; 116]. exact IH'.
    + destruct (AA esc_quot eq_refl) as [X|X]; [exact X|]. rewrite (Hq34 eq_refl) in X. lia.
  - destruct (AA esc_attr eq_refl) as [X|X]; [exact X|]. now elim (A eq_refl).
Qed.

Lemma contains_In : forall c s, contains c s = true <-> In c s.
Proof.
  intros. unfold contains. rewrite existsb_exists. split.
  - intros (x & H & E). apply Z.eqb_eq in E. now subst.
  - intros H. exists c. split; [exact H|apply Z.eqb_refl].
Qed.

Lemma in_esc_attr : forall q v, q = 34 \/ q = 39 -> (In q (flat_map esc_attr v) <-> In q v).
Proof.
  intros q v Hq. rewrite in_flat_map. split.
  - intros (x & Hx & HI). revert HI. esc_cases x; cbn; intros HI; repeat (destruct HI as [HI|HI]; [try lia|]); try contradiction. subst. exact Hx.
  - intros H. exists q. split; [exact H|]. destruct Hq as [->| ->]; cbn; auto.
Qed.

Lemma replace_quot : forall v, replace_char 34 QUOT_ENT (flat_map esc_attr v) = flat_map esc_quot v.
Proof.
  intros v. unfold replace_char. rewrite flat_map_flat_map. apply flat_map_ext'. intros x. unfold esc_quot.
  destruct (x =? 34) eqn:E; [apply Z.eqb_eq in E; subst; reflexivity|].
  esc_cases x; try reflexivity. cbn. rewrite E. reflexivity.
Qed.

Lemma legal_without_nul : forall v, Forall legal v -> Forall xml_char (without_nul v).
Proof.
  intros v H. apply Forall_forall. intros c Hc. apply filter_In in Hc. destruct Hc as [Hc E]. rewrite Forall_forall in H.
  destruct (H c Hc) as [->|X]; [discriminate|exact X].
Qed.

Lemma In_without_nul : forall c v, In c (without_nul v) -> In c v.
Proof. intros c v H. apply filter_In in H. tauto. Qed.

Theorem quoted_value : forall v, Forall legal v -> exists q body,
  (q = 34 \/ q = 39) /\ drop_nul (quoteattr v) = [q] ++ body ++ [q] /\ attr_value q body (without_nul v).
Proof.
  intros v HL. pose proof (legal_without_nul v HL) as HX. unfold quoteattr. rewrite escape_entities_is.
  assert (Z0 : esc_attr 0 = [0] /\ esc_quot 0 = [0]) by (split; reflexivity). destruct Z0 as [Za Zq].
  destruct (contains 34 (flat_map esc_attr v)) eqn:E34.
  - destruct (contains 39 (flat_map esc_attr v)) eqn:E39.
    + exists 34, (flat_map esc_quot (without_nul v)). split; [auto|]. split.
      * rewrite !drop_nul_app, replace_quot, (drop_nul_esc esc_quot _ esc_quot_nonul Zq). reflexivity.
      * apply attr_escaped; auto. intros E. exfalso. assert (X : esc_quot 34 = esc_attr 34) by now rewrite E. discriminate.
    + exists 39, (flat_map esc_attr (without_nul v)). split; [auto|]. split.
      * rewrite !drop_nul_app, (drop_nul_esc esc_attr _ esc_attr_nonul Za). reflexivity.
      * apply attr_escaped; auto.
        -- intros _ HI. apply In_without_nul in HI. apply (in_esc_attr 39 v) in HI; [|auto]. apply contains_In in HI. congruence.
        -- intros E. exfalso. assert (X : esc_quot 34 = esc_attr 34) by now rewrite E. discriminate.
  - exists 34, (flat_map esc_attr (without_nul v)). split; [auto|]. split.
    + rewrite !drop_nul_app, (drop_nul_esc esc_attr _ esc_attr_nonul Za). reflexivity.
    + apply attr_escaped; auto.
      intros _ HI. apply In_without_nul in HI. apply (in_esc_attr 34 v) in HI; [|auto]. apply contains_In in HI. congruence.
Qed.

Theorem escaped_text : forall t, Forall (fun c => legal c /\ c <> 13) t -> content_text (drop_nul (escape t)) (without_nul t).
Proof.
  intros t H. rewrite escape_is, (drop_nul_esc esc _ esc_nonul eq_refl). apply content_escaped.
  apply Forall_forall. intros c Hc. apply filter_In in Hc. destruct Hc as [Hc E]. rewrite Forall_forall in H. destruct (H c Hc) as [[->|X] N]; [discriminate|auto].
Qed.

(** ** The machine *)

Lemma xml_charb_ok : forall c, xml_charb c = true <-> xml_char c.
Proof. intros c. unfold xml_charb, xml_char. lia. Qed.

Lemma machine_text_ref : forall s acc ref stack rest, ~ In 59 s -> Forall xml_char s ->
  xml_machine (STextRef acc ref) stack (s ++ 59 :: rest) =
  match reference (ref ++ s) with Some x => xml_machine (SText (acc ++ [x])) stack rest | None => None end.
Proof.
  induction s as [|c s IH]; intros acc ref stack rest HN HC.
  - cbn. rewrite app_nil_r. reflexivity.
  - inversion HC as [|? ? Hc HC']; subst. apply xml_charb_ok in Hc. cbn [app xml_machine]. rewrite Hc. cbn [negb].
    replace (c =? 59) with false by (cbn in HN; lia). rewrite IH; [|cbn in HN; tauto|exact HC']. now rewrite <- app_assoc.
Qed.

Lemma machine_content : forall out t, content_text out t -> forall acc stack rest,
  xml_machine (SText acc) stack (out ++ rest) = xml_machine (SText (acc ++ t)) stack rest.
Proof.
  induction 1 as [|c out t Hc H13 H60 H38 H62 H IH|s c out t HN HC HR H IH]; intros acc stack rest.
  - now rewrite app_nil_r.
  - apply xml_charb_ok in Hc. cbn [app xml_machine]. rewrite Hc. cbn [negb]. replace (c =? 60) with false by lia. replace (c =? 38) with false by lia.
    rewrite IH, <- app_assoc. reflexivity.
  - rewrite <- !app_assoc. cbn [app]. cbn [xml_machine]. cbn [negb xml_charb Z.eqb Pos.eqb Z.leb Z.compare Pos.compare Pos.compare_cont orb andb].
    rewrite machine_text_ref by assumption. cbn [app]. rewrite HR, IH, <- app_assoc. reflexivity.
Qed.

Lemma machine_val_ref : forall s n attrs a q v ref stack rest, ~ In 59 s -> Forall xml_char s ->
  xml_machine (SValRef n attrs a q v ref) stack (s ++ 59 :: rest) =
  match reference (ref ++ s) with Some x => xml_machine (SVal n attrs a q (v ++ [x])) stack rest | None => None end.
Proof.
  induction s as [|c s IH]; intros n attrs a q v ref stack rest HN HC.
  - cbn. rewrite app_nil_r. reflexivity.
  - inversion HC as [|? ? Hc HC']; subst. apply xml_charb_ok in Hc. cbn [app xml_machine]. rewrite Hc. cbn [negb].
    replace (c =? 59) with false by (cbn in HN; lia). rewrite IH; [|cbn in HN; tauto|exact HC']. now rewrite <- app_assoc.
Qed.

Lemma machine_value : forall q out v, q = 34 \/ q = 39 -> attr_value q out v -> forall n attrs a acc stack rest,
  xml_machine (SVal n attrs a q acc) stack (out ++ q :: rest) = xml_machine (SAfter n (attrs ++ [(a, acc ++ v)])) stack rest.
Proof.
  intros q out v Hq H. induction H as [|c out v Hc H9 H10 H13 H60 H38 Hcq H IH|c out v Hc H IH|s c out v HN HC HR H IH]; intros n attrs a acc stack rest.
  - cbn [app xml_machine]. replace (negb (xml_charb q)) with false by (destruct Hq as [->| ->]; reflexivity). rewrite Z.eqb_refl, app_nil_r. reflexivity.
  - apply xml_charb_ok in Hc. cbn [app xml_machine]. rewrite Hc. cbn [negb]. replace (c =? q) with false by lia. replace (c =? 60) with false by lia. replace (c =? 38) with false by lia.
    replace ((c =? 9) || (c =? 10)) with false by lia. rewrite IH, <- app_assoc. reflexivity.
  - cbn [app xml_machine]. replace (negb (xml_charb c)) with false by (destruct Hc as [->| ->]; reflexivity).
    replace (c =? q) with false by lia. replace (c =? 60) with false by lia. replace (c =? 38) with false by lia.
    replace ((c =? 9) || (c =? 10)) with true by lia. rewrite IH, <- app_assoc. reflexivity.
  - rewrite <- !app_assoc. cbn [app]. cbn [xml_machine]. replace (38 =? q) with false by lia.
    cbn [negb xml_charb Z.eqb Pos.eqb Z.leb Z.compare Pos.compare Pos.compare_cont orb andb].
    rewrite machine_val_ref by assumption. cbn [app]. rewrite HR, IH, <- app_assoc. reflexivity.
Qed.

Lemma name_char_ok : forall c, name_char c = true -> xml_charb c = true /\ c <> 62 /\ c <> 32 /\ c <> 61 /\ c <> 47 /\ c <> 60 /\ c <> 38 /\ c <> 13.
Proof. intros c. unfold name_char, name_start, xml_charb. lia. Qed.
Lemma name_start_char : forall c, name_start c = true -> name_char c = true.
Proof. intros c H. unfold name_char. now rewrite H. Qed.

Lemma machine_name : forall r n stack rest, Forall (fun x => name_char x = true) r ->
  xml_machine (SName n) stack (r ++ rest) = xml_machine (SName (n ++ r)) stack rest.
Proof.
  induction r as [|c r IH]; intros n stack rest H; [now rewrite app_nil_r|]. inversion H as [|? ? Hc H']; subst.
  destruct (name_char_ok c Hc) as (X & ? & ? & ? & ? & ?). cbn [app xml_machine]. rewrite X. cbn [negb].
  replace (c =? 62) with false by lia. replace (c =? 32) with false by lia. rewrite Hc, IH by assumption. now rewrite <- app_assoc.
Qed.

Lemma machine_attr_name : forall r n attrs a stack rest, Forall (fun x => name_char x = true) r ->
  xml_machine (SAttr n attrs a) stack (r ++ rest) = xml_machine (SAttr n attrs (a ++ r)) stack rest.
Proof.
  induction r as [|c r IH]; intros n attrs a stack rest H; [now rewrite app_nil_r|]. inversion H as [|? ? Hc H']; subst.
  destruct (name_char_ok c Hc) as (X & ? & ? & ? & ? & ?). cbn [app xml_machine]. rewrite X. cbn [negb].
  replace (c =? 61) with false by lia. rewrite Hc, IH by assumption. now rewrite <- app_assoc.
Qed.

Lemma machine_close : forall r n stack rest, Forall (fun x => name_char x = true) r ->
  xml_machine (SClose n) stack (r ++ rest) = xml_machine (SClose (n ++ r)) stack rest.
Proof.
  induction r as [|c r IH]; intros n stack rest H; [now rewrite app_nil_r|]. inversion H as [|? ? Hc H']; subst.
  destruct (name_char_ok c Hc) as (X & ? & ? & ? & ? & ?). cbn [app xml_machine]. rewrite X. cbn [negb].
  replace (c =? 62) with false by lia. rewrite Hc, IH by assumption. now rewrite <- app_assoc.
Qed.

Lemma leqb_refl : forall a, leqb a a = true.
Proof. intros a. unfold leqb. destruct (list_eq_dec Z.eq_dec a a); congruence. Qed.
Lemma leqb_neq : forall a b, a <> b -> leqb a b = false.
Proof. intros a b H. unfold leqb. destruct (list_eq_dec Z.eq_dec a b); congruence. Qed.

Definition stripped (attrs : list (list Z * list Z)) : list (list Z * list Z) := map (fun kv => (fst kv, without_nul (snd kv))) attrs.

Lemma machine_attrs : forall attrs done n stack rest, 
  NoDup (map fst (done ++ attrs)) -> Forall (fun kv => xml_name (fst kv) /\ Forall legal (snd kv)) attrs ->
  forall st, (done = [] -> st = SName n \/ st = SAfter n []) -> (done <> [] -> st = SAfter n done) ->
  xml_machine st stack (concat (flat_map attr_chunks attrs) ++ 62 :: rest) =
  option_map (cons (XStart n (done ++ stripped attrs))) (xml_machine (SText []) (n :: stack) rest).
Proof.
  induction attrs as [|[k v] attrs IH]; intros done n stack rest HD HF st H1 H2.
  - cbn [flat_map concat app stripped map]. rewrite app_nil_r. destruct done as [|d done].
    + destruct (H1 eq_refl) as [->| ->]; reflexivity.
    + rewrite (H2 ltac:(discriminate)). reflexivity.
  - inversion HF as [|? ? [Hk Hv] HF']; subst. cbn [fst snd] in *.
    destruct (quoted_value v Hv) as (q & body & Hq & E & AV).
    cbn [flat_map attr_chunks app concat fst snd]. rewrite E. unfold xml_name in Hk. destruct k as [|c k]; [contradiction|]. destruct Hk as [Hc Hk].
    destruct (name_char_ok c (name_start_char c Hc)) as (X & N1 & N2 & N3 & N4 & _).
    rewrite <- !app_assoc. cbn [app].
    assert (S1 : forall r, xml_machine st stack (32 :: r) = xml_machine (SSpace n done) stack r).
    { intros r. destruct done as [|d done]; [destruct (H1 eq_refl) as [->| ->]; reflexivity|rewrite (H2 ltac:(discriminate)); reflexivity]. }
    rewrite S1. cbn [xml_machine]. rewrite X, Hc. cbn [negb]. rewrite machine_attr_name by exact Hk. cbn [app xml_machine].
    cbn [negb xml_charb Z.eqb Pos.eqb Z.leb Z.compare Pos.compare Pos.compare_cont orb andb].
    assert (NE : existsb (fun kv => leqb (c :: k) (fst kv)) done = false).
    { apply not_true_is_false. intros HX. apply existsb_exists in HX. destruct HX as ([k' v'] & HI & HL). cbn [fst] in HL.
      assert (c :: k = k') by (unfold leqb in HL; destruct (list_eq_dec Z.eq_dec (c :: k) k'); congruence). subst k'.
      rewrite map_app in HD. cbn in HD. apply NoDup_remove_2 in HD. apply HD. apply in_or_app. left. apply in_map_iff. exists (c :: k, v'). auto. }
    rewrite NE. replace (negb (xml_charb q)) with false by (destruct Hq as [->| ->]; reflexivity).
    replace ((q =? 34) || (q =? 39)) with true by lia. rewrite <- app_assoc. cbn [app].
    rewrite (machine_value q body (without_nul v) Hq AV). cbn [app].
    rewrite (IH (done ++ [(c :: k, without_nul v)]) n stack rest).
    + unfold stripped. cbn [map fst snd]. rewrite <- app_assoc. reflexivity.
    + rewrite !map_app in *. cbn in *. rewrite <- app_assoc. exact HD.
    + exact HF'.
    + intros HX. destruct done; discriminate.
    + reflexivity.
Qed.

Lemma machine_events : forall es stack, nested stack es -> Forall writable es -> forall acc,
  xml_machine (SText acc) stack (concat (xmlevents_to_textchunks es)) = Some (read_back acc es).
Proof.
  unfold xmlevents_to_textchunks. intros es stack H. induction H as [|st n a es H IH|st t es H IH|st n es H IH]; intros HW acc.
  - reflexivity.
  - inversion HW as [|? ? W HW']; subst. cbn [writable] in W. destruct W as (Wn & Wd & Wa). cbn [flat_map event_chunks].
    rewrite concat_app. cbn [app concat]. rewrite concat_app. cbn [concat]. rewrite <- !app_assoc. cbn [app].
    unfold xml_name in Wn. destruct n as [|c n]; [contradiction|]. destruct Wn as [Hc Hn].
    destruct (name_char_ok c (name_start_char c Hc)) as (X & N1 & N2 & N3 & N4 & _).
    cbn [app xml_machine]. cbn [negb xml_charb Z.eqb Pos.eqb Z.leb Z.compare Pos.compare Pos.compare_cont orb andb].
    change (xml_charb c) with (xml_charb c). fold (xml_charb c).
    rewrite X. cbn [negb]. replace (c =? 47) with false by lia. rewrite Hc.
    rewrite machine_name by exact Hn. cbn [app].
    rewrite (machine_attrs a [] (c :: n) st) by (auto; intros E; now elim E).
    rewrite IH by exact HW'. reflexivity.
  - inversion HW as [|? ? W HW']; subst. cbn [flat_map event_chunks]. rewrite concat_app. cbn [concat]. rewrite app_nil_r.
    rewrite (machine_content _ _ (escaped_text t W)). rewrite IH by exact HW'. reflexivity.
  - inversion HW as [|? ? W HW']; subst. cbn [writable] in W. cbn [flat_map event_chunks]. rewrite concat_app. cbn [concat app].
    unfold xml_name in W. destruct n as [|c n]; [contradiction|]. destruct W as [Hc Hn].
    cbn [xml_machine]. cbn [negb xml_charb Z.eqb Pos.eqb Z.leb Z.compare Pos.compare Pos.compare_cont orb andb].
    rewrite <- !app_assoc. rewrite machine_close by (constructor; [now apply name_start_char|exact Hn]). cbn [app xml_machine].
    cbn [negb xml_charb Z.eqb Pos.eqb Z.leb Z.compare Pos.compare Pos.compare_cont orb andb].
    rewrite leqb_refl, IH by exact HW'. reflexivity.
Qed.

(** ** Whole documents *)

Lemma normalize_eol_id : forall s, ~ In 13 s -> normalize_eol s = s.
Proof.
  induction s as [|c s IH]; intros H; [reflexivity|]. cbn [normalize_eol]. cbn in H.
  replace (c =? 13) with false by lia. f_equal. apply IH. tauto.
Qed.

Lemma content_no_cr : forall out t, content_text out t -> (forall s c, reference s = Some c -> ~ In 59 s -> In 13 s -> False) -> ~ In 13 out.
Proof.
  induction 1 as [|c out t Hc H13 H60 H38 H62 H IH|s c out t HN HC HR H IH]; intros HREF HI; [contradiction| |].
  - destruct HI as [->|HI]; [now elim H13|]. now apply IH.
  - cbn [app] in HI. destruct HI as [HI|HI]; [lia|]. apply in_app_or in HI. destruct HI as [HI|[HI|HI]]; [eapply HREF; eassumption|lia|now apply IH].
Qed.

Lemma esc_no_cr : forall c, c <> 13 -> ~ In 13 (esc c).
Proof. intros c H. esc_cases c; cbn; lia. Qed.
Lemma esc_attr_no_cr : forall c, ~ In 13 (esc_attr c).
Proof. intros c. esc_cases c; cbn; lia. Qed.
Lemma esc_quot_no_cr : forall c, ~ In 13 (esc_quot c).
Proof. intros c. unfold esc_quot. destruct (c =? 34); [cbn; lia|apply esc_attr_no_cr]. Qed.

Lemma drop_nul_in : forall x s, In x (drop_nul s) -> In x s.
Proof.
  intros x s H. unfold drop_nul, replace_char in H. apply in_flat_map in H. destruct H as (y & Hy & H). destruct (y =? 0); [contradiction|].
  destruct H as [->|[]]. exact Hy.
Qed.

Lemma quoteattr_no_cr : forall v, ~ In 13 (drop_nul (quoteattr v)).
Proof.
  intros v H. apply drop_nul_in in H. unfold quoteattr in H. rewrite escape_entities_is in H.
  assert (A : ~ In 13 (flat_map esc_attr v)).
  { intros X. apply in_flat_map in X. destruct X as (y & _ & X). now apply esc_attr_no_cr in X. }
  assert (B : ~ In 13 (flat_map esc_quot v)).
  { intros X. apply in_flat_map in X. destruct X as (y & _ & X). now apply esc_quot_no_cr in X. }
  rewrite replace_quot in H. destruct (contains 34 _); [destruct (contains 39 _)|]; cbn [app] in H; destruct H as [H|H]; try lia; apply in_app_or in H; destruct H as [H|[H|[]]]; try lia; tauto.
Qed.

Lemma name_no_cr : forall n, xml_name n -> ~ In 13 n.
Proof.
  intros [|c n] H HI; [contradiction|]. destruct H as [Hc Hn]. destruct HI as [->|HI]; [discriminate|].
  rewrite Forall_forall in Hn. apply Hn in HI. discriminate.
Qed.

Lemma written_no_cr : forall es, Forall writable es -> ~ In 13 (concat (xmlevents_to_textchunks es)).
Proof.
  unfold xmlevents_to_textchunks. induction 1 as [|e es W HW IH]; intros HI; [contradiction|]. cbn [flat_map] in HI.
  rewrite concat_app in HI. apply in_app_or in HI. destruct HI as [HI|HI]; [|now apply IH]. clear IH HW.
  destruct e as [n attrs|t|n]; cbn [event_chunks] in HI.
  - destruct W as (Wn & _ & Wa). cbn [app concat] in HI. rewrite concat_app in HI. cbn [concat] in HI.
    destruct HI as [HI|HI]; [lia|]. apply in_app_or in HI. destruct HI as [HI|HI]; [now apply name_no_cr in HI|].
    apply in_app_or in HI. destruct HI as [HI|HI]; [|cbn in HI; lia].
    induction Wa as [|[k v] attrs [Wk Wv] Wa IH]; [contradiction|]. cbn [flat_map attr_chunks app concat fst snd] in HI.
    destruct HI as [HI|HI]; [lia|]. apply in_app_or in HI. destruct HI as [HI|HI]; [now apply name_no_cr in HI|].
    destruct HI as [HI|HI]; [lia|]. apply in_app_or in HI. destruct HI as [HI|HI]; [now apply quoteattr_no_cr in HI|]. now apply IH.
  - cbn [concat] in HI. rewrite app_nil_r in HI. apply drop_nul_in in HI. rewrite escape_is in HI. apply in_flat_map in HI. destruct HI as (y & Hy & HI).
    cbn in W. rewrite Forall_forall in W. destruct (W y Hy) as [_ N]. now apply esc_no_cr in HI.
  - cbn [concat app] in HI. destruct HI as [HI|[HI|HI]]; try lia. apply in_app_or in HI. destruct HI as [HI|HI]; [now apply name_no_cr in HI|cbn in HI; lia].
Qed.

Theorem document_reads_back : forall es, nested [] es -> Forall writable es ->
  xml_read (concat (xmlevents_to_textchunks es)) = Some (read_back [] es).
Proof.
  intros es HN HW. unfold xml_read. rewrite normalize_eol_id by now apply written_no_cr. now apply machine_events.
Qed.

(** ** UTF-8 *)

Definition scalar (c : Z) : Prop := 0 <= c < 0xd800 \/ 0xe000 <= c < 0x110000.

Lemma utf8_char_ok : forall c, scalar c -> exists b, utf8_char c = Ok b /\ forall r, utf8_decode (b ++ r) = option_map (cons c) (utf8_decode r).
Proof.
  intros c H. unfold scalar in H. unfold utf8_char.
  destruct (c <? 0x80) eqn:E1.
  { eexists. split; [reflexivity|]. intros r. cbn [app utf8_decode]. rewrite E1. reflexivity. }
  pose proof (Z.div_mod c 64 ltac:(lia)) as D1. pose proof (Z.mod_pos_bound c 64 ltac:(lia)) as M1.
  pose proof (Z.div_mod (c / 64) 64 ltac:(lia)) as D2. pose proof (Z.mod_pos_bound (c / 64) 64 ltac:(lia)) as M2.
  pose proof (Z.div_mod (c / 4096) 64 ltac:(lia)) as D3. pose proof (Z.mod_pos_bound (c / 4096) 64 ltac:(lia)) as M3.
  assert (Q1 : c / 64 / 64 = c / 4096) by (rewrite Z.div_div by lia; reflexivity).
  assert (Q2 : c / 4096 / 64 = c / 262144) by (rewrite Z.div_div by lia; reflexivity).
  rewrite Q1 in D2. rewrite Q2 in D3.
  set (a := c / 64) in *. set (b := c / 4096) in *. set (d := c / 262144) in *.
  set (m1 := c mod 64) in *. set (m2 := a mod 64) in *. set (m3 := b mod 64) in *.
  assert (CT : forall m, 0 <= m < 64 -> cont (128 + m) = true) by (intros m Hm; unfold cont; lia).
  destruct (c <? 0x800) eqn:E2.
  { eexists. split; [reflexivity|]. intros r. cbn [app utf8_decode].
    replace (192 + a <? 128) with false by lia. replace (192 + a <? 194) with false by lia. rewrite CT by lia. cbn [negb].
    replace (192 + a <? 224) with true by lia. do 2 f_equal. lia. }
  replace ((0xd800 <=? c) && (c <? 0xe000)) with false by lia.
  destruct (c <? 0x10000) eqn:E3.
  { eexists. split; [reflexivity|]. intros r. cbn [app utf8_decode].
    replace (224 + b <? 128) with false by lia. replace (224 + b <? 194) with false by lia. rewrite !CT by lia. cbn [negb].
    replace (224 + b <? 224) with false by lia. replace (224 + b <? 240) with true by lia.
    replace ((224 + b - 224) * 4096 + (128 + m2 - 128) * 64 + (128 + m1 - 128)) with c by lia.
    cbv zeta. replace ((c <? 2048) || (55296 <=? c) && (c <? 57344)) with false by lia. reflexivity. }
  eexists. split; [reflexivity|]. intros r. cbn [app utf8_decode].
  replace (240 + d <? 128) with false by lia. replace (240 + d <? 194) with false by lia. rewrite !CT by lia. cbn [negb].
  replace (240 + d <? 224) with false by lia. replace (240 + d <? 240) with false by lia.
  replace ((240 + d - 240) * 262144 + (128 + m3 - 128) * 4096 + (128 + m2 - 128) * 64 + (128 + m1 - 128)) with c by lia.
  cbv zeta. replace ((c <? 65536) || (1114112 <=? c)) with false by lia. reflexivity.
Qed.

Theorem utf8_roundtrip : forall s, Forall scalar s -> exists b, utf8_encode s = Ok b /\ utf8_decode b = Some s.
Proof.
  induction 1 as [|c s Hc Hs (bs & E1 & E2)]; [exists []; split; reflexivity|].
  destruct (utf8_char_ok c Hc) as (b & E3 & E4). exists (b ++ bs). cbn [utf8_encode bind]. rewrite E3. cbn [bind]. rewrite E1. split; [reflexivity|].
  rewrite E4, E2. reflexivity.
Qed.

Lemma utf8_encode_app : forall a b, utf8_encode (a ++ b) =
  match utf8_encode a with Raise e => Raise e | Ok x => match utf8_encode b with Raise e => Raise e | Ok y => Ok (x ++ y) end end.
Proof.
  induction a as [|c a IH]; intros b; cbn [app utf8_encode bind].
  - destruct (utf8_encode b); reflexivity.
  - destruct (utf8_char c) as [x|e]; [|reflexivity]. cbn [bind]. rewrite IH. destruct (utf8_encode a) as [y|e]; [|reflexivity]. cbn [bind].
    destruct (utf8_encode b) as [z|e]; [|reflexivity]. cbn [bind]. now rewrite app_assoc.
Qed.

Lemma encode_chunks_ok : forall chunks b, utf8_encode (concat chunks) = Ok b ->
  exists l, encode_chunks chunks = (l, Finished) /\ concat l = b.
Proof.
  induction chunks as [|c chunks IH]; intros b H; cbn [concat] in H.
  - injection H as <-. exists []. split; reflexivity.
  - rewrite utf8_encode_app in H. cbn [encode_chunks]. destruct (utf8_encode c) as [x|e]; [|discriminate].
    destruct (utf8_encode (concat chunks)) as [y|e]; [|discriminate]. injection H as <-.
    destruct (IH y eq_refl) as (l & E1 & E2). exists (x :: l). rewrite E1. cbn [gcons concat]. rewrite E2. split; reflexivity.
Qed.

Lemma machine_chars : forall s st stack r, xml_machine st stack s = Some r -> Forall (fun c => xml_charb c = true) s.
Proof.
  induction s as [|c s IH]; intros st stack r H; [constructor|]. cbn [xml_machine] in H.
  destruct (xml_charb c) eqn:E; [|discriminate]. cbn [negb] in H. constructor; [exact E|].
  assert (OM : forall f st' stack', option_map f (xml_machine st' stack' s) = Some r -> Forall (fun c => xml_charb c = true) s).
  { intros f st' stack' HX. destruct (xml_machine st' stack' s) eqn:EM; [|discriminate]. eapply IH; eassumption. }
  destruct st; repeat match type of H with
    | (if ?b then _ else _) = _ => destruct b
    | (match ?o with Some _ => _ | None => _ end) = _ => destruct o
    | (match ?l with [] => _ | _ :: _ => _ end) = _ => destruct l
    end; try discriminate; try (eapply IH; eassumption); try (eapply OM; eassumption).
Qed.

Theorem bytes_read_back : forall decl es, nested [] es -> Forall writable es ->
  exists chunks text body, xml_bytechunks decl es = (chunks, Finished) /\
    concat chunks = (if decl then xml_declaration else []) ++ body /\
    utf8_decode body = Some text /\ xml_read text = Some (read_back [] es).
Proof.
  intros decl es HN HW. pose proof (machine_events es [] HN HW []) as HM. apply machine_chars in HM.
  assert (S : Forall scalar (concat (xmlevents_to_textchunks es))).
  { revert HM. apply Forall_impl. intros c. unfold xml_charb, scalar. lia. }
  destruct (utf8_roundtrip _ S) as (b & E1 & E2). destruct (encode_chunks_ok _ _ E1) as (l & E3 & E4).
  unfold xml_bytechunks. rewrite E3. destruct decl; cbn [gcons].
  - exists (XML_DECLARATION :: l), (concat (xmlevents_to_textchunks es)), b. cbn [concat]. rewrite E4. repeat split; auto. now apply document_reads_back.
  - exists l, (concat (xmlevents_to_textchunks es)), b. rewrite E4. repeat split; auto. now apply document_reads_back.
Qed.

(** A carriage return in character data comes back as a newline. *)
Theorem cr_lost : forall a b, ~ In 13 a -> ~ In 13 b -> (match b with 10 :: _ => False | _ => True end) ->
  normalize_eol (a ++ [13] ++ b) = a ++ [10] ++ b.
Proof.
  induction a as [|c a IH]; intros b Ha Hb Hx.
  - cbn [app normalize_eol Z.eqb Pos.eqb]. f_equal. destruct b as [|d b]; [reflexivity|].
    destruct (d =? 10) eqn:E; [apply Z.eqb_eq in E; subst; contradiction|]. now apply normalize_eol_id.
  - cbn [app normalize_eol]. cbn in Ha. replace (c =? 13) with false by lia. f_equal. apply IH; tauto.
Qed.

Lemma content_deterministic : forall out t t', content_text out t -> content_text out t' -> t = t'.
Proof.
  intros out t t' H H'. pose proof (machine_content out t H [] [] []) as E. pose proof (machine_content out t' H' [] [] []) as E'.
  rewrite E in E'. cbn in E'. destruct t, t'; cbn in E'; congruence.
Qed.

Lemma normalize_eol_in : forall c s, c <> 13 -> In c s -> In c (normalize_eol s).
Proof.
  intros c s Hc. assert (G : forall n s, (length s <= n)%nat -> In c s -> In c (normalize_eol s)); [|now apply (G (length s))].
  clear s. induction n as [|n IH]; intros [|d s] HL HI; cbn in HL; try lia; [contradiction|contradiction|]. cbn [normalize_eol].
  destruct (d =? 13) eqn:E.
  - destruct HI as [->|HI]; [lia|]. destruct s as [|x s]; [contradiction|]. destruct (x =? 10) eqn:E2.
    + destruct HI as [->|HI]; [left; lia|]. right. apply IH; [cbn in HL; lia|exact HI].
    + right. apply IH; [lia|exact HI].
  - destruct HI as [->|HI]; [now left|]. right. apply IH; [lia|exact HI].
Qed.

Lemma esc_keeps : forall c, c <> 38 -> c <> 60 -> c <> 62 -> esc c = [c].
Proof. intros c H1 H2 H3. esc_cases c; try reflexivity; lia. Qed.

Theorem illegal_unreadable : forall es t c, In (XText t) es -> In c t -> c <> 0 -> ~ xml_char c ->
  xml_read (concat (xmlevents_to_textchunks es)) = None.
Proof.
  intros es t c HE HC H0 HX. unfold xml_read. destruct (xml_machine _ _ _) eqn:E; [|reflexivity]. exfalso. apply machine_chars in E.
  rewrite Forall_forall in E. assert (N : c <> 38 /\ c <> 60 /\ c <> 62 /\ c <> 13) by (repeat split; intros ->; apply HX; unfold xml_char; lia).
  assert (I : In c (normalize_eol (concat (xmlevents_to_textchunks es)))).
  { apply normalize_eol_in; [tauto|]. apply in_concat. exists (drop_nul (escape t)). split.
    - unfold xmlevents_to_textchunks. apply in_flat_map. exists (XText t). split; [exact HE|now left].
    - unfold drop_nul, replace_char. apply in_flat_map. exists c. replace (c =? 0) with false by lia. split; [|now left].
      rewrite escape_is. apply in_flat_map. exists c. rewrite esc_keeps by tauto. split; [exact HC|now left]. }
  apply E in I. apply xml_charb_ok in I. contradiction.
Qed.

Lemma attr_deterministic : forall q out v v', q = 34 \/ q = 39 -> attr_value q out v -> attr_value q out v' -> v = v'.
Proof.
  intros q out v v' Hq H H'.
  pose proof (machine_value q out v Hq H [97] [] [97] [] [] [62; 60; 47; 97; 62]) as E.
  pose proof (machine_value q out v' Hq H' [97] [] [97] [] [] [62; 60; 47; 97; 62]) as E'.
  rewrite E in E'. cbn in E'. congruence.
Qed.

(** No markup characters survive escaping. *)
Theorem no_markup : forall out t, content_text out t -> ~ In 60 out /\ ~ In 62 out.
Proof.
  assert (R : forall s c, reference s = Some c -> ~ In 60 s /\ ~ In 62 s).
  { intros s c. assert (DG : forall r a x, decimal a r = Some x -> ~ In 60 r /\ ~ In 62 r).
    { induction r as [|d r IH]; intros a x H; [split; intros []|]. cbn in H. destruct ((48 <=? d) && (d <=? 57)) eqn:E; [|discriminate].
      apply IH in H. cbn. split; intros [?|?]; try lia; tauto. }
    unfold reference. intros H.
    repeat match type of H with (match ?x with _ => _ end) = _ => destruct x eqn:?; try discriminate end; subst;
    try (split; intros HI; cbn in HI; lia);
    match goal with HD : decimal 0 ?r = Some _ |- _ => apply DG in HD; split; intros [?|?]; try lia; tauto end. }
  induction 1 as [|c out t Hc H13 H60 H38 H62 H [IH1 IH2]|s c out t HN HC HR H [IH1 IH2]]; [split; intros []| |].
  - cbn. split; intros [?|?]; try lia; tauto.
  - apply R in HR. cbn [app]. split; (intros [?|HI]; [lia|apply in_app_or in HI; destruct HI as [?|[?|?]]; [tauto|lia|tauto]]).
Qed.
