(** Proofs about the pages and style sheets of hwp5html. *)
From Coq Require Import ZArith String List Bool Lia.
From Verif Require Import Base Model_Text Model_XmlText Model_Plaintext Model_Html Spec_Text Spec_Html Proof_Text.
Import ListNotations.
Open Scope string_scope.
Open Scope list_scope.
Open Scope Z_scope.

(** ** Numbers *)
Definition digit (c : Z) : Prop := 48 <= c <= 57.
Lemma number_digits : forall t, Forall digit t -> t <> [] -> number t = natural 0 t.
Proof.
  intros [|c t] F N; [congruence|]. inversion F as [|? ? D _]; subst. unfold digit in D.
  assert (E : c = 48 \/ c = 49 \/ c = 50 \/ c = 51 \/ c = 52 \/ c = 53 \/ c = 54 \/ c = 55 \/ c = 56 \/ c = 57) by lia.
  repeat (destruct E as [->|E]; [reflexivity|]). subst c. reflexivity.
Qed.
Lemma natural_digits : forall l acc, Forall (fun d => 0 <= d < 10) l -> natural acc (map decdigit l) = Some (fold_left (fun a d => a * 10 + d) l acc).
Proof.
  induction l as [|d l IH]; intros acc F; [reflexivity|]. inversion F; subst. cbn [map natural fold_left]. unfold decdigit at 1 2 3.
  replace ((48 <=? 48 + d) && (48 + d <=? 57)) with true by lia. rewrite IH by assumption. do 2 f_equal. lia.
Qed.
Lemma fmt_digits : forall n, 0 <= n -> Forall digit (fmt_d n) /\ fmt_d n <> [] /\ number (fmt_d n) = Some n.
Proof.
  intros n H. unfold fmt_d. replace (n <? 0) with false by lia. destruct (digits_spec 10 n) as (V & F & N & _); [lia|lia|].
  assert (D : Forall digit (map decdigit (digits 10 n))).
  { apply Forall_map. eapply Forall_impl; [|exact F]. intros d. unfold is_digit, digit, decdigit. lia. }
  assert (E : map decdigit (digits 10 n) <> []) by (destruct (digits 10 n); [congruence|discriminate]).
  split; [exact D|]. split; [exact E|]. rewrite number_digits by assumption. rewrite natural_digits by exact F. f_equal. exact V.
Qed.
Lemma number_fmt : forall k, number (fmt_d (Z.of_nat k)) = Some (Z.of_nat k).
Proof. intros k. apply fmt_digits. lia. Qed.
Lemma fmt_inj : forall j k, fmt_d (Z.of_nat j) = fmt_d (Z.of_nat k) -> j = k.
Proof. intros j k E. apply (f_equal number) in E. rewrite !number_fmt in E. injection E. lia. Qed.
Lemma natural_chars : forall t acc n, natural acc t = Some n -> Forall digit t.
Proof.
  induction t as [|c t IH]; intros acc n H; [constructor|]. cbn in H. destruct ((48 <=? c) && (c <=? 57)) eqn:E; [|discriminate].
  constructor; [unfold digit; lia|]. eapply IH, H.
Qed.
Lemma number_positive : forall t n, number t = Some n -> 0 < n -> Forall digit t /\ t <> [].
Proof.
  intros t n H P. destruct t as [|c t]; [discriminate|]. split; [|discriminate].
  assert (C : c = 45 \/ number (c :: t) = natural 0 (c :: t)).
  { destruct (Z.eq_dec c 45); [left; assumption|right]. unfold number.
    destruct c as [|c|c]; try reflexivity. do 6 (destruct c as [c|c|]; try reflexivity; try (exfalso; lia)). }
  destruct C as [->|C].
  - exfalso. cbn [number] in H. destruct t as [|d t]; [discriminate|]. destruct (natural 0 (d :: t)) as [k|] eqn:E; [|discriminate].
    injection H as <-. assert (0 <= k); [|lia].
    assert (G : forall t acc k, 0 <= acc -> natural acc t = Some k -> 0 <= k).
    { induction t0 as [|x t0 IH]; intros acc k0 A Q; cbn in Q; [injection Q as <-; exact A|]. destruct ((48 <=? x) && (x <=? 57)) eqn:X; [|discriminate].
      eapply IH; [|exact Q]. lia. }
    eapply G; [|exact E]. lia.
  - rewrite C in H. eapply natural_chars, H.
Qed.

(** ** Nodes *)
Lemma text_eqb_spec : forall a b, text_eqb a b = true <-> a = b.
Proof. intros a b. unfold text_eqb. destruct (list_eq_dec Z.eq_dec a b); split; congruence. Qed.
Lemma text_eqb_refl : forall a, text_eqb a a = true.
Proof. intros. apply text_eqb_spec. reflexivity. Qed.
Lemma text_eqb_not : forall a b, a <> b -> text_eqb a b = false.
Proof. intros a b N. unfold text_eqb. destruct (list_eq_dec Z.eq_dec a b); congruence. Qed.

Lemma children_filter : forall s x, children_named s x = filter (named_node s) (kids_of_node x).
Proof. intros s [n a k|t]; reflexivity. Qed.
Lemma flat_map_filter : forall {A B} (f : A -> list B) g l, (forall x, In x l -> g x = false -> f x = []) -> flat_map f l = flat_map f (filter g l).
Proof.
  induction l as [|x l IH]; intros H; [reflexivity|]. cbn. rewrite IH by (intros; apply H; [right|]; assumption).
  destruct (g x) eqn:E; [reflexivity|]. rewrite (H x) by (auto; left; reflexivity). reflexivity.
Qed.
Lemma flat_map_map : forall {A B C} (f : B -> list C) (g : A -> B) l, flat_map f (map g l) = flat_map (fun x => f (g x)) l.
Proof. induction l as [|x l IH]; cbn; [reflexivity|]. rewrite IH. reflexivity. Qed.

Lemma anywhere_is : forall document m s n, mapped document m -> In s shapes -> anywhere s n document = nth_child s n (kids_of_node m).
Proof.
  intros document m s n M I. unfold anywhere.
  assert (R : nth_child s n document = []).
  { unfold nth_child. destruct n as [k|]; [|reflexivity]. destruct (1 <=? k); [|reflexivity]. rewrite (md_root _ _ M s I). rewrite skipn_nil. reflexivity. }
  rewrite R. cbn [app]. rewrite <- (flat_map_map (fun x => nth_child s n (kids_of_node x)) self).
  rewrite (flat_map_filter _ (fun x => match children_named s x with [] => false | _ => true end)).
  - fold (parents s document). rewrite (md_alone _ _ M s I). rewrite children_filter. unfold nth_child.
    destruct (filter (named_node s) (kids_of_node m)) as [|y l] eqn:E.
    + cbn. destruct n as [k|]; [|reflexivity]. destruct (1 <=? k); [|reflexivity]. rewrite skipn_nil. reflexivity.
    + cbn [flat_map]. rewrite app_nil_r. rewrite E. reflexivity.
  - intros x _ Hx. rewrite children_filter in Hx. unfold nth_child. destruct n as [k|]; [|reflexivity]. destruct (1 <=? k); [|reflexivity].
    destruct (filter (named_node s) (kids_of_node x)); [|discriminate]. rewrite skipn_nil. reflexivity.
Qed.
Lemma skipn_nth : forall {A} (l : list A) k y, nth_error l k = Some y -> firstn 1 (skipn k l) = [y].
Proof. induction l as [|x l IH]; intros [|k] y H; cbn in H; try discriminate; [injection H as ->; reflexivity|]. apply IH. exact H. Qed.
Lemma nth_child_is : forall s m k y, nth_error (children_named s m) k = Some y -> nth_child s (Some (Z.of_nat k + 1)) (kids_of_node m) = [y].
Proof.
  intros s m k y H. unfold nth_child. replace (1 <=? Z.of_nat k + 1) with true by lia. replace (Z.to_nat (Z.of_nat k + 1 - 1)) with k by lia.
  apply skipn_nth. rewrite <- children_filter. exact H.
Qed.

Lemma refers_found : forall document m s a x y, mapped document m -> In s shapes -> refers a x (children_named s m) y ->
  anywhere s (plus_one (number_of a x)) document = [y].
Proof.
  intros document m s a x y M I (k & A & N). rewrite (anywhere_is _ m) by assumption. unfold number_of. rewrite A, number_fmt. cbn [plus_one option_map].
  apply nth_child_is. exact N.
Qed.

(** ** Names and classes *)
Lemma name_char_word : forall c, name_char c = true -> blank c = false.
Proof. intros c. unfold name_char, name_start, blank. intros H. lia. Qed.
Lemma identifier_word : forall t, identifier t = true -> t <> [] /\ Forall (fun c => blank c = false) t.
Proof.
  intros t H. destruct t as [|c r]; [discriminate|]. split; [discriminate|]. unfold identifier in H.
  assert (G : name_start c && forallb name_char r = true \/ (c = 45 /\ exists d r', r = d :: r' /\ name_start d && forallb name_char r' = true)).
  { destruct (Z.eq_dec c 45) as [->|N].
    - destruct r as [|d r']; [left; exact H|]. right. split; [reflexivity|]. exists d, r'. split; [reflexivity|exact H].
    - left. destruct c as [|c|c]; try exact H. do 6 (destruct c as [c|c|]; try exact H; try (exfalso; lia)). }
  destruct G as [G|[-> (d & r' & -> & G)]]; apply andb_true_iff in G as [G1 G2].
  - constructor; [apply name_char_word; unfold name_char; rewrite G1; reflexivity|]. apply Forall_forall. intros z I.
    rewrite forallb_forall in G2. apply name_char_word, G2, I.
  - constructor; [reflexivity|]. constructor; [apply name_char_word; unfold name_char; rewrite G1; reflexivity|].
    apply Forall_forall. intros z I. rewrite forallb_forall in G2. apply name_char_word, G2, I.
Qed.
Lemma words_word : forall t acc rest, Forall (fun c => blank c = false) t -> words acc (t ++ rest) = words (rev t ++ acc) rest.
Proof.
  induction t as [|c t IH]; intros acc rest F; [reflexivity|]. inversion F as [|? ? B F']; subst. cbn [app words]. rewrite B, IH by assumption.
  cbn [rev]. rewrite <- app_assoc. reflexivity.
Qed.
Lemma words_end : forall t, t <> [] -> Forall (fun c => blank c = false) t -> words [] t = [t].
Proof.
  intros t N F. rewrite <- (app_nil_r t) at 1. rewrite words_word by exact F. rewrite app_nil_r. cbn. destruct (rev t) eqn:E.
  - apply (f_equal (@rev Z)) in E. rewrite rev_involutive in E. cbn in E. congruence.
  - rewrite <- E, rev_involutive. reflexivity.
Qed.
Lemma words_next : forall t rest, t <> [] -> Forall (fun c => blank c = false) t -> words [] (t ++ [32] ++ rest) = t :: words [] rest.
Proof.
  intros t rest N F. rewrite words_word by exact F. rewrite app_nil_r. cbn. destruct (rev t) eqn:E.
  - apply (f_equal (@rev Z)) in E. rewrite rev_involutive in E. cbn in E. congruence.
  - rewrite <- E, rev_involutive. reflexivity.
Qed.

Lemma begins_app : forall p t, begins p (p ++ t) = true.
Proof. induction p as [|a p IH]; intros t; cbn; [reflexivity|]. rewrite Z.eqb_refl. apply IH. Qed.
Lemma not_reserved : forall t, reserved t = false -> forall s u, In s ["parashape-"; "charshape-"; "borderfill-"; "lang-"; "Section-"; "Bullet-"] -> t <> zs s ++ u.
Proof.
  intros t H s u I E. subst t. unfold reserved in H. apply orb_false_iff in H as [_ H].
  assert (existsb (fun s0 => begins (zs s0) (zs s ++ u)) ["parashape-"; "charshape-"; "borderfill-"; "lang-"; "Section-"; "Bullet-"] = true); [|congruence].
  apply existsb_exists. exists s. split; [exact I|apply begins_app].
Qed.
Lemma not_reserved_name : forall t, reserved t = false -> forall s, In s ["Paper"; "Page"; "HeaderPageFooter"; "HeaderArea"; "FooterArea"; "TableControl"] -> t <> zs s.
Proof.
  intros t H s I E. subst t. unfold reserved in H. apply orb_false_iff in H as [H _].
  assert (existsb (fun s0 => text_eqb (zs s) (zs s0)) ["Paper"; "Page"; "HeaderPageFooter"; "HeaderArea"; "FooterArea"; "TableControl"] = true); [|congruence].
  apply existsb_exists. exists s. split; [exact I|apply text_eqb_refl].
Qed.
Definition prefixed (s : string) (t : list Z) : Prop := exists u, t = zs s ++ u.

(** ** Rules that match *)
Definition hits (e : element) (outer : list element) (r : rule) : bool := matches (r_selector r) e outer.
Lemma chosen_filter : forall e outer p rules best, chosen e outer p best rules = chosen e outer p best (filter (hits e outer) rules).
Proof.
  induction rules as [|r rules IH]; intros best; [reflexivity|]. cbn [chosen filter]. unfold hits at 1.
  destruct (matches (r_selector r) e outer) eqn:E.
  - cbn [chosen]. rewrite E. apply IH.
  - apply IH.
Qed.
Lemma filter_none : forall {A} (g : A -> bool) l, (forall x, In x l -> g x = false) -> filter g l = [].
Proof. induction l as [|x l IH]; intros H; [reflexivity|]. cbn. rewrite H by (left; reflexivity). apply IH. intros. apply H. right. assumption. Qed.
Lemma filter_flat_map_none : forall {A B} (g : B -> bool) (f : A -> list B) l, (forall x, In x l -> filter g (f x) = []) -> filter g (flat_map f l) = [].
Proof. induction l as [|x l IH]; intros H; [reflexivity|]. cbn. rewrite filter_app, H by (left; reflexivity). apply IH. intros. apply H. right. assumption. Qed.
Lemma filter_numbered_none : forall {B} (g : B -> bool) (f : Z -> xnode -> list B) l n, (forall j y, filter g (f j y) = []) -> filter g (numbered f n l) = [].
Proof. induction l as [|x l IH]; intros n H; [reflexivity|]. cbn [numbered]. rewrite filter_app, H. apply IH. exact H. Qed.
Lemma filter_numbered : forall {B} (g : B -> bool) (f : Z -> xnode -> list B) l n k x, nth_error l k = Some x ->
  (forall j y, (j <> k)%nat -> filter g (f (n + Z.of_nat j) y) = []) -> filter g (numbered f n l) = filter g (f (n + Z.of_nat k) x).
Proof.
  induction l as [|y l IH]; intros n [|k] x N H; cbn in N; try discriminate; cbn [numbered]; rewrite filter_app.
  - injection N as ->. assert (G : filter g (numbered f (n + 1) l) = []).
    { clear IH. assert (G : forall l i, (0 < i)%nat -> filter g (numbered f (n + Z.of_nat i) l) = []).
      { induction l0 as [|z l0 IH]; intros i I; [reflexivity|]. cbn [numbered]. rewrite filter_app, H by lia.
        replace (n + Z.of_nat i + 1) with (n + Z.of_nat (S i)) by lia. apply IH. lia. }
      apply (G l 1%nat). lia. }
    rewrite G, app_nil_r. replace (n + Z.of_nat 0) with n by lia. reflexivity.
  - pose proof (H 0%nat y ltac:(lia)) as H0. replace (n + Z.of_nat 0) with n in H0 by lia. rewrite H0. cbn [app].
    rewrite (IH (n + 1) k x N).
    + do 2 f_equal. lia.
    + intros j z J. replace (n + 1 + Z.of_nat j) with (n + Z.of_nat (S j)) by lia. apply H. lia.
Qed.
Lemma filter_one : forall {B} (g : B -> bool) (f : xnode -> list B) (name : xnode -> list Z) l k x, nth_error l k = Some x -> NoDup (map name l) ->
  (forall y, In y l -> name y <> name x -> filter g (f y) = []) -> filter g (flat_map f l) = filter g (f x).
Proof.
  intros B g f name l k x N ND H. destruct (nth_error_split l k N) as (a & b & -> & _). rewrite map_app in ND. cbn [map] in ND.
  pose proof (NoDup_remove_2 _ _ _ ND) as NI. rewrite flat_map_app. cbn [flat_map]. rewrite !filter_app.
  rewrite (filter_flat_map_none g f a), (filter_flat_map_none g f b); [rewrite app_nil_r; reflexivity| |];
    intros y I; (apply H; [apply in_or_app; cbn; tauto|]); intros E; apply NI; rewrite <- E; apply in_or_app; [right|left]; apply in_map; exact I.
Qed.

(** ** What matches a paragraph and a text *)
Lemma name_digit : forall c, digit c -> name_char c = true.
Proof. intros c. unfold digit, name_char, name_start. lia. Qed.
Lemma name_digits : forall t, Forall digit t -> forallb name_char t = true.
Proof. intros t F. apply forallb_forall. intros c I. rewrite Forall_forall in F. apply name_digit, F, I. Qed.
Lemma ident_digits : forall s t, In s ["parashape-"; "charshape-"; "borderfill-"; "Bullet-"] -> Forall digit t -> identifier (zs s ++ t) = true.
Proof. intros s t I F. apply name_digits in F. repeat (destruct I as [<-|I]; [cbn; exact F|]). contradiction. Qed.
Lemma digits_word : forall s t, In s ["parashape-"; "charshape-"; "borderfill-"; "Bullet-"] -> Forall digit t ->
  zs s ++ t <> [] /\ Forall (fun c => blank c = false) (zs s ++ t).
Proof. intros s t I F. apply identifier_word, ident_digits; assumption. Qed.

Lemma fits_class : forall c e, fits (class c) e = identifier c && existsb (text_eqb c) (snd e).
Proof. intros c e. unfold fits, class. cbn. rewrite !andb_true_r. reflexivity. Qed.
Lemma fits_tag_class : forall s c e, fits (tag_class s c) e = text_eqb (zs s) (fst e) && (identifier c && existsb (text_eqb c) (snd e)).
Proof. intros s c e. unfold fits, tag_class. cbn. rewrite !andb_true_r. reflexivity. Qed.
Lemma not_among : forall c l, (forall d, In d l -> c <> d) -> existsb (text_eqb c) l = false.
Proof.
  intros c l H. destruct (existsb (text_eqb c) l) eqn:E; [|reflexivity]. apply existsb_exists in E as (d & I & Q). apply text_eqb_spec in Q. destruct (H d I Q).
Qed.
Lemma among : forall c l, In c l -> existsb (text_eqb c) l = true.
Proof. intros c l I. apply existsb_exists. exists c. split; [exact I|apply text_eqb_refl]. Qed.

Lemma zs_prefix_neq : forall s s' u u', In s ["parashape-"; "charshape-"; "borderfill-"; "lang-"; "Section-"; "Bullet-"] ->
  In s' ["parashape-"; "charshape-"; "borderfill-"; "lang-"; "Section-"; "Bullet-"] -> s <> s' -> zs s ++ u <> zs s' ++ u'.
Proof.
  intros s s' u u' I I' N. repeat (destruct I as [<-|I]; [repeat (destruct I' as [<-|I']; [first [congruence|discriminate]|]); contradiction|]). contradiction.
Qed.
Lemma zs_prefix_name : forall s n u, In s ["parashape-"; "charshape-"; "borderfill-"; "lang-"; "Section-"; "Bullet-"] ->
  In n ["Paper"; "Page"; "HeaderPageFooter"; "HeaderArea"; "FooterArea"] -> zs s ++ u <> zs n.
Proof.
  intros s n u I I'. repeat (destruct I as [<-|I]; [repeat (destruct I' as [<-|I']; [discriminate|]); contradiction|]). contradiction.
Qed.

Ltac listed := cbn; repeat (first [left; reflexivity|right]).

Section Matching.
Variable measure : string -> xnode -> list Z.
Variable document : list xnode.
Variable m : xnode.
Hypothesis M : mapped document m.
Notation styles := (children_named "Style" m).
Notation paras := (children_named "ParaShape" m).
Notation chars := (children_named "CharShape" m).
Hypothesis NF : names_fine styles.

Notation rules := (styles_css measure document ++ page_rules measure document).

Lemma sheet : styles_css measure document = firstn 4 (styles_css measure document) ++ mapping_rules measure document m.
Proof. unfold styles_css at 1. rewrite (md_path _ _ M). cbn [flat_map]. rewrite app_nil_r. reflexivity. Qed.

(** The classes of elements that are not boxes of the page. *)
Definition plain_classes (l : list (list Z)) : Prop :=
  forall c, In c l -> ~ prefixed "borderfill-" c /\ ~ prefixed "Section-" c /\
    (forall n, In n ["Paper"; "Page"; "HeaderPageFooter"; "HeaderArea"; "FooterArea"] -> c <> zs n).

Lemma unmatched : forall (e : element) (outer : list element) c, ~ In c (snd e) -> fits (class c) e = false.
Proof. intros e outer c N. rewrite fits_class. rewrite (not_among c (snd e)); [apply andb_false_r|]. intros d I ->. exact (N I). Qed.

Lemma boxes_do_not_match : forall e outer, plain_classes (snd e) -> text_eqb (zs "body") (fst e) = false ->
  filter (hits e outer) (firstn 4 (styles_css measure document)) = [] /\ filter (hits e outer) (page_rules measure document) = [] /\
  (forall n y, filter (hits e outer) (borderfill_rules measure document n y) = []) /\
  (forall n y, filter (hits e outer) (bullet_rules measure n y) = []).
Proof.
  intros e outer P B.
  assert (NP : forall n, In n ["Paper"; "Page"; "HeaderPageFooter"; "HeaderArea"; "FooterArea"] -> fits (class (zs n)) e = false).
  { intros n I. apply (unmatched e []). intros J. apply (proj2 (proj2 (P _ J))) in I. congruence. }
  assert (NS : forall u, fits (class (zs "Section-" ++ u)) e = false).
  { intros u. apply (unmatched e []). intros J. destruct (P _ J) as (_ & Q & _). apply Q. exists u. reflexivity. }
  split; [|split; [|split]].
  - cbn [styles_css firstn app]. cbn [filter].
    assert (H1 : hits e outer (mkRule (Plain (tag "body")) [says "background-color" "#eee"; says "padding" "4px"; says "margin" "0"]) = false).
    { unfold hits, matches, r_selector. unfold fits, tag, c_tag. rewrite B. reflexivity. }
    rewrite H1.
    assert (H2 : hits e outer (mkRule (Plain (class (zs "Paper"))) [says "background-color" "#fff"; says "border" "1px solid black"; says "margin" "1em auto"]) = false).
    { unfold hits, matches, r_selector. apply NP. listed. }
    rewrite H2.
    assert (H3 : forall p d, hits e outer (mkRule (Plain (with_pseudo p (class (zs "Paper")))) d) = false).
    { intros p d. unfold hits, matches, r_selector, fits, with_pseudo, c_pseudo. apply andb_false_r. }
    rewrite !H3. reflexivity.
  - unfold page_rules. rewrite !filter_app.
    rewrite !filter_flat_map_none; [reflexivity| | |].
    + intros x _. apply filter_none. intros r [<-|[]]. unfold hits, matches, r_selector. apply NP. listed.
    + intros x _. apply filter_none. intros r [<-|[]]. unfold hits, matches, r_selector. apply NP. listed.
    + intros x _. apply filter_none. intros r [<-|[<-|[<-|[]]]]; unfold hits, matches, r_selector.
      * apply NS.
      * rewrite NP by listed. reflexivity.
      * rewrite NP by listed. reflexivity.
  - intros n y. apply filter_none. intros r [<-|[]]. unfold hits, matches, r_selector. apply (unmatched e []). intros J. destruct (P _ J) as (Q & _ & _).
    apply Q. eexists. reflexivity.
  - intros n y. apply filter_none. intros r [<-|[]]. unfold hits, matches, r_selector, fits, with_pseudo, c_pseudo. apply andb_false_r.
Qed.

(** A paragraph of the page. *)
Lemma names_of : forall i st, nth_error styles i = Some st -> identifier (style_name st) = true /\ reserved (style_name st) = false.
Proof. intros i st N. destruct NF as [_ F]. rewrite Forall_forall in F. apply F. eapply nth_error_In, N. Qed.

Definition p_classes (st : xnode) (shape bullets : list (list Z)) : list (list Z) := style_name st :: shape ++ bullets.
Definition shape_part (k : nat) (shape : list (list Z)) : Prop := shape = [] \/ shape = [zs "parashape-" ++ fmt_d (Z.of_nat k)].

Lemma p_plain : forall i st shape bullets k, nth_error styles i = Some st -> shape_part k shape -> Forall (prefixed "Bullet-") bullets ->
  plain_classes (p_classes st shape bullets).
Proof.
  intros i st shape bullets k N Sh B c I. destruct (names_of i st N) as [_ R].
  assert (G : c = style_name st \/ exists s u, In s ["parashape-"; "Bullet-"] /\ c = zs s ++ u).
  { destruct I as [<-|I]; [left; reflexivity|right]. apply in_app_or in I as [I|I].
    - destruct Sh as [->| ->]; [contradiction|]. destruct I as [<-|[]]. exists "parashape-", (fmt_d (Z.of_nat k)). split; [listed|reflexivity].
    - rewrite Forall_forall in B. destruct (B c I) as [u ->]. exists "Bullet-", u. split; [listed|reflexivity]. }
  destruct G as [->|(s & u & Is & ->)].
  - split; [|split].
    + intros [u E]. exact (not_reserved _ R "borderfill-" u ltac:(listed) E).
    + intros [u E]. exact (not_reserved _ R "Section-" u ltac:(listed) E).
    + intros n J. apply (not_reserved_name _ R n). cbn in *. tauto.
  - assert (Is' : In s ["parashape-"; "charshape-"; "borderfill-"; "lang-"; "Section-"; "Bullet-"]) by (destruct Is as [<-|[<-|[]]]; listed).
    split; [|split].
    + intros [v E]. revert E. apply zs_prefix_neq; [exact Is'|listed|]. destruct Is as [<-|[<-|[]]]; discriminate.
    + intros [v E]. revert E. apply zs_prefix_neq; [exact Is'|listed|]. destruct Is as [<-|[<-|[]]]; discriminate.
    + intros n J. apply zs_prefix_name; assumption.
Qed.

(** Which style's class it has. *)
Lemma p_style : forall i st st' shape bullets k, nth_error styles i = Some st -> In st' styles -> shape_part k shape -> Forall (prefixed "Bullet-") bullets ->
  style_name st' <> style_name st -> fits (class (style_name st')) (zs "p", p_classes st shape bullets) = false.
Proof.
  intros i st st' shape bullets k N I Sh B D. apply (unmatched _ []). intros J. cbn [snd] in J.
  assert (R : reserved (style_name st') = false) by (destruct NF as [_ F]; rewrite Forall_forall in F; apply F, I).
  destruct J as [J|J]; [congruence|]. apply in_app_or in J as [J|J].
  - destruct Sh as [->| ->]; [contradiction|]. destruct J as [J|[]]. eapply (not_reserved _ R "parashape-"); [listed|]. symmetry. exact J.
  - rewrite Forall_forall in B. destruct (B _ J) as [u E]. exact (not_reserved _ R "Bullet-" u ltac:(listed) E).
Qed.
Lemma p_own_style : forall i st shape bullets, nth_error styles i = Some st -> fits (class (style_name st)) (zs "p", p_classes st shape bullets) = true.
Proof. intros i st shape bullets N. rewrite fits_class. rewrite (proj1 (names_of i st N)). cbn [andb snd]. apply among. left. reflexivity. Qed.
(** Which paragraph shape's. *)
Lemma p_shape : forall i st shape bullets k j, nth_error styles i = Some st -> shape_part k shape -> Forall (prefixed "Bullet-") bullets ->
  fits (tag_class "p" (zs "parashape-" ++ fmt_d (Z.of_nat j))) (zs "p", p_classes st shape bullets) =
  match shape with [] => false | _ => Nat.eqb j k end.
Proof.
  intros i st shape bullets k j N Sh B. rewrite fits_tag_class. cbn [fst snd]. rewrite text_eqb_refl. cbn [andb].
  rewrite ident_digits; [|listed|apply fmt_digits; lia]. cbn [andb].
  assert (NS : zs "parashape-" ++ fmt_d (Z.of_nat j) <> style_name st).
  { intros E. eapply (not_reserved _ (proj2 (names_of i st N)) "parashape-"); [listed|]. symmetry. exact E. }
  assert (NB : forall d, In d bullets -> zs "parashape-" ++ fmt_d (Z.of_nat j) <> d).
  { intros d I. rewrite Forall_forall in B. destruct (B d I) as [u ->]. apply zs_prefix_neq; [listed|listed|discriminate]. }
  destruct Sh as [->| ->].
  - apply not_among. intros d [<-|I]; [exact NS|]. apply NB. exact I.
  - destruct (Nat.eqb j k) eqn:E.
    + apply Nat.eqb_eq in E. subst j. apply among. right. left. reflexivity.
    + apply not_among. intros d [<-|[<-|I]]; [exact NS| |apply NB, I]. intros Q. apply app_inv_head, fmt_inj in Q. apply Nat.eqb_neq in E. congruence.
Qed.

(** The rules that match it. *)
Lemma p_rules : forall i st shape bullets k ps outer, nth_error styles i = Some st -> attr_is "kind" "paragraph" st = true ->
  shape_part k shape -> nth_error paras k = Some ps -> Forall (prefixed "Bullet-") bullets ->
  filter (hits (zs "p", p_classes st shape bullets) outer) rules =
  mkRule (Plain (class (style_name st))) (flat_map (para_declarations measure) (para_shape document st)) ::
  match shape with [] => [] | _ => [mkRule (Plain (tag_class "p" (zs "parashape-" ++ fmt_d (Z.of_nat k)))) (para_declarations measure ps)] end.
Proof.
  intros i st shape bullets k ps outer Ni Kd Sh Np B. set (e := (zs "p", p_classes st shape bullets)).
  assert (Pl : plain_classes (snd e)) by (eapply p_plain; eassumption).
  destruct (boxes_do_not_match e outer Pl eq_refl) as (F1 & F2 & F3 & F4).
  assert (NSpan : forall a c d, hits e outer (mkRule (Child a (mkCompound (Some (zs "span")) c None)) d) = false) by reflexivity.
  assert (NSpan2 : forall c d, hits e outer (mkRule (Plain (mkCompound (Some (zs "span")) c None)) d) = false) by reflexivity.
  rewrite filter_app, F2, app_nil_r. rewrite sheet, filter_app, F1. cbn [app]. unfold mapping_rules. rewrite !filter_app.
  rewrite (filter_numbered_none _ _ _ _ F3), (filter_numbered_none _ _ _ _ F4).
  rewrite (filter_numbered_none (hits e outer) (span_rules measure document)).
  2: { intros j y. apply filter_none. intros r I. unfold span_rules, char_rules in I. destruct I as [<-|I]; [reflexivity|].
       apply in_map_iff in I as (l & <- & _). reflexivity. }
  rewrite !app_nil_r.
  assert (NC : forall st', filter (hits e outer) (flat_map (char_rules measure document (Child (class (dashes (value_of "name" st'))) (tag "span"))) (char_shape document st')) = []).
  { intros st'. apply filter_flat_map_none. intros x _. apply filter_none. intros r I. unfold char_rules in I. destruct I as [<-|I]; [reflexivity|].
    apply in_map_iff in I as (l & <- & _). reflexivity. }
  rewrite (filter_one (hits e outer) (style_rules measure document) style_name styles i st Ni (proj1 NF)).
  2: { intros st' I D. unfold style_rules. rewrite filter_app. rewrite NC, app_nil_r.
       destruct (attr_is "kind" "paragraph" st'); [|reflexivity]. cbn [filter].
       assert (Q : hits e outer (mkRule (Plain (class (dashes (value_of "name" st')))) (flat_map (para_declarations measure) (para_shape document st'))) = false).
       { unfold hits, matches, r_selector. eapply p_style; eassumption. }
       rewrite Q. reflexivity. }
  unfold style_rules at 1. rewrite Kd, filter_app. rewrite NC, app_nil_r. cbn [filter].
  assert (Q : hits e outer (mkRule (Plain (class (dashes (value_of "name" st)))) (flat_map (para_declarations measure) (para_shape document st))) = true).
  { unfold hits, matches, r_selector. eapply p_own_style; eassumption. }
  rewrite Q. change (hits e outer (mkRule (Child (class (dashes (value_of "name" st))) (tag "span")) (flat_map (line_declarations measure) (para_shape document st)))) with false.
  cbn [app]. f_equal.
  rewrite (filter_numbered (hits e outer) (para_rules measure) paras 1 k ps Np).
  - unfold para_rules. cbn [filter]. replace (1 + Z.of_nat k - 1) with (Z.of_nat k) by lia.
    assert (Q2 : hits e outer (mkRule (Plain (tag_class "p" (zs "parashape-" ++ fmt_d (Z.of_nat k)))) (para_declarations measure ps)) = match shape with [] => false | _ => true end).
    { unfold hits, matches, r_selector. unfold e. rewrite (p_shape i st shape bullets k k) by assumption. destruct shape; [reflexivity|apply Nat.eqb_refl]. }
    rewrite Q2. change (hits e outer (mkRule (Child (tag_class "p" (zs "parashape-" ++ fmt_d (Z.of_nat k))) (tag "span")) (line_declarations measure ps))) with false.
    destruct shape; reflexivity.
  - intros j y J. apply filter_none. intros r I. unfold para_rules in I. replace (1 + Z.of_nat j - 1) with (Z.of_nat j) in I by lia.
    destruct I as [<-|[<-|[]]]; [|reflexivity]. unfold hits, matches, r_selector, e. rewrite (p_shape i st shape bullets k j) by assumption.
    destruct shape; [reflexivity|]. apply Nat.eqb_neq. exact J.
Qed.

(** A text of the page. *)
Definition t_classes (lang : string) (shape : list (list Z)) : list (list Z) := (zs "lang-" ++ zs lang) :: shape.
Definition chars_part (k : nat) (shape : list (list Z)) : Prop := shape = [] \/ shape = [zs "charshape-" ++ fmt_d (Z.of_nat k)].

Lemma t_plain : forall lang shape k, chars_part k shape -> plain_classes (t_classes lang shape).
Proof.
  intros lang shape k Sh c I.
  assert (G : exists s u, In s ["charshape-"; "lang-"] /\ c = zs s ++ u).
  { destruct I as [<-|I]; [exists "lang-", (zs lang); split; [listed|reflexivity]|]. destruct Sh as [->| ->]; [contradiction|]. destruct I as [<-|[]].
    exists "charshape-", (fmt_d (Z.of_nat k)). split; [listed|reflexivity]. }
  destruct G as (s & u & Is & ->).
  assert (Is' : In s ["parashape-"; "charshape-"; "borderfill-"; "lang-"; "Section-"; "Bullet-"]) by (destruct Is as [<-|[<-|[]]]; listed).
  split; [|split].
  - intros [v E]. revert E. apply zs_prefix_neq; [exact Is'|listed|]. destruct Is as [<-|[<-|[]]]; discriminate.
  - intros [v E]. revert E. apply zs_prefix_neq; [exact Is'|listed|]. destruct Is as [<-|[<-|[]]]; discriminate.
  - intros n J. apply zs_prefix_name; assumption.
Qed.

Lemma t_shape : forall lang shape k j, chars_part k shape ->
  fits (tag_class "span" (zs "charshape-" ++ fmt_d (Z.of_nat j))) (zs "span", t_classes lang shape) = match shape with [] => false | _ => Nat.eqb j k end.
Proof.
  intros lang shape k j Sh. rewrite fits_tag_class. cbn [fst snd]. rewrite text_eqb_refl. cbn [andb].
  rewrite ident_digits; [|listed|apply fmt_digits; lia]. cbn [andb].
  assert (NS : zs "charshape-" ++ fmt_d (Z.of_nat j) <> zs "lang-" ++ zs lang) by (apply zs_prefix_neq; [listed|listed|discriminate]).
  destruct Sh as [->| ->].
  - apply not_among. intros d [<-|[]]. exact NS.
  - destruct (Nat.eqb j k) eqn:E.
    + apply Nat.eqb_eq in E. subst j. apply among. right. left. reflexivity.
    + apply not_among. intros d [<-|[<-|[]]]; [exact NS|]. intros Q. apply app_inv_head, fmt_inj in Q. apply Nat.eqb_neq in E. congruence.
Qed.

Lemma fits_and : forall c a e, fits (and_class c a) e = fits a e && (identifier c && existsb (text_eqb c) (snd e)).
Proof.
  intros c a e. unfold fits, and_class. cbn [c_tag c_classes c_pseudo]. rewrite forallb_app. cbn [forallb]. rewrite andb_true_r.
  destruct (match c_tag a with Some t => text_eqb t (fst e) | None => true end), (forallb (fun c0 => identifier c0 && existsb (text_eqb c0) (snd e)) (c_classes a)),
    (match c_pseudo a with Some _ => false | None => true end), (identifier c && existsb (text_eqb c) (snd e)); reflexivity.
Qed.
Lemma matches_longer : forall c s e outer, matches (longer (and_class c) s) e outer = matches s e outer && (identifier c && existsb (text_eqb c) (snd e)).
Proof.
  intros c [a|a b|a b] e outer; cbn [longer matches]; rewrite fits_and; [reflexivity| |].
  - destruct (fits b e), (identifier c && existsb (text_eqb c) (snd e)), (match outer with o :: _ => fits a o | [] => false end); reflexivity.
  - destruct (fits b e), (identifier c && existsb (text_eqb c) (snd e)), (existsb (fits a) outer); reflexivity.
Qed.

Lemma lang_in : forall lang base (l : string * option Z) shape k, In (lang, base) (languages document) -> chars_part k shape -> In l (languages document) ->
  identifier (zs "lang-" ++ zs (fst l)) && existsb (text_eqb (zs "lang-" ++ zs (fst l))) (t_classes lang shape) = String.eqb (fst l) lang.
Proof.
  intros lang base l shape k I Sh J.
  assert (D : identifier (zs "lang-" ++ zs (fst l)) = true).
  { unfold languages in J. repeat (destruct J as [<-|J]; [reflexivity|]). contradiction. }
  rewrite D. cbn [andb]. destruct (String.eqb_spec (fst l) lang) as [->|N].
  - apply among. left. reflexivity.
  - apply not_among. intros d [<-|Q].
    + intros E. apply app_inv_head in E. apply N. unfold languages in I, J.
      assert (A : In lang ["ko"; "en"; "cn"; "jp"; "other"; "symbol"; "user"]).
      { repeat (destruct I as [I|I]; [injection I as <- _; listed|]). contradiction. }
      assert (B : In (fst l) ["ko"; "en"; "cn"; "jp"; "other"; "symbol"; "user"]).
      { repeat (destruct J as [<-|J]; [listed|]). contradiction. }
      clear -A B E. revert E. generalize (fst l) B. intros x Bx. clear B.
      repeat (destruct A as [<-|A]; [repeat (destruct Bx as [<-|Bx]; [first [reflexivity|discriminate]|]); contradiction|]). contradiction.
    + destruct Sh as [->| ->]; [contradiction|]. destruct Q as [<-|[]]. apply zs_prefix_neq; [listed|listed|discriminate].
Qed.

(** The rules of a character shape, for a text. *)
Definition text_rules (s : selector) (lang : string) (base : option Z) (x : xnode) : list rule :=
  [mkRule s (char_declarations x);
   mkRule (longer (and_class (zs "lang-" ++ zs lang)) s) (lang_declarations measure document lang base x)].
Lemma char_rules_hit : forall s lang base shape k x outer, In (lang, base) (languages document) -> chars_part k shape ->
  filter (hits (zs "span", t_classes lang shape) outer) (char_rules measure document s x) =
  if matches s (zs "span", t_classes lang shape) outer then text_rules s lang base x else [].
Proof.
  intros s lang base shape k x outer I Sh. set (e := (zs "span", t_classes lang shape)). unfold char_rules.
  assert (Q : forall l, In l (languages document) -> hits e outer (mkRule (longer (and_class (zs "lang-" ++ zs (fst l))) s) (lang_declarations measure document (fst l) (snd l) x)) =
    matches s e outer && String.eqb (fst l) lang).
  { intros l J. unfold hits. cbn [r_selector]. rewrite matches_longer. unfold e. cbn [snd]. rewrite (lang_in lang base l shape k I Sh J). reflexivity. }
  cbn [filter]. change (hits e outer (mkRule s (char_declarations x))) with (matches s e outer).
  destruct (matches s e outer) eqn:E; cbn [andb] in Q.
  - unfold text_rules. f_equal.
    assert (G : forall ls, (forall l, In l ls -> In l (languages document)) -> NoDup (map fst ls) -> In (lang, base) ls ->
      filter (hits e outer) (map (fun l => mkRule (longer (and_class (zs "lang-" ++ zs (fst l))) s) (lang_declarations measure document (fst l) (snd l) x)) ls) =
      [mkRule (longer (and_class (zs "lang-" ++ zs lang)) s) (lang_declarations measure document lang base x)]).
    { induction ls as [|l ls IH]; intros Sub ND J; [contradiction|]. cbn [map filter]. rewrite Q by (apply Sub; left; reflexivity).
      cbn [map] in ND. inversion ND as [|? ? NI ND']; subst.
      destruct J as [->|J].
      - cbn [fst snd]. rewrite String.eqb_refl. f_equal. apply filter_none. intros r Ir. apply in_map_iff in Ir as (l & <- & Il).
        rewrite Q by (apply Sub; right; exact Il). apply String.eqb_neq. intros <-. apply NI. cbn [fst]. apply in_map. exact Il.
      - assert (F : String.eqb (fst l) lang = false).
        { apply String.eqb_neq. intros F. apply NI. rewrite F. change lang with (fst (lang, base)). apply in_map. exact J. }
        rewrite F. apply IH; [intros; apply Sub; right; assumption|exact ND'|exact J]. }
    apply G; [auto| |exact I]. cbn. repeat constructor; cbn; intuition discriminate.
  - apply filter_none. intros r Ir. apply in_map_iff in Ir as (l & <- & Il). rewrite Q by exact Il. reflexivity.
Qed.

(** The rules that match a text in a paragraph. *)
Lemma t_rules : forall i st shape bullets k ps cs' c cs lang base cshape outer,
  nth_error styles i = Some st -> attr_is "kind" "paragraph" st = true ->
  shape_part k shape -> nth_error paras k = Some ps -> Forall (prefixed "Bullet-") bullets ->
  char_shape document st = [cs'] -> chars_part c cshape -> nth_error chars c = Some cs -> In (lang, base) (languages document) ->
  filter (hits (zs "span", t_classes lang cshape) ((zs "p", p_classes st shape bullets) :: outer)) rules =
  mkRule (Child (class (style_name st)) (tag "span")) (flat_map (line_declarations measure) (para_shape document st)) ::
  text_rules (Child (class (style_name st)) (tag "span")) lang base cs' ++
  match shape with [] => [] | _ => [mkRule (Child (tag_class "p" (zs "parashape-" ++ fmt_d (Z.of_nat k))) (tag "span")) (line_declarations measure ps)] end ++
  match cshape with [] => [] | _ => text_rules (Plain (tag_class "span" (zs "charshape-" ++ fmt_d (Z.of_nat c)))) lang base cs end.
Proof.
  intros i st shape bullets k ps cs' c cs lang base cshape outer Ni Kd Sh Np B Cs' Cp Nc L.
  set (e := (zs "span", t_classes lang cshape)). set (o := (zs "p", p_classes st shape bullets) :: outer).
  assert (Pl : plain_classes (snd e)) by (eapply t_plain; eassumption).
  destruct (boxes_do_not_match e o Pl eq_refl) as (F1 & F2 & F3 & F4).
  rewrite filter_app, F2, app_nil_r. rewrite sheet, filter_app, F1. cbn [app]. unfold mapping_rules. rewrite !filter_app.
  rewrite (filter_numbered_none _ _ _ _ F3), (filter_numbered_none _ _ _ _ F4). rewrite !app_nil_r.
  assert (NoSpan : forall st', In st' styles -> fits (class (style_name st')) e = false).
  { intros st' I. apply (unmatched _ []). intros J. assert (R : reserved (style_name st') = false) by (destruct NF as [_ F]; rewrite Forall_forall in F; apply F, I).
    cbn [e snd] in J. destruct J as [J|J]; [eapply (not_reserved _ R "lang-"); [listed|]; symmetry; exact J|].
    destruct Cp as [->| ->]; [contradiction|]. destruct J as [J|[]]. eapply (not_reserved _ R "charshape-"); [listed|]. symmetry. exact J. }
  assert (Span : fits (tag "span") e = true) by reflexivity.
  rewrite (filter_one (hits e o) (style_rules measure document) style_name styles i st Ni (proj1 NF)).
  2: { intros st' I D. unfold style_rules. rewrite filter_app.
       assert (Q : matches (Child (class (dashes (value_of "name" st'))) (tag "span")) e o = false).
       { cbn [matches o]. change (dashes (value_of "name" st')) with (style_name st'). rewrite (p_style i st st' shape bullets k) by assumption. apply andb_false_r. }
       rewrite filter_flat_map_none.
       - rewrite app_nil_r. destruct (attr_is "kind" "paragraph" st'); [|reflexivity]. apply filter_none. intros r [<-|[<-|[]]]; unfold hits; cbn [r_selector].
         + cbn [matches]. change (dashes (value_of "name" st')) with (style_name st'). apply NoSpan. exact I.
         + exact Q.
       - intros x _. unfold e. rewrite (char_rules_hit _ lang base cshape c) by assumption. fold e. rewrite Q. reflexivity. }
  assert (Q : matches (Child (class (dashes (value_of "name" st))) (tag "span")) e o = true).
  { cbn [matches o]. change (dashes (value_of "name" st)) with (style_name st). rewrite (p_own_style i st) by assumption. rewrite Span. reflexivity. }
  unfold style_rules at 1. rewrite Kd, filter_app, Cs'. cbn [flat_map]. rewrite app_nil_r. unfold e at 2. rewrite (char_rules_hit _ lang base cshape c) by assumption.
  fold e. rewrite Q. cbn [filter].
  assert (Q1 : hits e o (mkRule (Plain (class (dashes (value_of "name" st)))) (flat_map (para_declarations measure) (para_shape document st))) = false).
  { unfold hits. cbn [r_selector matches]. change (dashes (value_of "name" st)) with (style_name st). apply NoSpan. eapply nth_error_In, Ni. }
  rewrite Q1. unfold hits at 1. cbn [r_selector]. rewrite Q. cbn [app]. unfold style_name. f_equal. f_equal. f_equal. f_equal.
  - rewrite (filter_numbered (hits e o) (para_rules measure) paras 1 k ps Np).
    + unfold para_rules. cbn [filter]. replace (1 + Z.of_nat k - 1) with (Z.of_nat k) by lia.
      change (hits e o (mkRule (Plain (tag_class "p" (zs "parashape-" ++ fmt_d (Z.of_nat k)))) (para_declarations measure ps))) with false. cbv iota.
      assert (Q2 : hits e o (mkRule (Child (tag_class "p" (zs "parashape-" ++ fmt_d (Z.of_nat k))) (tag "span")) (line_declarations measure ps)) = match shape with [] => false | _ => true end).
      { unfold hits. cbn [r_selector matches o]. rewrite Span. cbn [andb]. rewrite (p_shape i st shape bullets k k) by assumption. destruct shape; [reflexivity|apply Nat.eqb_refl]. }
      rewrite Q2. destruct shape; reflexivity.
    + intros j y J. apply filter_none. intros r I. unfold para_rules in I. replace (1 + Z.of_nat j - 1) with (Z.of_nat j) in I by lia.
      destruct I as [<-|[<-|[]]]; [reflexivity|]. unfold hits. cbn [r_selector matches o]. rewrite Span. cbn [andb]. rewrite (p_shape i st shape bullets k j) by assumption.
      destruct shape; [reflexivity|]. apply Nat.eqb_neq. exact J.
  - rewrite (filter_numbered (hits e o) (span_rules measure document) chars 1 c cs Nc).
    + unfold span_rules. replace (1 + Z.of_nat c - 1) with (Z.of_nat c) by lia. unfold e. rewrite (char_rules_hit _ lang base cshape c) by assumption. cbn [matches].
      rewrite (t_shape lang cshape c c) by assumption. rewrite Nat.eqb_refl. destruct cshape; reflexivity.
    + intros j y J. unfold span_rules. replace (1 + Z.of_nat j - 1) with (Z.of_nat j) by lia. unfold e. rewrite (char_rules_hit _ lang base cshape c) by assumption. cbn [matches].
      rewrite (t_shape lang cshape c j) by assumption. destruct cshape; [reflexivity|]. apply Nat.eqb_neq in J. rewrite J. reflexivity.
Qed.
End Matching.
