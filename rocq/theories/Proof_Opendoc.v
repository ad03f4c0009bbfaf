(** Proofs about the texts of hwp5odt: the names of styles are all different. *)
From Coq Require Import ZArith String List Bool Lia.
From Verif Require Import Base Model_Text Model_XmlText Model_Plaintext Model_Html Spec_Text Spec_Html Proof_Html Proof_Html2 Proof_Html3 Model_Opendoc Spec_Opendoc.
Import ListNotations.
Open Scope string_scope.
Open Scope list_scope.
Open Scope Z_scope.

(** ** Lists *)

Lemma nodup_flat_map : forall {A B C} (f : A -> list B) (g : A -> C) l, (forall x, In x l -> NoDup (f x)) ->
  (forall x y b, In x l -> In y l -> In b (f x) -> In b (f y) -> g x = g y) -> NoDup (map g l) -> NoDup (flat_map f l).
Proof.
  intros A B C f g l. induction l as [|x r IH]; intros N D U; [constructor|]. cbn [map] in U. apply NoDup_cons_iff in U as [U1 U2]. cbn [flat_map].
  assert (R : NoDup (flat_map f r)).
  { apply IH; [intros y I; apply N; right; exact I|intros y z b Iy Iz; apply D; right; assumption|exact U2]. }
  assert (X : forall b, In b (f x) -> ~ In b (flat_map f r)).
  { intros b Ib Ir. apply in_flat_map in Ir as (y & Iy & Ib'). apply U1. rewrite (D x y b); [apply in_map; exact Iy|left; reflexivity|right; exact Iy|exact Ib|exact Ib']. }
  specialize (N x (or_introl eq_refl)). clear - N R X. induction (f x) as [|b m IHm]; [exact R|]. cbn [app]. apply NoDup_cons_iff in N as [N1 N2]. constructor.
  - intro I. apply in_app_or in I as [I|I]; [exact (N1 I)|exact (X b (or_introl eq_refl) I)].
  - apply IHm; [exact N2|]. intros c Ic. apply X. right. exact Ic.
Qed.
Lemma nodup_app : forall {A} (l m : list A), NoDup l -> NoDup m -> (forall x, In x l -> In x m -> False) -> NoDup (l ++ m).
Proof.
  intros A l m. induction l as [|x r IH]; intros N M D; [exact M|]. apply NoDup_cons_iff in N as [N1 N2]. cbn [app]. constructor.
  - intro I. apply in_app_or in I as [I|I]; [exact (N1 I)|exact (D x (or_introl eq_refl) I)].
  - apply IH; [exact N2|exact M|]. intros y Iy. apply D. right. exact Iy.
Qed.

Lemma nodup_map : forall {A B C} (f : A -> B) (g : A -> C) l, (forall x y, In x l -> In y l -> f x = f y -> g x = g y) -> NoDup (map g l) -> NoDup (map f l).
Proof.
  intros A B C f g l D N. induction l as [|x r IH]; [constructor|]. cbn [map] in *. apply NoDup_cons_iff in N as [N1 N2]. constructor.
  - intro I. apply in_map_iff in I as (y & E & I). apply N1. apply in_map_iff. exists y. split; [apply D; [right; exact I|left; reflexivity|exact E]|exact I].
  - apply IH; [|exact N2]. intros y z Iy Iz. apply D; right; assumption.
Qed.

Inductive part_of {A : Type} : list A -> list A -> Prop :=
| part_nil : forall l, part_of [] l
| part_take : forall x l m, part_of l m -> part_of (x :: l) (x :: m)
| part_skip : forall x l m, part_of l m -> part_of l (x :: m).
Lemma part_refl : forall {A} (l : list A), part_of l l.
Proof. induction l; constructor; assumption. Qed.
Lemma part_app : forall {A} (a b c d : list A), part_of a b -> part_of c d -> part_of (a ++ c) (b ++ d).
Proof.
  intros A a b c d H K. induction H as [l|x l m H IH|x l m H IH]; cbn [app]; [|constructor; exact IH|constructor; exact IH].
  induction l as [|x l IH]; [exact K|]. constructor. exact IH.
Qed.
Lemma part_filter : forall {A} (g : A -> bool) l, part_of (filter g l) l.
Proof. intros A g l. induction l as [|x r IH]; cbn [filter]; [constructor|]. destruct (g x); constructor; exact IH. Qed.
Lemma part_filters : forall {A} (g : A -> bool) l m, part_of l m -> part_of (filter g l) (filter g m).
Proof. intros A g l m H. induction H as [l|x l m H IH|x l m H IH]; cbn [filter]; [constructor|destruct (g x); [constructor|]; exact IH|destruct (g x); [constructor|]; exact IH]. Qed.
Lemma part_map : forall {A B} (f : A -> B) l m, part_of l m -> part_of (map f l) (map f m).
Proof. intros A B f l m H. induction H; cbn [map]; constructor; assumption. Qed.
Lemma part_flat_map : forall {A B} (f f' : A -> list B) l m, (forall x, part_of (f x) (f' x)) -> part_of l m -> part_of (flat_map f l) (flat_map f' m).
Proof.
  intros A B f f' l m F H. induction H as [l|x l m H IH|x l m H IH]; cbn [flat_map]; [constructor|apply part_app; [apply F|exact IH]|].
  apply (part_app [] (f' x)); [constructor|exact IH].
Qed.
Lemma part_in : forall {A} (l m : list A) x, part_of l m -> In x l -> In x m.
Proof. intros A l m x H. induction H as [l|y l m H IH|y l m H IH]; intros I; [contradiction|destruct I as [<-|I]; [left; reflexivity|right; exact (IH I)]|right; exact (IH I)]. Qed.
Lemma part_nodup : forall {A} (l m : list A), part_of l m -> NoDup m -> NoDup l.
Proof.
  intros A l m H. induction H as [l|y l m H IH|y l m H IH]; intros N; [constructor| |].
  - apply NoDup_cons_iff in N as [N1 N2]. constructor; [intro I; apply N1; exact (part_in _ _ _ H I)|exact (IH N2)].
  - apply NoDup_cons_iff in N as [N1 N2]. exact (IH N2).
Qed.
Lemma part_trans : forall {A} (l m n : list A), part_of l m -> part_of m n -> part_of l n.
Proof.
  intros A l m n H K. revert l H. induction K as [m|x m n K IH|x m n K IH]; intros l H.
  - inversion H; subst; constructor.
  - inversion H; subst; constructor; apply IH; assumption.
  - constructor. apply IH. exact H.
Qed.
Lemma part_one : forall {A B} (f : A -> list B) x l, In x l -> part_of (f x) (flat_map f l).
Proof.
  intros A B f x l I. induction l as [|y r IH]; [contradiction|]. cbn [flat_map]. destruct I as [->|I].
  - rewrite <- (app_nil_r (f x)) at 1. apply part_app; [apply part_refl|constructor].
  - apply (part_app [] (f y)); [constructor|exact (IH I)].
Qed.

(** ** [counted] *)

Section Counting.
  Context {A : Type}.
  Implicit Type choose : xnode -> bool.
  Implicit Type f : Z -> xnode -> list A.
  Lemma in_counted : forall choose f l n b, In b (counted choose f n l) <-> exists k x, nth_error (filter choose l) k = Some x /\ In b (f (n + Z.of_nat k) x).
  Proof.
    intros choose f l. induction l as [|y r IH]; intros n b; cbn [counted filter].
    - split; [contradiction|]. intros (k & x & E & _). destruct k; discriminate.
    - destruct (choose y).
      + rewrite in_app_iff, IH. split.
        * intros [I|(k & x & E & I)].
          -- exists 0%nat, y. split; [reflexivity|]. rewrite Z.add_0_r. exact I.
          -- exists (S k), x. split; [exact E|]. replace (n + Z.of_nat (S k)) with (n + 1 + Z.of_nat k) by lia. exact I.
        * intros ([|k] & x & E & I).
          -- injection E as ->. left. rewrite Z.add_0_r in I. exact I.
          -- right. exists k, x. split; [exact E|]. replace (n + 1 + Z.of_nat k) with (n + Z.of_nat (S k)) by lia. exact I.
      + apply IH.
  Qed.
  Lemma counted_nodup : forall choose f l n, (forall k x, NoDup (f k x)) ->
    (forall k k' x x' b, n <= k -> n <= k' -> In b (f k x) -> In b (f k' x') -> k = k') -> NoDup (counted choose f n l).
  Proof.
    intros choose f l. induction l as [|y r IH]; intros n N D; cbn [counted]; [constructor|]. destruct (choose y).
    - apply nodup_app; [apply N|apply IH; [exact N|]|].
      + intros k k' x x' b K K'. apply D; lia.
      + intros b I J. apply in_counted in J as (k & x & E & J). assert (n = n + 1 + Z.of_nat k) by (apply (D _ _ y x b); [lia|lia|exact I|exact J]). lia.
    - apply IH; assumption.
  Qed.
End Counting.
Lemma map_counted : forall {A B} (g : A -> B) choose f l n, map g (counted choose f n l) = counted choose (fun k x => map g (f k x)) n l.
Proof. intros A B g choose f l. induction l as [|x r IH]; intros n; cbn [counted map]; [reflexivity|]. destruct (choose x); [rewrite map_app, IH; reflexivity|apply IH]. Qed.
Lemma counted_same : forall {A} choose (f g : Z -> xnode -> list A) l n, (forall k x, f k x = g k x) -> counted choose f n l = counted choose g n l.
Proof. intros A choose f g l. induction l as [|x r IH]; intros n E; cbn [counted]; [reflexivity|]. rewrite E, !(IH _ E). reflexivity. Qed.

(** ** Names *)

Lemma place_none : forall c l, existsb (Z.eqb c) l = false -> place c l = None.
Proof.
  intros c l. induction l as [|d r IH]; intros E; [reflexivity|]. cbn [existsb] in E. apply orb_false_iff in E as [E1 E2]. cbn [place]. rewrite E1, (IH E2). reflexivity.
Qed.
Lemma place_some : forall c l, existsb (Z.eqb c) l = true -> exists k, place c l = Some k /\ (k < List.length l)%nat.
Proof.
  intros c l. induction l as [|d r IH]; intros E; [discriminate|]. cbn [existsb] in E. cbn [place]. destruct (c =? d).
  - exists 0%nat. split; [reflexivity|cbn; lia].
  - destruct (IH E) as (k & -> & L). exists (S k). split; [reflexivity|cbn; lia].
Qed.
Lemma nth_repeat : forall {A} (a : A) n k, (k < n)%nat -> nth_error (repeat a n) k = Some a.
Proof. intros A a n. induction n as [|n IH]; intros k L; [lia|]. destruct k as [|k]; [reflexivity|]. cbn. apply IH. lia. Qed.
Lemma style_name_is : forall st, make_style_name st = local_style_name st.
Proof.
  intros st. unfold make_style_name, make_ncname, local_style_name, translate. change not_in_names with prohibited.
  induction (value_of "local-name" st) as [|c t IH]; [reflexivity|]. cbn [flat_map map]. rewrite IH. destruct (existsb (Z.eqb c) prohibited) eqn:E.
  - destruct (place_some _ _ E) as (k & -> & L). rewrite (nth_repeat 95 30 k) by (change (List.length prohibited) with 30%nat in L; exact L). reflexivity.
  - rewrite (place_none _ _ E). reflexivity.
Qed.

Lemma digits_dash : forall a b r s, Forall digit a -> Forall digit b -> a ++ 45 :: r = b ++ 45 :: s -> a = b /\ r = s.
Proof.
  induction a as [|c a IH]; intros [|d b] r s A B E.
  - injection E as ->. split; reflexivity.
  - injection E as E _. inversion B as [|? ? H _]; subst. unfold digit in H. lia.
  - injection E as E _. inversion A as [|? ? H _]; subst. unfold digit in H. lia.
  - injection E as -> E. inversion A; inversion B; subst. destruct (IH b r s) as [-> ->]; [assumption|assumption|exact E|]. split; reflexivity.
Qed.
Lemma fmt_pos_inj : forall a b, 0 <= a -> 0 <= b -> fmt_d a = fmt_d b -> a = b.
Proof.
  intros a b A B E. apply (f_equal number) in E. destruct (fmt_digits a A) as (_ & _ & Na). destruct (fmt_digits b B) as (_ & _ & Nb). rewrite Na, Nb in E. injection E as ->. reflexivity.
Qed.
Lemma three_numbers : forall a b i i' j j', 0 <= a -> 0 <= b -> 0 <= i -> 0 <= i' -> 0 <= j -> 0 <= j' ->
  fmt_d a ++ zs "-" ++ fmt_d i ++ zs "-" ++ fmt_d j = fmt_d b ++ zs "-" ++ fmt_d i' ++ zs "-" ++ fmt_d j' -> a = b /\ i = i' /\ j = j'.
Proof.
  intros a b i i' j j' A B I I' J J' E. change (zs "-") with [45] in E. cbn [app] in E.
  apply digits_dash in E as [E1 E]; [|apply fmt_digits; assumption|apply fmt_digits; assumption].
  apply digits_dash in E as [E2 E3]; [|apply fmt_digits; assumption|apply fmt_digits; assumption].
  repeat split; apply fmt_pos_inj; assumption.
Qed.

Lemma number_text_is : forall s x k, attr s x = Some (fmt_d (Z.of_nat k)) -> number_text (plus_one (number_of s x)) = fmt_d (Z.of_nat (S k)).
Proof. intros s x k A. unfold number_of. rewrite A, number_fmt. cbn [plus_one option_map number_text]. f_equal. lia. Qed.

(** ** Keys *)

Definition key (s : xnode) : option (list Z) * option (list Z) := (attr "style:family" s, attr "style:name" s).
Lemma is_attr_spec : forall s v x, is_attr s v x = true <-> attr s x = Some v.
Proof.
  intros s v x. unfold is_attr. destruct (attr s x) as [t|]; [|split; discriminate]. rewrite text_eqb_spec. split; [intros ->; reflexivity|intros [= ->]; reflexivity].
Qed.
Lemma key_alone : forall family name styles s, NoDup (map key styles) -> Forall (fun s => named_node "style:style" s = true) styles -> In s styles ->
  key s = (Some (zs family), Some name) -> styles_named family name styles = [s].
Proof.
  intros family name styles s N F I K. unfold styles_named. induction styles as [|y r IH]; [contradiction|].
  apply NoDup_cons_iff in N as [N1 N2]. inversion F as [|? ? Fy Fr]; subst. cbn [filter]. rewrite Fy. cbn [andb]. destruct I as [->|I].
  - unfold key in K. injection K as K1 K2. rewrite (proj2 (is_attr_spec _ _ _) K1), (proj2 (is_attr_spec _ _ _) K2). cbn [andb]. f_equal. apply filter_none.
    intros z Iz. destruct (is_attr "style:family" (zs family) z) eqn:E1; [|rewrite andb_false_r; reflexivity]. destruct (is_attr "style:name" name z) eqn:E2; [|rewrite andb_false_r; reflexivity].
    apply is_attr_spec in E1, E2. exfalso. apply N1. apply in_map_iff. exists z. split; [unfold key; rewrite E1, E2, K1, K2; reflexivity|exact Iz].
  - destruct (is_attr "style:family" (zs family) y) eqn:E1; [|exact (IH N2 Fr I)]. destruct (is_attr "style:name" name y) eqn:E2; [|exact (IH N2 Fr I)].
    apply is_attr_spec in E1, E2. exfalso. apply N1. apply in_map_iff. exists s. split; [rewrite K; unfold key; rewrite E1, E2; reflexivity|exact I].
Qed.

(** ** The styles of a document *)

Lemma filter_flat_map : forall {A B} (g : B -> bool) (f : A -> list B) l, filter g (flat_map f l) = flat_map (fun x => filter g (f x)) l.
Proof. intros A B g f l. induction l as [|x r IH]; [reflexivity|]. cbn [flat_map]. rewrite filter_app, IH. reflexivity. Qed.
Lemma filter_map : forall {A B} (f : A -> B) (g : B -> bool) l, filter g (map f l) = map f (filter (fun x => g (f x)) l).
Proof. intros A B f g l. induction l as [|x r IH]; [reflexivity|]. cbn [map filter]. destruct (g (f x)); cbn [map]; rewrite IH; reflexivity. Qed.
Lemma map_flat_map : forall {A B C} (g : B -> C) (f : A -> list B) l, map g (flat_map f l) = flat_map (fun x => map g (f x)) l.
Proof. intros A B C g f l. induction l as [|x r IH]; [reflexivity|]. cbn [flat_map]. rewrite map_app, IH. reflexivity. Qed.
Lemma part_below : forall up x, part_of (flat_map (below (x :: up)) (kids_of_node x)) (below up x).
Proof. intros up [n a kids|t]; cbn [kids_of_node below flat_map]; [apply part_skip, part_refl|constructor]. Qed.

Section Styles.
  Variable measure : string -> xnode -> list Z.
  Variable document : list xnode.
  Variables m d b : xnode.
  Hypothesis T : one_text document m d b.

  Lemma everywhere_nodes : forall s, map self (everywhere document s) = nodes_named_in s document.
  Proof. intros s. unfold everywhere, nodes_named_in. rewrite filter_map. reflexivity. Qed.
  Lemma in_sections_part : forall s, part_of (in_sections s d b) (everywhere document s).
  Proof.
    intros s. unfold in_sections, everywhere.
    replace (flat_map (fun x => flat_map (fun k => filter (fun p => named_node s (self p)) (below [x; b; d] k)) (kids_of_node x)) (children_named "SectionDef" b))
      with (filter (fun p => named_node s (self p)) (flat_map (fun x => flat_map (below [x; b; d]) (kids_of_node x)) (children_named "SectionDef" b)))
      by (rewrite filter_flat_map; apply flat_map_same; intros x _; apply filter_flat_map).
    apply part_filters.
    assert (Id : In d document) by (eapply proj1, filter_In; rewrite (ot_document _ _ _ _ T); left; reflexivity).
    assert (Ib : In b (kids_of_node d)) by (eapply proj1, filter_In; rewrite <- children_filter, (ot_body _ _ _ _ T); left; reflexivity).
    unfold all_nodes. apply (part_trans _ (below [] d)); [|apply part_one; exact Id].
    apply (part_trans _ (flat_map (below [d]) (kids_of_node d))); [|apply part_below].
    apply (part_trans _ (below [d] b)); [|apply part_one; exact Ib].
    apply (part_trans _ (flat_map (below [b; d]) (kids_of_node b))); [|apply part_below].
    apply part_flat_map; [intros x; apply part_below|]. rewrite children_filter. apply part_filter.
  Qed.
  Lemma nodup_paths : forall a s, numbered_by a s document -> NoDup (map (fun p => attr a (self p)) (everywhere document s)).
  Proof. intros a s [_ N]. rewrite <- everywhere_nodes, map_map in N. exact N. Qed.
  Lemma nodup_section_paths : forall a s, numbered_by a s document -> NoDup (map (fun p => attr a (self p)) (in_sections s d b)).
  Proof. intros a s N. eapply part_nodup; [apply part_map, in_sections_part|apply nodup_paths; exact N]. Qed.
  Lemma path_number : forall a s p, numbered_by a s document -> In p (everywhere document s) -> exists k, attr a (self p) = Some (fmt_d (Z.of_nat k)).
  Proof. intros a s p [F _] I. rewrite Forall_forall in F. apply F. rewrite <- everywhere_nodes. apply in_map. exact I. Qed.
  Lemma same_number : forall (a s : string) p q t, numbered_by a s document -> In p (everywhere document s) -> In q (everywhere document s) ->
    zs t ++ number_text (plus_one (number_of a (self p))) = zs t ++ number_text (plus_one (number_of a (self q))) -> attr a (self p) = attr a (self q).
  Proof.
    intros a s p q t N Ip Iq E. destruct (path_number a s p N Ip) as (k & K). destruct (path_number a s q N Iq) as (j & J). apply app_inv_head in E.
    rewrite (number_text_is a (self p) k K), (number_text_is a (self q) j J) in E. apply fmt_inj in E. injection E as ->. rewrite K, J. reflexivity.
  Qed.

  (** Keys of the styles of paragraphs and of texts. *)
  Definition paragraph_key (x : xnode) : option (list Z) * option (list Z) := (Some (zs "paragraph"), Some (zs "Paragraph-" ++ paragraph_number x)).
  Definition text_key (x : xnode) (i j : Z) : option (list Z) * option (list Z) := (Some (zs "text"), Some (text_style_name x i j)).
  Lemma some_inj : forall {A} (x y : A), Some x = Some y -> x = y.
  Proof. intros A x y [= ->]. reflexivity. Qed.
  Lemma text_key_inj : forall x y k k' i j i' j', attr "paragraph-id" x = Some (fmt_d (Z.of_nat k)) -> attr "paragraph-id" y = Some (fmt_d (Z.of_nat k')) ->
    0 <= i -> 0 <= j -> 0 <= i' -> 0 <= j' -> text_key x i j = text_key y i' j' -> k = k' /\ i = i' /\ j = j'.
  Proof.
    intros x y k k' i j i' j' K K' Hi Hj Hi' Hj' E. unfold text_key, text_style_name, paragraph_number in E. rewrite (number_text_is _ _ _ K), (number_text_is _ _ _ K') in E.
    apply (f_equal snd) in E. cbn [snd] in E. apply some_inj in E. apply app_inv_head in E. apply three_numbers in E as (E & <- & <-); [|lia..]. repeat split. lia.
  Qed.
  Lemma keys_of_paragraph : forall path, map key (styles_of_paragraph measure document path) =
    (if own_style (anywhere "Style" (plus_one (number_of "style-id" (self path))) document) (self path) then [paragraph_key (self path)] else []) ++
    counted (named_node "LineSeg") (fun i l => counted (named_node "Text") (fun j t =>
      if differ (first_plus_one "charshape-id" (anywhere "Style" (plus_one (number_of "style-id" (self path))) document)) (plus_one (number_of "charshape-id" t))
      then [text_key (self path) i j] else []) 1 (kids_of_node l)) 1 (kids_of_node (self path)).
  Proof.
    intros path. unfold styles_of_paragraph. rewrite map_app. f_equal.
    - unfold style_of_paragraph. destruct (own_style _ _); reflexivity.
    - rewrite map_counted. apply counted_same. intros i l. rewrite map_counted. apply counted_same. intros j t. unfold style_of_text.
      destruct (differ _ _); reflexivity.
  Qed.
  Lemma nodup_line : forall x q i s l n, attr "paragraph-id" x = Some (fmt_d (Z.of_nat q)) -> 0 <= i -> 0 <= n -> NoDup (counted (named_node "Text") (fun j t => if differ s (plus_one (number_of "charshape-id" t)) then [text_key x i j] else []) n l).
  Proof.
    intros x q i s l n Q Hi Hn. apply counted_nodup.
    - intros k t. destruct (differ _ _); repeat constructor. intros [].
    - intros k k' t t' c K K' I J. destruct (differ s (plus_one (number_of "charshape-id" t))); [|contradiction]. destruct (differ s (plus_one (number_of "charshape-id" t'))); [|contradiction].
      destruct I as [<-|[]]. destruct J as [J|[]]. symmetry. eapply text_key_inj in J as (_ & _ & J); [exact J|exact Q|exact Q|lia..].
  Qed.
  Lemma nodup_paragraph : forall path, In path (everywhere document "Paragraph") -> NoDup (map key (styles_of_paragraph measure document path)).
  Proof.
    intros path I. rewrite keys_of_paragraph. destruct (path_number _ _ _ (an_paragraphs _ (ot_numbered _ _ _ _ T)) I) as (k & K). apply nodup_app.
    - destruct (own_style _ _); repeat constructor. intros [].
    - generalize (first_plus_one "charshape-id" (anywhere "Style" (plus_one (number_of "style-id" (self path))) document)). intros s.
      assert (G : forall l n, 0 <= n -> NoDup (counted (named_node "LineSeg") (fun i l => counted (named_node "Text") (fun j t =>
        if differ s (plus_one (number_of "charshape-id" t)) then [text_key (self path) i j] else []) 1 (kids_of_node l)) n l)).
      { intros l. induction l as [|y r IH]; intros n N; cbn [counted]; [constructor|]. destruct (named_node "LineSeg" y); [|apply IH; exact N].
        apply nodup_app; [apply (nodup_line _ _ _ _ _ _ K); lia|apply IH; lia|]. intros c I1 I2. apply in_counted in I1 as (j & t & _ & I1). apply in_counted in I2 as (i & l & _ & I2).
        apply in_counted in I2 as (j' & t' & _ & I2). destruct (differ s (plus_one (number_of "charshape-id" t))); [|contradiction].
        destruct (differ s (plus_one (number_of "charshape-id" t'))); [|contradiction]. destruct I1 as [<-|[]]. destruct I2 as [E|[]].
        eapply text_key_inj in E as (_ & E & _); [|exact K|exact K|lia..]. lia. }
      apply G. lia.
    - intros c I1 I2. apply in_counted in I2 as (i & l & _ & I2). apply in_counted in I2 as (j' & t' & _ & I2).
      destruct (own_style _ _); [|contradiction]. destruct (differ _ _); [|contradiction]. destruct I1 as [<-|[]]. destruct I2 as [E|[]]. discriminate.
  Qed.
  (** Which keys they are. *)
  Lemma key_of_paragraph : forall path c, In c (map key (styles_of_paragraph measure document path)) ->
    c = paragraph_key (self path) \/ exists i j, 0 <= i /\ 0 <= j /\ c = text_key (self path) i j.
  Proof.
    intros path c I. rewrite keys_of_paragraph in I. apply in_app_or in I as [I|I].
    - left. destruct (own_style _ _); [|contradiction]. destruct I as [<-|[]]. reflexivity.
    - right. apply in_counted in I as (i & l & _ & I). apply in_counted in I as (j & t & _ & I). destruct (differ _ _); [|contradiction]. destruct I as [<-|[]].
      exists (1 + Z.of_nat i), (1 + Z.of_nat j). repeat split; lia.
  Qed.
  Lemma nodup_paragraphs : NoDup (map key (flat_map (styles_of_paragraph measure document) (everywhere document "Paragraph"))).
  Proof.
    pose proof (an_paragraphs _ (ot_numbered _ _ _ _ T)) as N. rewrite map_flat_map.
    apply (nodup_flat_map _ (fun p => attr "paragraph-id" (self p))); [exact nodup_paragraph| |apply nodup_paths; exact N].
    intros p q c Ip Iq Cp Cq. apply key_of_paragraph in Cp, Cq. destruct Cp as [->|(i & j & Hi & Hj & ->)], Cq as [E|(i' & j' & Hi' & Hj' & E)]; try discriminate.
    - apply (f_equal snd) in E. cbn [snd paragraph_key] in E. apply some_inj in E. exact (same_number _ _ _ _ "Paragraph-" N Ip Iq E).
    - destruct (path_number _ _ _ N Ip) as (k & K). destruct (path_number _ _ _ N Iq) as (k' & K'). 
      eapply text_key_inj in E as (E & _ & _); [|exact K|exact K'|lia..]. rewrite K, K', E. reflexivity.
  Qed.

  (** Tables and cells. *)
  Definition cell_key (x : xnode) (i j : Z) : option (list Z) * option (list Z) := (Some (zs "table-cell"), Some (cell_name x i j)).
  Lemma keys_of_cells : forall x t, children_named "TableBody" x = [t] -> map key (styles_of_cells measure document x) =
    counted (named_node "TableRow") (fun i r => counted (named_node "TableCell") (fun j c => [cell_key x i j]) 1 (kids_of_node r)) 1 (kids_of_node t).
  Proof.
    intros x t B. unfold styles_of_cells. rewrite B. cbn [flat_map]. rewrite app_nil_r, map_counted. apply counted_same. intros i r. rewrite map_counted. reflexivity.
  Qed.
  Lemma cell_key_inj : forall x y k k' i j i' j', attr "table-id" x = Some (fmt_d (Z.of_nat k)) -> attr "table-id" y = Some (fmt_d (Z.of_nat k')) ->
    0 <= i -> 0 <= j -> 0 <= i' -> 0 <= j' -> cell_key x i j = cell_key y i' j' -> k = k' /\ i = i' /\ j = j'.
  Proof.
    intros x y k k' i j i' j' K K' Hi Hj Hi' Hj' E. unfold cell_key, cell_name, table_name in E. rewrite (number_text_is _ _ _ K), (number_text_is _ _ _ K') in E.
    apply (f_equal snd) in E. cbn [snd] in E. apply some_inj in E. rewrite <- !app_assoc in E. apply app_inv_head in E. apply three_numbers in E as (E & <- & <-); [|lia..]. repeat split. lia.
  Qed.
  Lemma nodup_cells : forall x t k, children_named "TableBody" x = [t] -> attr "table-id" x = Some (fmt_d (Z.of_nat k)) -> NoDup (map key (styles_of_cells measure document x)).
  Proof.
    intros x t k B K. rewrite (keys_of_cells x t B).
    assert (G : forall l n, 0 <= n -> NoDup (counted (named_node "TableRow") (fun i r => counted (named_node "TableCell") (fun j c => [cell_key x i j]) 1 (kids_of_node r)) n l)).
    { intros l. induction l as [|y r IH]; intros n N; cbn [counted]; [constructor|]. destruct (named_node "TableRow" y); [|apply IH; exact N]. apply nodup_app; [|apply IH; lia|].
      - apply counted_nodup; [intros; repeat constructor; intros []|]. intros j j' c c' e J J' [<-|[]] [E|[]]. symmetry. eapply cell_key_inj in E as (_ & _ & E); [exact E|exact K|exact K|lia..].
      - intros e I1 I2. apply in_counted in I1 as (j & c & _ & [<-|[]]). apply in_counted in I2 as (i & l & _ & I2). apply in_counted in I2 as (j' & c' & _ & [E|[]]).
        eapply cell_key_inj in E as (_ & E & _); [|exact K|exact K|lia..]. lia. }
    apply G. lia.
  Qed.
  Lemma key_of_cell : forall x t c, children_named "TableBody" x = [t] -> In c (map key (styles_of_cells measure document x)) -> exists i j, 0 <= i /\ 0 <= j /\ c = cell_key x i j.
  Proof.
    intros x t c B I. rewrite (keys_of_cells x t B) in I. apply in_counted in I as (i & l & _ & I). apply in_counted in I as (j & y & _ & [<-|[]]).
    exists (1 + Z.of_nat i), (1 + Z.of_nat j). repeat split; lia.
  Qed.
  Lemma body_of : forall p, In p (everywhere document "TableControl") -> exists t, children_named "TableBody" (self p) = [t].
  Proof.
    intros p I. pose proof (ot_tables _ _ _ _ T) as F. rewrite Forall_forall in F. specialize (F (self p)). rewrite <- everywhere_nodes in F. specialize (F (in_map self _ _ I)).
    destruct (children_named "TableBody" (self p)) as [|t [|]]; try discriminate. exists t. reflexivity.
  Qed.
  Lemma nodup_tables : NoDup (map key (map (fun p => style_of_table measure (self p)) (in_sections "TableControl" d b))).
  Proof.
    pose proof (an_tables _ (ot_numbered _ _ _ _ T)) as N. rewrite map_map.
    apply (nodup_map _ (fun p => attr "table-id" (self p))); [|apply nodup_section_paths; exact N].
    intros p q Ip Iq E. apply (f_equal snd) in E. change (Some (table_name (self p)) = Some (table_name (self q))) in E. apply some_inj in E.
    exact (same_number _ _ _ _ "Table-" N (part_in _ _ _ (in_sections_part _) Ip) (part_in _ _ _ (in_sections_part _) Iq) E).
  Qed.
  Lemma nodup_all_cells : NoDup (map key (flat_map (fun p => styles_of_cells measure document (self p)) (in_sections "TableControl" d b))).
  Proof.
    pose proof (an_tables _ (ot_numbered _ _ _ _ T)) as N. rewrite map_flat_map.
    apply (nodup_flat_map _ (fun p => attr "table-id" (self p))); [| |apply nodup_section_paths; exact N].
    - intros p I. apply (part_in _ _ _ (in_sections_part _)) in I. destruct (body_of p I) as (t & B). destruct (path_number _ _ _ N I) as (k & K). exact (nodup_cells _ t k B K).
    - intros p q c Ip Iq Cp Cq. apply (part_in _ _ _ (in_sections_part _)) in Ip, Iq. destruct (body_of p Ip) as (t & B). destruct (path_number _ _ _ N Ip) as (k & K).
      destruct (body_of q Iq) as (t' & B'). destruct (path_number _ _ _ N Iq) as (k' & K'). apply (key_of_cell _ _ _ B) in Cp as (i & j & Hi & Hj & ->).
      apply (key_of_cell _ _ _ B') in Cq as (i' & j' & Hi' & Hj' & E). eapply cell_key_inj in E as (E & _ & _); [|exact K|exact K'|lia..]. rewrite K, K', E. reflexivity.
  Qed.
  Lemma nodup_shapes : NoDup (map key (map (style_of_shape measure) (in_sections "ShapeComponent" d b))).
  Proof.
    pose proof (an_shapes _ (ot_numbered _ _ _ _ T)) as N. rewrite map_map.
    apply (nodup_map _ (fun p => attr "shape-id" (self p))); [|apply nodup_section_paths; exact N].
    intros p q Ip Iq E. apply (f_equal snd) in E. change (Some (shape_name (self p)) = Some (shape_name (self q))) in E. apply some_inj in E.
    exact (same_number _ _ _ _ "Shape-" N (part_in _ _ _ (in_sections_part _) Ip) (part_in _ _ _ (in_sections_part _) Iq) E).
  Qed.

  (** The styles that all documents have, and those of the document. *)
  Definition common_key (st : xnode) : option (list Z) * option (list Z) := (Some (zs "paragraph"), Some (local_style_name st)).
  Lemma common_styles_are : common_styles measure document = fixed_styles ++ map (style_of_style measure document) (children_named "Style" m).
  Proof.
    unfold common_styles, doc_infos. rewrite (ot_document _ _ _ _ T). cbn [flat_map]. rewrite app_nil_r. pose proof (ot_info _ _ _ _ T) as L.
    pose proof (md_path _ _ (ot_mapped _ _ _ _ T)) as P. rewrite (ot_document _ _ _ _ T) in P. cbn [flat_map] in P. rewrite app_nil_r in P.
    destruct (children_named "DocInfo" d) as [|i [|]]; try discriminate. cbn [flat_map] in *. rewrite app_nil_r in *. rewrite P. do 2 f_equal. exact (app_nil_r _).
  Qed.
  Lemma key_of_style : forall st, key (style_of_style measure document st) = common_key st.
  Proof. intros st. unfold common_key. rewrite <- style_name_is. reflexivity. Qed.
  Lemma nodup_common : NoDup (map key (common_styles measure document)).
  Proof.
    destruct (ot_names _ _ _ _ T) as [N F]. rewrite common_styles_are, map_app, map_map. apply nodup_app.
    - repeat (constructor; [intro I; repeat (destruct I as [I|I]; [discriminate I|]); contradiction|]). constructor.
    - apply (nodup_map _ local_style_name); [|exact N]. intros x y _ _ E. rewrite !key_of_style in E. apply (f_equal snd) in E. apply some_inj in E. exact E.
    - intros c I J. apply in_map_iff in J as (st & <- & J). rewrite key_of_style in I. rewrite Forall_forall in F. destruct (F st J) as [F1 _]. apply F1.
      clear - I. unfold always_there. cbn [map]. do 7 (destruct I as [I|I]; [apply (f_equal snd), some_inj in I; cbn [common_key snd] in I; rewrite <- I; repeat (try (left; reflexivity); right)|]).
      destruct I as [I|[]]. discriminate I.
  Qed.

  Definition all_styles : list xnode := automatic_styles measure document d b ++ common_styles measure document.
  Lemma all_named : Forall (fun s => named_node "style:style" s = true) all_styles.
  Proof.
    apply Forall_forall. intros s I. unfold all_styles, automatic_styles in I. rewrite common_styles_are in I. rewrite !in_app_iff in I.
    destruct I as [[I|[I|[I|I]]]|[I|I]].
    - apply in_flat_map in I as (p & _ & I). unfold styles_of_paragraph in I. apply in_app_or in I as [I|I].
      + unfold style_of_paragraph in I. destruct (own_style _ _); [|contradiction]. destruct I as [<-|[]]. reflexivity.
      + apply in_counted in I as (i & l & _ & I). apply in_counted in I as (j & t & _ & I). unfold style_of_text in I. destruct (differ _ _); [|contradiction]. destruct I as [<-|[]]. reflexivity.
    - apply in_map_iff in I as (p & <- & _). reflexivity.
    - apply in_flat_map in I as (p & _ & I). unfold styles_of_cells in I. apply in_flat_map in I as (y & _ & I). apply in_counted in I as (i & l & _ & I).
      apply in_counted in I as (j & t & _ & [<-|[]]). reflexivity.
    - apply in_map_iff in I as (p & <- & _). reflexivity.
    - repeat (destruct I as [<-|I]; [reflexivity|]). contradiction.
    - apply in_map_iff in I as (p & <- & _). reflexivity.
  Qed.
  Lemma key_of_common : forall c, In c (map key (common_styles measure document)) ->
    (fst c = Some (zs "graphic") /\ snd c = Some (zs "Graphics")) \/ (fst c = Some (zs "paragraph") /\ forall x, c <> paragraph_key x).
  Proof.
    intros c I. rewrite common_styles_are, map_app, map_map in I. apply in_app_or in I as [I|I].
    - do 7 (destruct I as [<-|I]; [right; split; [reflexivity|intros x E; discriminate E]|]). destruct I as [<-|[]]. left. split; reflexivity.
    - apply in_map_iff in I as (st & <- & I). rewrite key_of_style. right. split; [reflexivity|]. intros x E. apply (f_equal snd), some_inj in E.
      destruct (ot_names _ _ _ _ T) as [_ F]. rewrite Forall_forall in F. destruct (F st I) as [_ F2]. cbn [common_key snd paragraph_key] in E. rewrite E, begins_app in F2. discriminate.
  Qed.
  Lemma family_paragraphs : forall c, In c (map key (flat_map (styles_of_paragraph measure document) (everywhere document "Paragraph"))) ->
    (exists x, c = paragraph_key x) \/ fst c = Some (zs "text").
  Proof.
    intros c I. rewrite map_flat_map in I. apply in_flat_map in I as (p & _ & I). apply key_of_paragraph in I as [->|(i & j & _ & _ & ->)]; [left; eexists; reflexivity|right; reflexivity].
  Qed.
  Lemma family_tables : forall c, In c (map key (map (fun p => style_of_table measure (self p)) (in_sections "TableControl" d b))) -> fst c = Some (zs "table").
  Proof. intros c I. rewrite map_map in I. apply in_map_iff in I as (p & <- & _). reflexivity. Qed.
  Lemma family_cells : forall c, In c (map key (flat_map (fun p => styles_of_cells measure document (self p)) (in_sections "TableControl" d b))) -> fst c = Some (zs "table-cell").
  Proof.
    intros c I. apply in_map_iff in I as (s & <- & I). apply in_flat_map in I as (p & _ & I). unfold styles_of_cells in I. apply in_flat_map in I as (y & _ & I).
    apply in_counted in I as (i & l & _ & I). apply in_counted in I as (j & t & _ & [<-|[]]). reflexivity.
  Qed.
  Lemma family_shapes : forall c, In c (map key (map (style_of_shape measure) (in_sections "ShapeComponent" d b))) -> fst c = Some (zs "graphic") /\ exists x, snd c = Some (shape_name x).
  Proof. intros c I. rewrite map_map in I. apply in_map_iff in I as (p & <- & _). split; [reflexivity|]. exists (self p). reflexivity. Qed.
  Lemma nodup_all : NoDup (map key all_styles).
  Proof.
    unfold all_styles, automatic_styles. rewrite !map_app. apply nodup_app; [apply nodup_app; [exact nodup_paragraphs|apply nodup_app; [exact nodup_tables|apply nodup_app; [exact nodup_all_cells|exact nodup_shapes|]|]|]|exact nodup_common|].
    - intros c I J. apply family_cells in I. apply family_shapes in J as [J _]. rewrite I in J. discriminate.
    - intros c I J. apply family_tables in I. apply in_app_or in J as [J|J]; [apply family_cells in J|apply family_shapes in J as [J _]]; rewrite I in J; discriminate.
    - intros c I J. apply family_paragraphs in I. destruct I as [[x ->]|I].
      + rewrite !in_app_iff in J. destruct J as [J|[J|J]]; [apply family_tables in J|apply family_cells in J|apply family_shapes in J as [J _]]; discriminate.
      + rewrite !in_app_iff in J. destruct J as [J|[J|J]]; [apply family_tables in J|apply family_cells in J|apply family_shapes in J as [J _]]; rewrite I in J; discriminate.
    - intros c I J. apply key_of_common in J. rewrite !in_app_iff in I. destruct I as [I|[I|[I|I]]].
      + apply family_paragraphs in I. destruct I as [[x ->]|I], J as [[J1 J2]|[J1 J2]]; [discriminate|exact (J2 x eq_refl)|rewrite I in J1; discriminate|rewrite I in J1; discriminate].
      + apply family_tables in I. destruct J as [[J _]|[J _]]; rewrite I in J; discriminate.
      + apply family_cells in I. destruct J as [[J _]|[J _]]; rewrite I in J; discriminate.
      + apply family_shapes in I as [I [x E]]. destruct J as [[_ J]|[J _]]; [rewrite E in J; discriminate|rewrite I in J; discriminate].
  Qed.
  (** So each style is found by its family and name. *)
  Lemma style_alone : forall family name s, In s all_styles -> key s = (Some (zs family), Some name) -> styles_named family name all_styles = [s].
  Proof. intros family name s I K. exact (key_alone family name all_styles s nodup_all all_named I K). Qed.
End Styles.
