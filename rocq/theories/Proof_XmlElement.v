(** Proof that the elements made for records are those of Spec_XmlElement. *)
From Coq Require Import ZArith String List Bool Lia Permutation.
From Verif Require Import Base BaseFacts Model_Text Model_Dataio Model_Record Model_ParaText Model_Bintype Model_Classes Model_Layouts Model_Models
  Model_XmlText Model_XmlElement Spec_Dataio Spec_Oleprops Spec_Bintype Spec_Models Spec_Layouts Spec_XmlElement
  Proof_Text Proof_Dataio Proof_OleText Proof_Bintype Proof_Models Proof_Embed Proof_Layouts Proof_Fits.
Import ListNotations.
Open Scope string_scope.
Open Scope list_scope.
Open Scope Z_scope.

(** ** Texts *)
Lemma hexadecimals_digits : forall up ds, Forall (is_digit 16) ds ->
  hexadecimals up (List.length ds) (of_digits 16 ds) = map (digit up) ds.
Proof.
  intros up ds. induction ds as [|d ds IH] using rev_ind; intros H; [reflexivity|].
  apply Forall_app in H as [H1 H2]. inversion H2 as [|? ? D _]; subst. unfold is_digit in D.
  rewrite app_length, Nat.add_1_r. cbn [hexadecimals]. rewrite of_digits_app. change (zlen [d]) with 1. rewrite Z.pow_1_r.
  change (of_digits 16 [d]) with (0 * 16 + d). rewrite map_app. cbn [map].
  replace ((of_digits 16 ds * 16 + (0 * 16 + d)) / 16) with (of_digits 16 ds).
  2:{ apply Z.div_unique with (r := d); lia. }
  replace ((of_digits 16 ds * 16 + (0 * 16 + d)) mod 16) with d.
  2:{ apply Z.mod_unique with (q := of_digits 16 ds); lia. }
  rewrite (IH H1). reflexivity.
Qed.
Lemma fmt_X_is : forall w n, (0 < w)%nat -> 0 <= n < 16 ^ Z.of_nat w -> fmt_X (Z.of_nat w) n = hexadecimals true w n.
Proof.
  intros w n HW HN. destruct (fmt_X_digits (Z.of_nat w) n) as (ds & E1 & E2 & E3 & E4); [lia|].
  assert (L : List.length ds = w).
  { pose proof (digits_length 16 n (Z.of_nat w)). unfold zlen in *. lia. }
  rewrite E1, <- E2, <- L at 1. rewrite (hexadecimals_digits true ds E3). reflexivity.
Qed.
Lemma fmt_x_byte : forall b, 0 <= b < 256 -> fmt_x 2 b = hexadecimals false 2 b.
Proof.
  assert (A : forallb (fun n => if list_eq_dec Z.eq_dec (fmt_x 2 (Z.of_nat n)) (hexadecimals false 2 (Z.of_nat n)) then true else false) (seq 0 256) = true)
    by (vm_compute; reflexivity).
  intros b H. rewrite forallb_forall in A. specialize (A (Z.to_nat b) ltac:(apply in_seq; lia)). rewrite Z2Nat.id in A by lia.
  destruct (list_eq_dec Z.eq_dec (fmt_x 2 b) (hexadecimals false 2 b)); [assumption|discriminate].
Qed.
Lemma color_str_is : forall n, color_str n = color_text n.
Proof.
  intros n. unfold color_str, color_text. change (zs "#") with [35]. cbn [app]. f_equal.
  assert (R : color_r n = red n) by (unfold color_r, red; change 0xff with (Z.ones 8); rewrite Z.land_ones by lia; reflexivity).
  assert (G : color_g n = green n).
  { unfold color_g. change 0xff00 with (Z.shiftl 0xff 8). rewrite land_byte by lia. reflexivity. }
  assert (B : color_b n = blue n).
  { unfold color_b. change 0xff0000 with (Z.shiftl 0xff 16). rewrite land_byte by lia. reflexivity. }
  rewrite R, G, B. unfold red, green, blue. rewrite !fmt_x_byte by (apply Z.mod_pos_bound; lia). reflexivity.
Qed.
Lemma shifted_byte : forall n k, 0 <= k -> Z.land (Z.shiftr n k) 0xff = n / 2 ^ k mod 256.
Proof. intros n k H. change 0xff with (Z.ones 8). rewrite Z.land_ones, Z.shiftr_div_pow2 by lia. reflexivity. Qed.
Lemma comma_join : forall l, join (zs ", ") l = comma_separated l.
Proof. induction l as [|t [|u r] IH]; [reflexivity..|]. change (t ++ zs ", " ++ join (zs ", ") (u :: r) = t ++ zs ", " ++ comma_separated (u :: r)). rewrite IH. reflexivity. Qed.

(** ** Lists *)
Definition under {A} (a b : list A) : Prop := incl a b /\ (NoDup b -> NoDup a).
Lemma nodup_app : forall {A} (a b : list A), NoDup (a ++ b) <-> NoDup a /\ NoDup b /\ (forall x, In x a -> ~ In x b).
Proof.
  intros A a b. induction a as [|x a IH]; cbn [app].
  - split; [intros H; repeat split; auto; constructor|tauto].
  - split.
    + intros H. inversion H as [|? ? H1 H2]; subst. apply IH in H2 as (I1 & I2 & I3). rewrite in_app_iff in H1. repeat split.
      * constructor; tauto.
      * exact I2.
      * intros y [->|HY]; [tauto|auto].
    + intros (H1 & H2 & H3). inversion H1; subst. constructor.
      * rewrite in_app_iff. intros [H|H]; [contradiction|]. apply (H3 x); cbn; auto.
      * apply IH. repeat split; auto. intros y HY. apply H3. right. exact HY.
Qed.
Lemma under_app : forall {A} (a b a' b' : list A), under a b -> under a' b' -> under (a ++ a') (b ++ b').
Proof.
  intros A a b a' b' [I1 N1] [I2 N2]. split.
  - intros x. rewrite !in_app_iff. intros [H|H]; [left; auto|right; auto].
  - rewrite !nodup_app. intros (H1 & H2 & H3). repeat split; auto. intros x HX HX'. exact (H3 x (I1 x HX) (I2 x HX')).
Qed.
Lemma under_nil : forall {A} (b : list A), under [] b.
Proof. intros A b. split; [intros x []|constructor]. Qed.
Lemma under_refl : forall {A} (b : list A), under b b.
Proof. intros A b. split; [intros x; auto|auto]. Qed.
Lemma under_perm : forall {A} (a a' b : list A), Permutation a a' -> under a b -> under a' b.
Proof.
  intros A a a' b P [I N]. split.
  - intros x HX. apply I. apply (Permutation_in x (Permutation_sym P) HX).
  - intros H. exact (Permutation_NoDup P (N H)).
Qed.
Lemma dict_pop_none : forall {V} k (d : list (string * V)), ~ In k (map fst d) -> dict_pop k d = (None, d).
Proof.
  intros V k d. induction d as [|[k' v] d IH]; intros H; [reflexivity|]. cbn in *. destruct (String.eqb_spec k k'); [subst; tauto|].
  rewrite IH by tauto. reflexivity.
Qed.
Lemma dict_pop_there : forall {V} k v (a b : list (string * V)), ~ In k (map fst a) -> dict_pop k (a ++ (k, v) :: b) = (Some v, a ++ b).
Proof.
  intros V k v a b. induction a as [|[k' x] a IH]; intros H; cbn [app dict_pop].
  - rewrite String.eqb_refl. reflexivity.
  - cbn in H. destruct (String.eqb_spec k k'); [subst; tauto|]. rewrite IH by tauto. reflexivity.
Qed.
Lemma dict_get_in : forall {V} k v (d : list (string * V)), NoDup (map fst d) -> In (k, v) d -> dict_get k d = Some v.
Proof.
  intros V k v d. induction d as [|[k' x] d IH]; intros HN HI; [destruct HI|]. cbn in *. inversion HN; subst.
  destruct (String.eqb_spec k k') as [->|NE].
  - destruct HI as [HI|HI]; [congruence|]. exfalso. apply H1. exact (in_map fst _ _ HI).
  - destruct HI as [HI|HI]; [congruence|]. apply IH; assumption.
Qed.
Lemma dict_get_set : forall {V} n k (v : V) d, dict_get n (dict_set k v d) = if String.eqb n k then Some v else dict_get n d.
Proof.
  intros V n k v d. induction d as [|[k' x] d IH]; cbn; [reflexivity|].
  destruct (String.eqb_spec k k') as [->|NE]; cbn.
  - destruct (String.eqb n k'); reflexivity.
  - destruct (String.eqb_spec n k') as [->|NE']; [|exact IH]. destruct (String.eqb_spec k' k); [congruence|reflexivity].
Qed.
Lemma dict_get_app : forall {V} n (a b : list (string * V)), dict_get n (a ++ b) = match dict_get n a with Some v => Some v | None => dict_get n b end.
Proof. intros V n a b. induction a as [|[k v] a IH]; [reflexivity|]. cbn. destruct (String.eqb n k); [reflexivity|exact IH]. Qed.

(** ** Members that were read, as they are when they are written *)
Section Later.
  Variable version : list Z.
  Variable c : node.
  Variable T : string.
  Definition later (key : string) (v v' : value) : Prop :=
    v' = v \/ (T = "BinData" /\ key = "bindata" /\ exists d x, v = VDict d /\ annotations x /\ v' = VDict (d ++ x)).

  Inductive fit_list : list field_spec -> list (string * value) -> list (string * value) -> Prop :=
  | fl_end : forall env, fit_list [] env []
  | fl_later : forall name v t k r env l, visible (Some version) (as_version v) = false -> fit_list r env l ->
      fit_list ((name, v, t, k) :: r) env l
  | fl_absent : forall name v t k r env l, visible (Some version) (as_version v) = true -> cond_is c t env false -> fit_list r env l ->
      fit_list ((name, v, t, k) :: r) env l
  | fl_there : forall name v t k r env l x y, visible (Some version) (as_version v) = true -> cond_is c t env true ->
      fits version c k env (Some x) -> later name x y -> fit_list r (env ++ [(name, x)]) l ->
      fit_list ((name, v, t, k) :: r) env ((name, y) :: l)
  | fl_taken : forall v t k r env l x, T = "TableBody" -> visible (Some version) (as_version v) = true -> cond_is c t env true ->
      fits version c k env (Some x) -> fit_list r (env ++ [("rowcols", x)]) l -> fit_list (("rowcols", v, t, k) :: r) env l
  | fl_none : forall name v t k r env l, visible (Some version) (as_version v) = true -> cond_is c t env true ->
      fits version c k env None -> fit_list r env l -> fit_list ((name, v, t, k) :: r) env l.

  Definition fname (f : field_spec) : string := fst (fst (fst f)).

  Lemma kept_fit : forall fs env d, fit_fields version c fs env d -> NoDup (map fst env ++ map fname fs) ->
    exists l, d = env ++ l /\ forall l', kept T l l' -> fit_list fs env l'.
  Proof.
    intros fs env d H. induction H as [env|name v t k r env d HV H IH|name v t k r env d HV HC H IH|name v t k r env x d HV HC HF H IH]; intros HN.
    - exists []. split; [symmetry; apply app_nil_r|]. intros l' K. inversion K; subst. constructor.
    - cbn [map] in HN. apply NoDup_remove_1 in HN. destruct (IH HN) as (l & -> & IHl). exists l. split; [reflexivity|]. intros l' K. apply fl_later; auto.
    - cbn [map] in HN. apply NoDup_remove_1 in HN. destruct (IH HN) as (l & -> & IHl). exists l. split; [reflexivity|]. intros l' K. apply fl_absent; auto.
    - destruct x as [x|]; cbn [added_to] in *.
      + assert (HE : dict_set name x env = env ++ [(name, x)]).
        { apply dict_set_new, dict_get_notin. cbn [map] in HN. apply NoDup_remove_2 in HN. intros HI. apply HN. apply in_or_app. left. exact HI. }
        rewrite HE in *. destruct IH as (l & -> & IHl).
        { rewrite map_app, <- app_assoc. exact HN. }
        exists ((name, x) :: l). split; [rewrite <- app_assoc; reflexivity|]. intros l' K. inversion K; subst.
        * apply fl_there with (x := x); auto. left. reflexivity.
        * apply fl_taken with (x := x); auto.
        * apply fl_there with (x := VDict d); auto. right. eauto 10.
      + cbn [map] in HN. apply NoDup_remove_1 in HN. destruct (IH HN) as (l & -> & IHl). exists l. split; [reflexivity|]. intros l' K. apply fl_none; auto.
  Qed.
  Lemma fit_names : forall fs env l, fit_list fs env l -> under (map fst l) (map fname fs).
  Proof.
    intros fs env l H. assert (S : forall (x : string) (a b : list string), under a b -> under a (x :: b)).
    { intros x a b [I N]. split; [intros y HY; right; auto|]. intros H'. inversion H'; subst. auto. }
    induction H; cbn [map]; try (apply S; assumption).
    - apply under_nil.
    - change (under ([fst (name, y)] ++ map fst l) ([fname (name, v, t, k)] ++ map fname r)). apply under_app; [apply under_refl|assumption].
  Qed.
End Later.
Lemma kept_self : forall T l, kept T l l.
Proof. intros T l. induction l; constructor; assumption. Qed.
Lemma kept_app : forall T a b l, kept T (a ++ b) l -> exists a' b', l = a' ++ b' /\ kept T a a' /\ kept T b b'.
Proof.
  intros T a. induction a as [|m a IH]; intros b l H; cbn [app] in H.
  - exists [], l. repeat split; [constructor|exact H].
  - inversion H; subst.
    + destruct (IH _ _ H3) as (a' & b' & -> & K1 & K2). exists (m :: a'), b'. repeat split; [constructor; exact K1|exact K2].
    + destruct (IH _ _ H4) as (a' & b' & -> & K1 & K2). exists a', b'. repeat split; [constructor; auto|exact K2].
    + destruct (IH _ _ H5) as (a' & b' & -> & K1 & K2). eexists (_ :: a'), b'. repeat split; [constructor; auto|exact K2].
Qed.
