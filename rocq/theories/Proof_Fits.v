(** What values reading gives: each fits its description. *)
From Coq Require Import ZArith String List Bool Lia.
From Verif Require Import Base BaseFacts Model_Text Model_Dataio Model_Record Model_ParaText Model_Bintype Model_Layouts Model_Models
  Spec_Dataio Spec_Bintype Spec_Models Spec_Layouts Proof_Dataio Proof_Bintype Proof_Bintype2 Proof_Models Proof_Layouts.
Import ListNotations.
Open Scope string_scope.
Open Scope list_scope.
Open Scope Z_scope.

Section Fits.
  Variable version : list Z.
  Variable c : node.

  Definition cond_is (t : test) (env : list (string * value)) (b : bool) : Prop :=
    match as_cond t with None => b = true | Some f => f c (VDict env) = Ok b end.
  Definition added_to (name : string) (x : option value) (env : list (string * value)) : list (string * value) :=
    match x with Some v => dict_set name v env | None => env end.

  Inductive fits : kind -> list (string * value) -> option value -> Prop :=
  | ft_unsigned : forall w env n, 0 <= n < 256 ^ Z.of_nat w -> fits (Unsigned w) env (Some (VInt n))
  | ft_signed : forall w env n, fits (Signed w) env (Some (VInt n))
  | ft_real : forall env n, fits Real env (Some (VDouble n))
  | ft_id : forall env t, fits Id4 env (Some (VText t))
  | ft_prefixed : forall env t, fits Prefixed env (Some (VText t))
  | ft_hex : forall n env b, fits (Hexadecimal n) env (Some (VBytes b))
  | ft_paragraph : forall env b l, all_bytes b -> parse_chunks b = (l, Finished) -> fits Paragraph env (Some (VChunks l))
  | ft_bits : forall w gs env n, 0 <= n < 256 ^ Z.of_nat w -> fits (Bits w gs) env (Some (VFlags (map group_field gs) n))
  | ft_fields : forall fs env d, fit_fields fs [] d -> fits (Fields fs) env (Some (VDict d))
  | ft_repeat : forall n k env l, List.length l = n -> Forall (fun v => fits k [] (Some v)) l -> fits (Repeat n k) env (Some (VTuple l))
  | ft_counted : forall w k env l, Forall (fun v => fits k [] (Some v)) l -> fits (Counted w k) env (Some (VList l))
  | ft_times : forall n k env l i, as_count n c (VDict env) = Ok i -> Forall (fun v => fits k [] (Some v)) l -> fits (Times n k) env (Some (VList l))
  | ft_choice : forall m g l env n k x, ref_member_flag m g c (VDict env) = Ok n -> find (fun a => fst a =? n) l = Some (n, k) ->
      fits k env x -> fits (Choice m g l) env x
  | ft_choice_none : forall m g l env n, ref_member_flag m g c (VDict env) = Ok n -> find (fun a => fst a =? n) l = None ->
      fits (Choice m g l) env None
  with fit_fields : list field_spec -> list (string * value) -> list (string * value) -> Prop :=
  | ff_end : forall env, fit_fields [] env env
  | ff_later : forall name v t k r env d, visible (Some version) (as_version v) = false -> fit_fields r env d ->
      fit_fields ((name, v, t, k) :: r) env d
  | ff_absent : forall name v t k r env d, visible (Some version) (as_version v) = true -> cond_is t env false -> fit_fields r env d ->
      fit_fields ((name, v, t, k) :: r) env d
  | ff_there : forall name v t k r env x d, visible (Some version) (as_version v) = true -> cond_is t env true -> fits k env x ->
      fit_fields r (added_to name x env) d -> fit_fields ((name, v, t, k) :: r) env d.

  (** ** Reading gives such values *)

  Lemma andthen_ok : forall {X Y} (r : sres node X) (k : X -> stream -> sres node Y) tr s y, andthen node r k = (tr, s, Some (Ok y)) ->
    exists tr1 s1 x tr2, r = (tr1, s1, Some (Ok x)) /\ k x s1 = (tr2, s, Some (Ok y)).
  Proof.
    intros X Y [[tr1 s1] [[x|e]|]] k tr s y H; cbn [andthen] in H; try discriminate.
    destruct (k x s1) as [[tr2 s2] o] eqn:E. inversion H; subst. eauto 10.
  Qed.

  (** What is left stays a list of bytes. *)
  Lemma agrees_bytes : forall {X Y} (f : X -> Y) r o tr s x, agrees f r o -> r = (tr, s, Some (Ok x)) -> all_bytes (s_rest s).
  Proof.
    intros X Y f r o tr s x A E. subst r. destruct o as [[y rest]|]; cbn in A.
    - destruct A as (tr' & s' & x' & E & _ & <- & B). inversion E; subst. exact B.
    - destruct A as (? & ? & ? & E). discriminate.
  Qed.

  Lemma number_fits : forall f name s tr s' v, (0 < fmt_width f)%nat -> all_bytes (s_rest s) ->
    rd_leaf node name (TPrim node (PFmt f)) s = (tr, s', Some (Ok v)) ->
    v = fmt_value f (decoded f (firstn (fmt_width f) (s_rest s))) /\ all_bytes (s_rest s') /\ (fmt_width f <= List.length (s_rest s))%nat.
  Proof.
    intros f name s tr s' v HW HB H. pose proof (number_leaf f name s HW HB) as A. split; [|split].
    - rewrite H in A. destruct (unsigned (fmt_width f) (s_rest s)) as [[n r]|] eqn:E.
      + pose proof (number_read f (s_rest s) (s_pos s) HW) as NR. destruct s as [b pos]. cbn [s_rest s_pos] in *.
        rewrite unsigned_is in E. destruct (Nat.leb (fmt_width f) (List.length b)); [|discriminate].
        unfold rd_leaf in H. cbn [read_leaf] in H. rewrite NR in H. inversion H; subst. reflexivity.
      + destruct A as (? & ? & ? & A). discriminate.
    - exact (agrees_bytes _ _ _ _ _ _ A H).
    - rewrite H in A. rewrite unsigned_is in A. destruct (Nat.leb_spec (fmt_width f) (List.length (s_rest s))); [assumption|].
      destruct A as (? & ? & ? & A). discriminate.
  Qed.
  Lemma firstn_range : forall w b, all_bytes b -> (w <= List.length b)%nat -> 0 <= le_decode (firstn w b) < 256 ^ Z.of_nat w.
  Proof.
    intros w b HB HL. pose proof (le_decode_range (firstn w b)) as R. unfold zlen in R. rewrite firstn_length in R.
    replace (Nat.min w (List.length b)) with w in R by lia. apply R. rewrite <- (firstn_skipn w b) in HB. apply Forall_app in HB. apply HB.
  Qed.

  (** Kinds that refer to the members read before. *)
  Definition dependent (k : kind) : bool := match k with Times _ _ | Choice _ _ _ => true | _ => false end.

  Definition reading_fits (k : kind) : Prop := kind_ok k = true -> forall pv env name s tr s' x,
    pv = Some (VDict env) \/ dependent k = false -> all_bytes (s_rest s) ->
    rd node c (Some version) pv name None (as_type k) s = (tr, s', Some (Ok x)) ->
    fits k env x /\ all_bytes (s_rest s') /\ (is_choice k = false -> x <> None).

  Lemma leaf_some : forall name t s tr s' x, andthen node (rd_leaf node name t s) (fun v s => ret node (Some v) s) = (tr, s', Some (Ok x)) ->
    exists tr1 v, rd_leaf node name t s = (tr1, s', Some (Ok v)) /\ x = Some v.
  Proof.
    intros name t s tr s' x H. apply andthen_ok in H as (tr1 & s1 & v & tr2 & E & E2). unfold ret in E2. inversion E2; subst. eauto.
  Qed.
  Lemma closing_some : forall name t v s tr s' x, closing node name t v s = (tr, s', Some (Ok x)) -> s' = s /\ x = Some v.
  Proof. intros name t v s tr s' x H. unfold closing in H. cbn in H. inversion H; subst. auto. Qed.

  Lemma repeated_fits : forall k, kind_ok k = true -> dependent k = false -> reading_fits k -> forall n acc s tr s' l,
    all_bytes (s_rest s) -> Forall (fun v => fits k [] (Some v)) acc ->
    repeated node n (fun sofar s => rd node c (Some version) (Some sofar) None None (as_type k) s) acc s = (tr, s', Some (Ok l)) ->
    Forall (fun v => fits k [] (Some v)) l /\ List.length l = (List.length acc + n)%nat /\ all_bytes (s_rest s').
  Proof.
    intros k HK HC IH n. induction n as [|n IHn]; intros acc s tr s' l HB HA H; cbn [repeated] in H.
    - unfold ret in H. inversion H; subst. repeat split; auto; lia.
    - apply andthen_ok in H as (tr1 & s1 & v & tr2 & E & E2).
      destruct (IH HK _ [] _ _ _ _ _ (or_intror HC) HB E) as (F & B & NN).
      destruct v as [v|]; [|exfalso; apply NN; [destruct k; [..|discriminate]; reflexivity|reflexivity]].
      apply IHn in E2 as (F2 & L & B2); [|exact B|apply Forall_app; split; [exact HA|constructor; [exact F|constructor]]].
      rewrite app_length in L. cbn in L. repeat split; auto; lia.
  Qed.
  Lemma array_fits : forall k name t n s tr s' l, kind_ok k = true -> dependent k = false -> reading_fits k -> all_bytes (s_rest s) ->
    array_of node c (Some version) name t (as_type k) n s = (tr, s', Some (Ok l)) ->
    Forall (fun v => fits k [] (Some v)) l /\ List.length l = Z.to_nat n /\ all_bytes (s_rest s').
  Proof.
    intros k name t n s tr s' l HK HC IH HB H. unfold array_of in H. apply andthen_ok in H as (tr1 & s1 & u & tr2 & E & E2).
    unfold say in E. inversion E; subst. apply (repeated_fits k HK HC IH) in E2; [|exact HB|constructor]. exact E2.
  Qed.

  (** Items of arrays are no choices. *)
  Fixpoint plain_items (k : kind) : bool :=
    match k with
    | Repeat _ k | Counted _ k | Times _ k => negb (dependent k) && plain_items k
    | Fields fs =>
        (fix go (fs : list field_spec) : bool :=
           match fs with [] => true | (_, _, _, k) :: r => plain_items k && go r end) fs
    | Choice _ _ l =>
        (fix go (l : list (Z * kind)) : bool := match l with [] => true | (_, k) :: r => negb (is_choice k) && plain_items k && go r end) l
    | _ => true
    end.

  Lemma members_fit : forall fs, Forall (fun f => plain_items (snd f) = true -> reading_fits (snd f)) fs ->
    plain_items (Fields fs) = true -> kind_ok (Fields fs) = true -> forall env s tr s' d, all_bytes (s_rest s) ->
    rd_members node c (Some version) (as_members fs) env s = (tr, s', Some (Ok d)) -> fit_fields fs env d /\ all_bytes (s_rest s').
  Proof.
    induction fs as [|[[[name v] t] k] fs IHf]; intros HF HI HK env s tr s' d HB H.
    - cbn [as_members] in H. rewrite rdm_nil in H. unfold ret in H. inversion H; subst. split; [constructor|exact HB].
    - inversion HF as [|? ? Hk HF']; subst. cbn [snd] in Hk. cbn [plain_items] in HI. apply andb_prop in HI as [HI1 HI2]. specialize (Hk HI1).
      apply kind_ok_fields in HK as (K1 & K2 & K3 & K4). specialize (IHf HF' HI2 K4).
      cbn [as_members] in H. rewrite rdm_cons in H. destruct (visible (Some version) (as_version v)) eqn:EV.
      + apply andthen_ok in H as (tr1 & s1 & x & tr2 & E & E2). change (match x with Some x0 => dict_set name x0 env | None => env end) with (added_to name x env) in E2.
        destruct (as_cond t) as [f|] eqn:EC.
        * assert (NC : is_choice k = false).
          { destruct (is_choice k) eqn:EI; [|reflexivity]. rewrite (K2 eq_refl) in EC. discriminate. }
          rewrite guard in E by exact NC. unfold guarded, refer in E.
          destruct (f c (VDict env)) as [b|e] eqn:EF; [|cbn in E; discriminate].
          apply andthen_ok in E as (tr3 & s3 & b' & tr4 & E & E3). unfold ret in E. inversion E; subst b' s3 tr3. clear E. destruct b.
          -- destruct (Hk K3 _ env _ _ _ _ _ (or_introl eq_refl) HB E3) as (F & B & _).
             destruct (IHf _ _ _ _ _ B E2) as (F2 & B2). split; [|exact B2].
             apply ff_there with (x := x); auto. unfold cond_is. rewrite EC. exact EF.
          -- unfold ret in E3. inversion E3; subst. destruct (IHf _ _ _ _ _ HB E2) as (F2 & B2). split; [|exact B2].
             apply ff_absent; auto. unfold cond_is. rewrite EC. exact EF.
        * destruct (Hk K3 _ env _ _ _ _ _ (or_introl eq_refl) HB E) as (F & B & _).
          destruct (IHf _ _ _ _ _ B E2) as (F2 & B2). split; [|exact B2].
          apply ff_there with (x := x); auto. unfold cond_is. rewrite EC. reflexivity.
      + destruct (IHf _ _ _ _ _ HB H) as (F2 & B2). split; [|exact B2]. apply ff_later; assumption.
  Qed.

  Lemma refer_ok : forall {X} (f : ref node X) pv s tr s' x, refer node c pv f s = (tr, s', Some (Ok x)) ->
    exists v, pv = Some v /\ f c v = Ok x /\ s' = s.
  Proof.
    intros X f pv s tr s' x H. unfold refer in H. destruct pv as [v|]; [|discriminate]. destruct (f c v) as [y|e] eqn:E; [|discriminate].
    unfold ret in H. inversion H; subst. eauto.
  Qed.

  Theorem reads_fit : forall k, plain_items k = true -> reading_fits k.
  Proof.
    apply (kind_rect' (fun k => plain_items k = true -> reading_fits k)).
    - intros w _ HK pv env name s tr s' x HE HB H. cbn [as_type] in H. rewrite rd_prim in H. cbn [guarded] in H.
      apply leaf_some in H as (tr1 & v & H & ->). apply Nat.ltb_lt in HK. apply number_fits in H as (-> & B & L); [|exact HK|exact HB].
      split; [|split; [exact B|discriminate]]. cbn [fmt_value decoded fmt_width]. constructor. apply firstn_range; assumption.
    - intros w _ HK pv env name s tr s' x HE HB H. cbn [as_type] in H. rewrite rd_prim in H. cbn [guarded] in H.
      apply leaf_some in H as (tr1 & v & H & ->). apply Nat.ltb_lt in HK. apply number_fits in H as (-> & B & L); [|exact HK|exact HB].
      split; [|split; [exact B|discriminate]]. cbn [fmt_value]. constructor.
    - intros _ HK pv env name s tr s' x HE HB H. cbn [as_type] in H. rewrite rd_prim in H. cbn [guarded] in H.
      apply leaf_some in H as (tr1 & v & H & ->). apply number_fits in H as (-> & B & L); [|cbn; lia|exact HB].
      split; [|split; [exact B|discriminate]]. cbn [fmt_value]. constructor.
    - intros _ HK pv env name s tr s' x HE HB H. cbn [as_type] in H. rewrite rd_prim in H. cbn [guarded] in H.
      apply leaf_some in H as (tr1 & v & H & ->). pose proof (agrees_bytes _ _ _ _ _ _ (id_leaf name s HB) H) as B.
      split; [|split; [exact B|discriminate]]. pose proof (id_leaf name s HB) as A. rewrite H in A.
      destruct (s_rest s) as [|b0 [|b1 [|b2 [|b3 r]]]]; cbn in A; try (destruct A as (? & ? & ? & A); discriminate).
      destruct A as (? & ? & ? & A & V & _). inversion A; subst. destruct x1; try discriminate V. constructor.
    - intros _ HK pv env name s tr s' x HE HB H. cbn [as_type] in H. rewrite rd_prim in H. cbn [guarded] in H.
      apply leaf_some in H as (tr1 & v & H & ->). pose proof (agrees_bytes _ _ _ _ _ _ (text_leaf name s HB) H) as B.
      split; [|split; [exact B|discriminate]]. pose proof (text_leaf name s HB) as A. rewrite H in A.
      destruct (prefixed (s_rest s)) as [[t r]|]; cbn in A; [|destruct A as (? & ? & ? & A); discriminate].
      destruct A as (? & ? & ? & A & V & _). inversion A; subst. destruct x1; try discriminate V. constructor.
    - intros n _ HK pv env name s tr s' x HE HB H. cbn [as_type] in H. rewrite rd_prim in H. cbn [guarded] in H. cbn [kind_ok] in HK. apply Z.ltb_lt in HK.
      apply leaf_some in H as (tr1 & v & H & ->). pose proof (agrees_bytes _ _ _ _ _ _ (hex_leaf n name s HK HB) H) as B.
      split; [|split; [exact B|discriminate]]. pose proof (hex_leaf n name s HK HB) as A. rewrite H in A.
      destruct (s_rest s) as [|b0 r]; cbn in A; [destruct A as (? & ? & ? & A); discriminate|].
      destruct A as (? & ? & ? & A & V & _). inversion A; subst. destruct x1; try discriminate V. constructor.
    - intros _ HK pv env name s tr s' x HE HB H. cbn [as_type] in H. rewrite rd_prim in H. cbn [guarded] in H.
      apply leaf_some in H as (tr1 & v & H & ->). pose proof (agrees_bytes _ _ _ _ _ _ (paragraph_leaf name s HB) H) as B.
      split; [|split; [exact B|discriminate]]. pose proof (paragraph_leaf name s HB) as A. rewrite H in A.
      destruct (parse_chunks (s_rest s)) as [l [|e|]] eqn:EP; cbn in A; try (destruct A as (? & ? & ? & A); discriminate).
      destruct A as (? & ? & ? & A & V & _). inversion A; subst. destruct x1; try discriminate V. cbn in V. inversion V; subst. exact (ft_paragraph _ _ _ HB EP).
    - intros w gs _ HK pv env name s tr s' x HE HB H. cbn [as_type] in H. rewrite rd_flags in H. cbn [guarded] in H.
      cbn [kind_ok] in HK. apply andb_prop in HK as [HW HG]. apply Nat.ltb_lt in HW.
      apply leaf_some in H as (tr1 & v & H & ->). pose proof (agrees_bytes _ _ _ _ _ _ (bits_leaf w gs name s HW HG HB) H) as B.
      split; [|split; [exact B|discriminate]]. destruct s as [b pos]. cbn [s_rest] in *.
      pose proof (number_read (FmtUInt w) b pos HW) as NR. unfold rd_leaf in H. cbn [read_leaf] in H. cbn [fmt_width] in NR.
      destruct (Nat.leb_spec w (List.length b)) as [L|L].
      + rewrite NR in H. cbn [fmt_value decoded] in H. inversion H; subst. constructor. apply firstn_range; assumption.
      + destruct NR as (e & s1 & NR). rewrite NR in H. cbn in H. discriminate.
    - intros fs IH HI HK pv env name s tr s' x HE HB H. rewrite as_type_fields, rd_struct in H. cbn [guarded] in H.
      apply andthen_ok in H as (tr1 & s1 & u & tr2 & E & H). unfold say in E. inversion E; subst.
      apply andthen_ok in H as (tr3 & s3 & d & tr4 & E3 & H). apply closing_some in H as [-> ->].
      destruct (members_fit fs IH HI HK [] s1 _ _ _ HB E3) as (F & B). split; [|split; [exact B|discriminate]].
      constructor. exact F.
    - intros n k IH HI HK pv env name s tr s' x HE HB H. cbn [as_type] in H. rewrite rd_fixed in H. cbn [guarded] in H.
      cbn [plain_items] in HI. apply andb_prop in HI as [HI1 HI2]. apply negb_true_iff in HI1. cbn [kind_ok] in HK.
      apply andthen_ok in H as (tr1 & s1 & l & tr2 & E & H). apply closing_some in H as [-> ->].
      apply array_fits in E as (F & L & B); auto. split; [|split; [exact B|discriminate]]. constructor; [lia|exact F].
    - intros w k IH HI HK pv env name s tr s' x HE HB H. cbn [as_type] in H. rewrite rd_var in H. cbn [guarded] in H.
      cbn [plain_items] in HI. apply andb_prop in HI as [HI1 HI2]. apply negb_true_iff in HI1. cbn [kind_ok] in HK. apply andb_prop in HK as [HW HK]. apply Nat.ltb_lt in HW.
      apply andthen_ok in H as (tr1 & s1 & v & tr2 & E & H). apply number_fits in E as (-> & B & _); [|exact HW|exact HB]. cbn [fmt_value] in H.
      apply andthen_ok in H as (tr3 & s3 & l & tr4 & E & H). apply closing_some in H as [-> ->].
      apply array_fits in E as (F & L & B2); auto. split; [|split; [exact B2|discriminate]]. constructor. exact F.
    - intros n k IH HI HK pv env name s tr s' x HE HB H. cbn [as_type] in H. rewrite rd_x in H. cbn [guarded] in H.
      cbn [plain_items] in HI. apply andb_prop in HI as [HI1 HI2]. apply negb_true_iff in HI1. cbn [kind_ok] in HK.
      apply andthen_ok in H as (tr1 & s1 & i & tr2 & E & H). apply refer_ok in E as (v & -> & EI & ->).
      apply andthen_ok in H as (tr3 & s3 & l & tr4 & E & H). apply closing_some in H as [-> ->].
      apply array_fits in E as (F & L & B2); auto. split; [|split; [exact B2|discriminate]].
      destruct HE as [HE|HE]; [|discriminate]. inversion HE; subst v. apply ft_times with (i := i); assumption.
    - intros m g l IH HI HK pv env name s tr s' x HE HB H. rewrite as_type_choice, rd_sel in H. cbn [guarded] in H.
      apply andthen_ok in H as (tr1 & s1 & n & tr2 & E & H). apply refer_ok in E as (v & -> & EN & ->).
      destruct HE as [HE|HE]; [|discriminate]. inversion HE; subst v. clear HE.
      assert (G : (exists k, find (fun a => fst a =? n) l = Some (n, k) /\ fits k env x \/ find (fun a => fst a =? n) l = None /\ x = None) /\ all_bytes (s_rest s')).
      { clear EN. revert HI HK H. induction IH as [|[key k] l Hk Hl IHl]; intros HI HK H.
        - cbn [as_alts] in H. rewrite rda_nil in H. unfold ret in H. inversion H; subst. split; [exists Real; right; auto|exact HB].
        - cbn [kind_ok] in HK. apply andb_prop in HK as [HK1 HK2]. cbn [plain_items] in HI. apply andb_prop in HI as [HI1 HI2]. apply andb_prop in HI1 as [HI0 HI1].
          cbn [as_alts] in H. rewrite rda_cons in H. cbn [find fst]. destruct (Z.eqb_spec key n) as [->|NE].
          + destruct (Hk HI1 HK1 _ env _ _ _ _ _ (or_introl eq_refl) HB H) as (F & B & _). split; [exists k; left; auto|exact B].
          + apply IHl; assumption. }
      destruct G as [(k & [[F1 F2]|[F1 F2]]) B]; (split; [|split; [exact B|discriminate]]).
      + eapply ft_choice; eassumption.
      + subst x. eapply ft_choice_none; eassumption.
  Qed.
End Fits.
