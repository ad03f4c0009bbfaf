(** Proof that the layouts of the model mean what Spec_Layouts says. *)
From Coq Require Import ZArith String List Bool Lia.
From Verif Require Import Base BaseFacts Model_Text Model_Dataio Model_Record Model_ParaText Model_Bintype Model_Layouts Model_Models
  Spec_Dataio Spec_Text Spec_ParaText Spec_Bintype Spec_Models Spec_Layouts Proof_Record Proof_Dataio Proof_ParaText Proof_Bintype Proof_Bintype2 Proof_Models.
Import ListNotations.
Open Scope string_scope.
Open Scope list_scope.
Open Scope Z_scope.

(** ** Descriptions as declarations of the model *)
Fixpoint index_of (e : string) (l : list (string * list (string * Z))) (n : Z) : Z :=
  match l with [] => 0 | (e', _) :: r => if String.eqb e e' then n else index_of e r (n + 1) end.
Definition enum_id (e : string) : Z := index_of e enum_names 1.
Definition group_field (g : group) : string * flag_field :=
  let '(Group name low high e) := g in (name, (low, high, option_map enum_id e)).
Fixpoint as_cond (t : test) : option (ref node bool) :=
  match t with
  | Always => None
  | IsSet m g => Some (flag_set m g)
  | IsClear m g => Some (fun parent vs => let? n := ref_member_flag m g parent vs in Ok (Z.eqb n 0))
  | IdIs id => Some (chid_is id)
  | ParentIs t => Some (fun parent _ => match n_type parent with None => Raise KeyError | Some t' => Ok (String.eqb t' t) end)
  | Both a b => match as_cond a, as_cond b with Some a, Some b => Some (both a b) | _, _ => None end
  end.
Definition as_count (c : count) : ref node Z :=
  match c with
  | Member name => ref_member_int name
  | ParentMember name => ref_parent_member name
  | GroupLessOne m g => n_entries (ref_member_flag m g)
  end.
Definition as_version (v : Z * Z * Z * Z) : option (list Z) :=
  let '(a, b, c, d) := v in
  if (a =? 0) && (b =? 0) && (c =? 0) && (d =? 0) then None else Some [a; b; c; d].

Fixpoint as_type (k : kind) : ty node :=
  match k with
  | Unsigned w => TPrim node (PFmt (FmtUInt w))
  | Signed w => TPrim node (PFmt (FmtInt w))
  | Real => TPrim node (PFmt FmtDouble)
  | Id4 => TPrim node PChid
  | Prefixed => TPrim node PBstr
  | Hexadecimal n => TPrim node (PHex n)
  | Paragraph => TPrim node PChunks
  | Bits w gs => TFlags node (FmtUInt w) (map group_field gs)
  | Fields fs =>
      TStruct node ((fix go (fs : list field_spec) : members node :=
        match fs with
        | [] => MNil node
        | (name, v, t, k) :: r => MCons node name (as_version v) (as_cond t) (as_type k) (go r)
        end) fs)
  | Repeat n k => TFixed node (as_type k) (Z.of_nat n)
  | Counted w k => TVar node (FmtUInt w) (as_type k)
  | Times c k => TX node (as_count c) (as_type k)
  | Choice m g l =>
      TSel node (ref_member_flag m g) ((fix go (l : list (Z * kind)) : alts node :=
        match l with [] => ANil node | (n, k) :: r => ACons node n (as_type k) (go r) end) l)
  end.

Lemma same_declarations : map (fun cl => (fst cl, struct_type (snd cl))) own_members =
  map (fun cl => (fst cl, as_type (Fields (record_fields (fst cl))))) own_members.
Proof. vm_compute. reflexivity. Qed.

Lemma class_type_is : forall c, class_type c = as_type (Fields (record_fields c)).
Proof.
  intros c. unfold class_type, class_fields.
  assert (N : map fst own_members = map fst (map (fun cl => (fst cl, as_type (Fields (record_fields (fst cl))))) own_members))
    by (rewrite map_map; reflexivity).
  assert (G : forall l, map (fun cl : string * list field => (fst cl, struct_type (snd cl))) l =
                        map (fun cl => (fst cl, as_type (Fields (record_fields (fst cl))))) l ->
              match dict_get c l with Some f => struct_type f = as_type (Fields (record_fields c)) | None => ~ In c (map fst l) end).
  { induction l as [|[n f] l IH]; intros E; [intros []|]. cbn [map fst snd] in E. injection E as E1 E2. cbn [dict_get].
    destruct (String.eqb_spec c n) as [->|NE]; [exact (f_equal (TStruct node) E1)|]. specialize (IH E2). destruct (dict_get c l); [exact IH|].
    cbn. intros [->|H]; [apply NE; reflexivity|contradiction]. }
  specialize (G own_members same_declarations). destruct (dict_get c own_members) as [f|]; [exact G|].
  assert (E : record_fields c = []); [|rewrite E; reflexivity].
  unfold record_fields.
  match goal with |- match find ?f ?l with _ => _ end = _ => destruct (find f l) as [[n fs]|] eqn:F; [|reflexivity];
    assert (L : map fst l = map fst own_members) by reflexivity;
    apply find_some in F as [F1 F2] end.
  cbn [fst] in F2. apply String.eqb_eq in F2. subst n. exfalso. apply G. rewrite <- L. exact (in_map fst _ _ F1).
Qed.

(** ** Well-formed descriptions *)
Definition group_ok (g : group) : bool :=
  let '(Group _ low high e) := g in
  (0 <=? low) && (low <=? high) && match e with None => true | Some e => existsb (fun x => String.eqb (fst x) e) enum_names end.
Fixpoint test_ok (t : test) : bool :=
  match t with
  | Both a b => match a, b with Always, _ | _, Always => false | _, _ => test_ok a && test_ok b end
  | _ => true
  end.
Definition is_choice (k : kind) : bool := match k with Choice _ _ _ => true | _ => false end.
Definition is_always (t : test) : bool := match t with Always => true | _ => false end.

Fixpoint kind_ok (k : kind) : bool :=
  match k with
  | Unsigned w | Signed w => Nat.ltb 0 w
  | Hexadecimal n => 0 <? n
  | Bits w gs => Nat.ltb 0 w && forallb group_ok gs
  | Fields fs =>
      (fix go (fs : list field_spec) : bool :=
        match fs with
        | [] => true
        | (_, v, t, k) :: r => test_ok t && (negb (is_choice k) || is_always t) && kind_ok k && go r
        end) fs
  | Repeat _ k | Times _ k => kind_ok k
  | Counted w k => Nat.ltb 0 w && kind_ok k
  | Choice _ _ l =>
      (fix go (l : list (Z * kind)) : bool := match l with [] => true | (_, k) :: r => kind_ok k && go r end) l
  | _ => true
  end.
Lemma records_ok : forall c, kind_ok (Fields (record_fields c)) = true.
Proof.
  intros c. unfold record_fields.
  match goal with |- context [find ?f ?l] => destruct (find f l) as [[n fs]|] eqn:F; [|reflexivity]; apply find_some in F as [F _];
    assert (L : forallb (fun e => kind_ok (Fields (snd e))) l = true) by (vm_compute; reflexivity) end.
  rewrite forallb_forall in L. exact (L _ F).
Qed.

(** ** Induction on descriptions *)
Section KindInd.
  Variable P : kind -> Prop.
  Hypothesis HU : forall w, P (Unsigned w).
  Hypothesis HS : forall w, P (Signed w).
  Hypothesis HR : P Real.
  Hypothesis HI : P Id4.
  Hypothesis HP : P Prefixed.
  Hypothesis HH : forall n, P (Hexadecimal n).
  Hypothesis HC : P Paragraph.
  Hypothesis HB : forall w gs, P (Bits w gs).
  Hypothesis HF : forall fs, Forall (fun f => P (snd f)) fs -> P (Fields fs).
  Hypothesis HRep : forall n k, P k -> P (Repeat n k).
  Hypothesis HCo : forall w k, P k -> P (Counted w k).
  Hypothesis HT : forall c k, P k -> P (Times c k).
  Hypothesis HCh : forall m g l, Forall (fun nk => P (snd nk)) l -> P (Choice m g l).
  Fixpoint kind_rect' (k : kind) : P k :=
    match k with
    | Unsigned w => HU w | Signed w => HS w | Real => HR | Id4 => HI | Prefixed => HP | Hexadecimal n => HH n | Paragraph => HC
    | Bits w gs => HB w gs
    | Fields fs => HF fs ((fix go (fs : list field_spec) : Forall (fun f => P (snd f)) fs :=
        match fs with [] => Forall_nil _ | f :: r => Forall_cons f (kind_rect' (snd f)) (go r) end) fs)
    | Repeat n k => HRep n k (kind_rect' k)
    | Counted w k => HCo w k (kind_rect' k)
    | Times c k => HT c k (kind_rect' k)
    | Choice m g l => HCh m g l ((fix go (l : list (Z * kind)) : Forall (fun nk => P (snd nk)) l :=
        match l with [] => Forall_nil _ | f :: r => Forall_cons f (kind_rect' (snd f)) (go r) end) l)
    end.
End KindInd.

(** ** Numbers *)
Lemma unsigned_is : forall w b, unsigned w b =
  if Nat.leb w (List.length b) then Some (le_decode (firstn w b), skipn w b) else None.
Proof.
  induction w as [|w IH]; intros b; [reflexivity|]. destruct b as [|x b]; [reflexivity|].
  cbn [unsigned List.length firstn skipn le_decode]. rewrite IH. cbn [Nat.leb]. destruct (Nat.leb w (List.length b)); reflexivity.
Qed.

Lemma all_bytes_suffix : forall (a b : list Z), all_bytes (a ++ b) -> all_bytes b.
Proof. intros a b H. apply Forall_app in H. apply H. Qed.

(** ** Agreement of a reading with the meaning of a description *)
Definition agrees {X Y} (f : X -> Y) (r : sres node X) (o : option (Y * list Z)) : Prop :=
  match o with
  | Some (y, rest) => exists tr s' x, r = (tr, s', Some (Ok x)) /\ f x = y /\ s_rest s' = rest /\ all_bytes rest
  | None => exists tr s' e, r = (tr, s', Some (Raise e))
  end.

Lemma agrees_bind : forall {X Y X' Y'} (f : X -> Y) (g : X' -> Y') r o (k : X -> stream -> sres node X') (k' : Y -> list Z -> option (Y' * list Z)),
  agrees f r o -> (forall x s', all_bytes (s_rest s') -> agrees g (k x s') (k' (f x) (s_rest s'))) ->
  agrees g (andthen node r k) (match o with Some (y, rest) => k' y rest | None => None end).
Proof.
  intros X Y X' Y' f g r o k k' H HK. destruct o as [[y rest]|]; cbn in H.
  - destruct H as (tr & s' & x & -> & <- & <- & HB). specialize (HK x s' HB). cbn [andthen].
    destruct (k x s') as [[tr2 s2] o2]. destruct (k' (f x) (s_rest s')) as [[y2 rest2]|]; cbn in *.
    + destruct HK as (a & b & c & E & R). inversion E; subst. eauto 10.
    + destruct HK as (a & b & c & E). inversion E; subst. eauto.
  - destruct H as (tr & s' & e & ->). cbn. eauto.
Qed.
Lemma agrees_say : forall {X Y} (g : X -> Y) ev s (k : unit -> stream -> sres node X) o,
  agrees g (k tt s) o -> agrees g (andthen node (say node ev s) k) o.
Proof.
  intros X Y g ev s k o H. cbn [andthen say]. destruct (k tt s) as [[tr2 s2] o2]. destruct o as [[y rest]|]; cbn in *.
  - destruct H as (a & b & c & E & R). inversion E; subst. eauto 10.
  - destruct H as (a & b & c & E). inversion E; subst. eauto.
Qed.
Lemma agrees_ret : forall {X Y} (g : X -> Y) x s, all_bytes (s_rest s) -> agrees g (ret node x s) (Some (g x, s_rest s)).
Proof. intros. cbn. unfold ret. eauto 10. Qed.
Lemma agrees_fail : forall {X Y} (g : X -> Y) e s, agrees g (fail node s e) None.
Proof. intros. cbn. unfold fail. eauto. Qed.

(** *** Leaves *)
Lemma width_read : forall w b pos, (0 < w)%nat -> readn (Z.of_nat w) (mkStream b pos) =
  match b with
  | [] => (Raise (Eof pos), mkStream [] pos)
  | _ => (Ok (firstn w b), mkStream (skipn w b) (pos + zlen (firstn w b)))
  end.
Proof.
  intros w b pos HW. destruct b as [|x b]; [apply readn_nil|]. unfold readn, stream_read. cbn [s_rest s_pos].
  rewrite ztake_nat, zdrop_nat. destruct w as [|w]; [lia|]. cbn [firstn]. rewrite zlen_cons.
  pose proof (zlen_nonneg _ (firstn w b)). destruct (Z.eqb_spec (1 + zlen (firstn w b)) 0); [lia|]. reflexivity.
Qed.
Definition decoded (f : binfmt) (b : list Z) : Z :=
  match f with FmtInt w => to_signed (8 * Z.of_nat w) (le_decode b) | _ => le_decode b end.
Lemma number_read : forall f b pos, (0 < fmt_width f)%nat ->
  if Nat.leb (fmt_width f) (List.length b)
  then prim_value (PFmt f) (mkStream b pos) = (Some (Ok (fmt_value f (decoded f (firstn (fmt_width f) b)))), mkStream (skipn (fmt_width f) b) (pos + Z.of_nat (fmt_width f)))
  else exists e s', prim_value (PFmt f) (mkStream b pos) = (Some (Raise e), s').
Proof.
  intros f b pos HW. cbn [prim_value]. rewrite calcsize_width, width_read by exact HW.
  destruct b as [|x b].
  - destruct (fmt_width f) eqn:W; [lia|]. cbn [List.length Nat.leb]. eauto.
  - destruct (Nat.leb_spec (fmt_width f) (List.length (x :: b))) as [H|H].
    + unfold struct_unpack. rewrite calcsize_width.
      assert (L : zlen (firstn (fmt_width f) (x :: b)) = Z.of_nat (fmt_width f)) by (unfold zlen; rewrite firstn_length; lia).
      rewrite L, Z.eqb_refl. destruct f; reflexivity.
    + unfold struct_unpack. rewrite calcsize_width.
      assert (L : zlen (firstn (fmt_width f) (x :: b)) < Z.of_nat (fmt_width f)) by (unfold zlen; rewrite firstn_length; lia).
      destruct (Z.eqb_spec (zlen (firstn (fmt_width f) (x :: b))) (Z.of_nat (fmt_width f))); [lia|]. cbn. eauto.
Qed.
Lemma all_bytes_skipn : forall n b, all_bytes b -> all_bytes (skipn n b).
Proof. intros n b H. rewrite <- (firstn_skipn n b) in H. exact (all_bytes_suffix _ _ H). Qed.
Lemma number_leaf : forall f name s, (0 < fmt_width f)%nat -> all_bytes (s_rest s) ->
  agrees view_of (rd_leaf node name (TPrim node (PFmt f)) s)
    (match unsigned (fmt_width f) (s_rest s) with
     | Some (_, r) => Some (view_of (fmt_value f (decoded f (firstn (fmt_width f) (s_rest s)))), r)
     | None => None end).
Proof.
  intros f name [b pos] HW HB. cbn [s_rest] in *. pose proof (number_read f b pos HW) as H. rewrite unsigned_is.
  unfold rd_leaf. cbn [read_leaf]. destruct (Nat.leb (fmt_width f) (List.length b)).
  - rewrite H. do 3 eexists. split; [reflexivity|]. cbn [s_rest]. repeat split. apply all_bytes_skipn. exact HB.
  - destruct H as (e & s' & ->). cbn. eauto.
Qed.
Lemma signed_is : forall w b, (0 < w)%nat -> signed w b =
  match unsigned w b with Some (_, r) => Some (decoded (FmtInt w) (firstn w b), r) | None => None end.
Proof.
  intros w b HW. unfold signed. rewrite unsigned_is. destruct (Nat.leb w (List.length b)); [|reflexivity]. cbn [decoded]. unfold to_signed.
  assert (E : 256 ^ Z.of_nat w = 2 ^ (8 * Z.of_nat w)) by (change 256 with (2 ^ 8); rewrite <- Z.pow_mul_r by lia; reflexivity).
  rewrite E. assert (E2 : 2 ^ (8 * Z.of_nat w) = 2 * 2 ^ (8 * Z.of_nat w - 1)).
  { rewrite <- Z.pow_succ_r by lia. f_equal. lia. }
  rewrite E2. set (n := le_decode (firstn w b)). set (m := 2 ^ (8 * Z.of_nat w - 1)).
  destruct (Z.ltb_spec (2 * n) (2 * m)), (Z.ltb_spec n m); try lia; reflexivity.
Qed.

Lemma id_leaf : forall name s, all_bytes (s_rest s) ->
  agrees view_of (rd_leaf node name (TPrim node PChid) s)
    (match s_rest s with b0 :: b1 :: b2 :: b3 :: r => Some (Text [b3; b2; b1; b0], r) | _ => None end).
Proof.
  intros name [b pos] HB. cbn [s_rest] in *. unfold rd_leaf. cbn [read_leaf prim_value].
  change 4 with (Z.of_nat 4). rewrite width_read by lia.
  destruct b as [|b0 [|b1 [|b2 [|b3 r]]]]; cbn; eauto.
  do 3 eexists. split; [reflexivity|]. cbn. repeat split. exact (all_bytes_skipn 4 _ HB).
Qed.
Lemma text_leaf : forall name s, all_bytes (s_rest s) ->
  agrees view_of (rd_leaf node name (TPrim node PBstr) s)
    (match prefixed (s_rest s) with Some (t, r) => Some (Text t, r) | None => None end).
Proof.
  intros name [b pos] HB. cbn [s_rest] in *. unfold rd_leaf, prefixed. cbn [read_leaf prim_value].
  pose proof (number_read UINT16 b pos ltac:(cbn; lia)) as H. rewrite prim_value_fmt in H. unfold bstr_read. rewrite unsigned_is.
  change (fmt_width UINT16) with 2%nat in H. destruct (Nat.leb 2 (List.length b)).
  - destruct (prim_read UINT16 (mkStream b pos)) as [[n|e] s1]; cbv beta iota in H; [|discriminate].
    change (fmt_value UINT16 (decoded UINT16 (firstn 2 b))) with (VInt (le_decode (firstn 2 b))) in H.
    change (fmt_value UINT16 n) with (VInt n) in H.
    assert (EN : n = le_decode (firstn 2 b)) by congruence.
    assert (ES : s1 = mkStream (skipn 2 b) (pos + Z.of_nat 2)) by congruence. subst n s1. clear H.
    assert (B1 : all_bytes (skipn 2 b)) by (apply all_bytes_skipn; exact HB).
    cbn [s_rest]. set (n := le_decode (firstn 2 b)) in *. set (r := skipn 2 b) in *.
    destruct (Z.eqb_spec n 0) as [E|NE].
    { do 3 eexists. split; [reflexivity|]. cbn [s_rest]. repeat split. exact B1. }
    unfold readn, stream_read. cbn [s_rest s_pos]. destruct (ztake (2 * n) r) as [|x raw] eqn:T.
    + change (zlen (@nil Z) =? 0) with true. cbn. eauto.
    + rewrite zlen_cons. pose proof (zlen_nonneg _ raw). destruct (Z.eqb_spec (1 + zlen raw) 0); [lia|].
      destruct (utf16le_decode (x :: raw)) as [t|e]; [|cbn; eauto]. do 3 eexists. split; [reflexivity|]. cbn [s_rest]. repeat split.
      rewrite <- (ztake_zdrop _ (2 * n) r) in B1. exact (all_bytes_suffix _ _ B1).
  - destruct H as (e & s' & H). destruct (prim_read UINT16 (mkStream b pos)) as [[n|e'] s1]; cbn in H; [discriminate|]. cbn. eauto.
Qed.
Lemma hexadecimal_is : forall b, all_bytes b -> b2a_hex b = hexadecimal b.
Proof.
  intros b H. unfold b2a_hex, hexadecimal. rewrite flat_map_concat_map. f_equal. apply map_ext_in. intros x Hx.
  unfold all_bytes in H; rewrite Forall_forall in H. specialize (H x Hx). unfold is_byte in H.
  assert (L : forallb (fun n => let x := Z.of_nat n in if list_eq_dec Z.eq_dec (fmt_x 2 x) [hexdigit (x / 16); hexdigit (x mod 16)] then true else false)
                (seq 0 256) = true) by (vm_compute; reflexivity).
  rewrite forallb_forall in L. specialize (L (Z.to_nat x)). cbv zeta in L. rewrite Z2Nat.id in L by lia.
  destruct (list_eq_dec Z.eq_dec (fmt_x 2 x) [hexdigit (x / 16); hexdigit (x mod 16)]) as [E|NE]; [exact E|].
  discriminate L. apply in_seq. lia.
Qed.
Lemma ztake_bytes : forall n b, all_bytes b -> all_bytes (ztake n b).
Proof. intros n b H. rewrite <- (ztake_zdrop _ n b) in H. apply Forall_app in H. apply H. Qed.
Lemma zdrop_bytes : forall n b, all_bytes b -> all_bytes (zdrop n b).
Proof. intros n b H. rewrite <- (ztake_zdrop _ n b) in H. apply Forall_app in H. apply H. Qed.
Lemma hex_leaf : forall n name s, 0 < n -> all_bytes (s_rest s) ->
  agrees view_of (rd_leaf node name (TPrim node (PHex n)) s)
    (match s_rest s with [] => None | _ => Some (Bytes (hexadecimal (ztake n (s_rest s))), zdrop n (s_rest s)) end).
Proof.
  intros n name [b pos] HN HB. cbn [s_rest] in *. unfold rd_leaf. cbn [read_leaf prim_value].
  destruct b as [|x b]; [rewrite readn_nil; cbn; eauto|].
  assert (E : readn n (mkStream (x :: b) pos) = (Ok (ztake n (x :: b)), mkStream (zdrop n (x :: b)) (pos + zlen (ztake n (x :: b))))).
  { replace n with (Z.of_nat (Z.to_nat n)) by lia. rewrite ztake_nat, zdrop_nat. rewrite width_read by lia. reflexivity. }
  rewrite E. do 3 eexists. split; [reflexivity|]. cbn [s_rest view_of]. rewrite hexadecimal_is by (apply ztake_bytes; exact HB).
  repeat split. apply zdrop_bytes. exact HB.
Qed.
Lemma paragraph_leaf : forall name s, all_bytes (s_rest s) ->
  agrees view_of (rd_leaf node name (TPrim node PChunks) s)
    (match parse_chunks (s_rest s) with (l, Finished) => Some (Chunks l, []) | _ => None end).
Proof.
  intros name [b pos] HB. cbn [s_rest] in *. unfold rd_leaf. cbn [read_leaf prim_value]. unfold para_text_read, stream_read_all. cbn [s_rest s_pos].
  pose proof (parse_chunks_outcomes b HB) as H. destruct (parse_chunks b) as [l o]. cbn [snd] in H. destruct o as [|e|].
  - do 3 eexists. split; [reflexivity|]. repeat split. constructor.
  - cbn. eauto.
  - cbn in H. intuition discriminate.
Qed.

(** *** Bit groups *)
Definition item_dec : forall p q : string * Z, {p = q} + {p <> q}.
Proof. decide equality; [apply Z.eq_dec|apply string_dec]. Defined.
Fixpoint distinct (l : list string) : bool :=
  match l with [] => true | x :: r => negb (existsb (String.eqb x) r) && distinct r end.
Lemma distinct_sound : forall l, distinct l = true -> NoDup l.
Proof.
  induction l as [|x l IH]; intros H; [constructor|]. cbn in H. apply andb_prop in H as [H1 H2]. constructor; [|apply IH; exact H2].
  intros HI. apply negb_true_iff in H1. rewrite <- not_true_iff_false in H1. apply H1. apply existsb_exists. exists x. split; [exact HI|apply String.eqb_refl].
Qed.
Lemma make_enum_ok : forall e items, In (e, items) enum_names ->
  zdict_get (enum_id e) enum_table = Some items /\ NoDup (map fst items) /\ look e enum_names = Some items.
Proof.
  assert (L : forallb (fun x => match zdict_get (enum_id (fst x)) enum_table, look (fst x) enum_names with
                                | Some l, Some l' => if list_eq_dec item_dec l (snd x) then
                                    if list_eq_dec item_dec l' (snd x) then
                                    distinct (map fst (snd x)) else false else false
                                | _, _ => false end) enum_names = true) by (vm_compute; reflexivity).
  intros e items H. rewrite forallb_forall in L. specialize (L _ H). cbn [fst snd] in L.
  destruct (zdict_get (enum_id e) enum_table) as [l|]; [|discriminate]. destruct (look e enum_names) as [l'|]; [|discriminate].
  destruct (list_eq_dec item_dec l items) as [->|]; [|discriminate]. destruct (list_eq_dec item_dec l' items) as [->|]; [|discriminate].
  apply distinct_sound in L. auto.
Qed.
Lemma named_is : forall e n, existsb (fun x : string * list (string * Z) => String.eqb (fst x) e) enum_names = true ->
  named (Some (enum_id e)) n = match look e enum_names with Some items => first_name items n | None => None end.
Proof.
  intros e n H. apply existsb_exists in H as ([e' items] & H & E). cbn [fst] in E. apply String.eqb_eq in E. subst e'.
  destruct (make_enum_ok e items H) as (E1 & E2 & E3). rewrite E3. unfold named. rewrite E1.
  destruct (enum_correct [] items) as [G _]. change (enum_pairs [] items) with items in G.
  destruct (G E2) as (st & -> & G'). apply G'.
Qed.
Lemma groups_view : forall n gs, forallb group_ok gs = true ->
  view_of (VFlags (map group_field gs) n) = Flags n (map (group_view n) gs).
Proof.
  intros n gs H. cbn [view_of]. f_equal. rewrite map_map. apply map_ext_in. intros [name low high e] Hg.
  rewrite forallb_forall in H. specialize (H _ Hg). cbn [group_ok] in H. apply andb_prop in H as [H1 H2]. apply andb_prop in H1 as [H0 H1].
  cbn [group_field group_view]. unfold bits_of. rewrite bitfield_value by lia. destruct e as [e|]; cbn [option_map]; [|reflexivity].
  rewrite named_is by exact H2. reflexivity.
Qed.
Lemma bits_leaf : forall w gs name s, (0 < w)%nat -> forallb group_ok gs = true -> all_bytes (s_rest s) ->
  agrees view_of (rd_leaf node name (TFlags node (FmtUInt w) (map group_field gs)) s)
    (match unsigned w (s_rest s) with Some (n, r) => Some (Flags n (map (group_view n) gs), r) | None => None end).
Proof.
  intros w gs name [b pos] HW HG HB. cbn [s_rest] in *. pose proof (number_read (FmtUInt w) b pos HW) as H. rewrite unsigned_is.
  unfold rd_leaf. cbn [read_leaf]. cbn [fmt_width] in H. destruct (Nat.leb w (List.length b)).
  - rewrite H. cbn [fmt_value decoded]. do 3 eexists. split; [reflexivity|]. cbn [s_rest]. split; [apply groups_view; exact HG|].
    split; [reflexivity|]. apply all_bytes_skipn. exact HB.
  - destruct H as (e & s' & ->). cbn. eauto.
Qed.

(** *** Earlier members, conditions and counts *)
Definition env_is (pv : option value) (env : list (string * view)) : Prop :=
  match pv with Some (VDict d) => env = views d | Some (VList _) => env = [] | _ => False end.
Definition parent_is (c : node) (p : parent) : Prop :=
  p_type p = n_type c /\ match n_content c with
                         | None => p_members p = None
                         | Some (VDict d) => p_members p = Some (views d)
                         | Some _ => False
                         end.

Lemma look_views : forall name d, look name (views d) = option_map view_of (dict_get name d).
Proof.
  intros name d. unfold look. induction d as [|[n v] d IH]; [reflexivity|]. cbn. destruct (String.eqb name n); [reflexivity|exact IH].
Qed.
Lemma look_groups : forall g gs n,
  look g (map (fun g => match g with (name, (lsb, msb, type)) => let x := get_int_value lsb msb n in (name, (x, named type x)) end) gs) =
  option_map (fun f => match f with (lsb, msb, type) => let x := get_int_value lsb msb n in (x, named type x) end) (dict_get g gs).
Proof.
  intros g gs n. unfold look. induction gs as [|[name [[lsb msb] type]] gs IH]; [reflexivity|].
  cbn [map find dict_get fst]. destruct (String.eqb g name); [reflexivity|]. exact IH.
Qed.
Lemma dict_set_views : forall name v d, views (dict_set name v d) = dict_set name (view_of v) (views d).
Proof.
  intros name v d. induction d as [|[n x] d IH]; [reflexivity|]. cbn. destruct (String.eqb name n); [reflexivity|]. cbn. f_equal. exact IH.
Qed.

Definition same_answer {X} (r : res X) (o : option X) : Prop :=
  match o with Some x => r = Ok x | None => exists e, r = Raise e end.

Lemma member_group : forall m g c v env, env_is (Some v) env ->
  same_answer (ref_member_flag m g (c : node) v) (look_group m g env).
Proof.
  intros m g c v env H. unfold ref_member_flag, ref_member, look_group. destruct v; cbn [env_is] in H; try contradiction; subst env.
  - cbn. eauto.
  - rewrite look_views. destruct (dict_get m d) as [x|]; cbn [option_map bind]; [|cbn; eauto].
    destruct x; cbn [view_of]; try (cbn; eauto; fail). rewrite look_groups. unfold flag_field in *.
    destruct (dict_get g groups) as [[[lsb msb] type]|]; cbn; eauto.
Qed.
Lemma condition : forall t c p v env, test_ok t = true -> parent_is c p -> env_is (Some v) env ->
  match as_cond t with
  | None => t = Always
  | Some f => same_answer (f c v) (holds p env t)
  end.
Proof.
  induction t as [|m g|m g|id|ty|a IHa b IHb]; intros c p v env HT HP HE; cbn [as_cond].
  - reflexivity.
  - pose proof (member_group m g c v env HE) as H. cbn [holds]. unfold flag_set. destruct (look_group m g env); cbn in *.
    + rewrite H. reflexivity.
    + destruct H as (e & ->). cbn. eauto.
  - pose proof (member_group m g c v env HE) as H. cbn [holds]. destruct (look_group m g env); cbn in *.
    + rewrite H. reflexivity.
    + destruct H as (e & ->). cbn. eauto.
  - cbn [holds]. unfold chid_is, ref_member. destruct v; cbn [env_is] in HE; try contradiction; subst env.
    + cbn. eauto.
    + rewrite look_views. destruct (dict_get "chid" d) as [x|]; cbn [option_map bind]; [|cbn; eauto]. destruct x; reflexivity.
  - cbn [holds]. destruct HP as [-> _]. destruct (n_type c); cbn; eauto.
  - cbn [test_ok] in HT.
    assert (HA : as_cond a <> None /\ as_cond b <> None /\ test_ok a = true /\ test_ok b = true).
    { assert (Q : forall t, test_ok t = true -> t <> Always -> as_cond t <> None).
      { induction t; cbn; try discriminate; intros T N; [congruence|].
        assert (R : test_ok t1 = true /\ test_ok t2 = true /\ t1 <> Always /\ t2 <> Always).
        { destruct t1, t2; try discriminate T; apply andb_prop in T as [T1 T2]; repeat split; try assumption; discriminate. }
        destruct R as (R1 & R2 & R3 & R4). specialize (IHt1 R1 R3). specialize (IHt2 R2 R4).
        destruct (as_cond t1); [|congruence]. destruct (as_cond t2); [discriminate|congruence]. }
      assert (R : test_ok a = true /\ test_ok b = true /\ a <> Always /\ b <> Always).
      { destruct a, b; try discriminate HT; apply andb_prop in HT as [T1 T2]; repeat split; try assumption; discriminate. }
      destruct R as (R1 & R2 & R3 & R4). repeat split; auto. }
    destruct HA as (A1 & A2 & A3 & A4). specialize (IHa c p v env A3 HP HE). specialize (IHb c p v env A4 HP HE).
    destruct (as_cond a) as [fa|]; [|congruence]. destruct (as_cond b) as [fb|]; [|congruence].
    cbn [holds]. unfold both. destruct (holds p env a) as [[|]|]; cbn in IHa |- *.
    + rewrite IHa. cbn. exact IHb.
    + rewrite IHa. reflexivity.
    + destruct IHa as (e & ->). cbn. eauto.
Qed.
Lemma number_of : forall v, same_answer (int_of_value v) (number_in (Some (view_of v))).
Proof. intros []; cbn; eauto. Qed.
Lemma counted : forall n c p v env, parent_is c p -> env_is (Some v) env -> same_answer (as_count n c v) (how_often p env n).
Proof.
  intros n c p v env HP HE. destruct n as [name|name|m g]; cbn [as_count how_often].
  - unfold ref_member_int, ref_member. destruct v; cbn [env_is] in HE; try contradiction; subst env; [cbn; eauto|].
    rewrite look_views. destruct (dict_get name d) as [x|]; cbn [bind option_map]; [apply number_of|cbn; eauto].
  - unfold ref_parent_member. destruct HP as [_ HP]. destruct (n_content c) as [x|]; [|rewrite HP; cbn; eauto].
    destruct x; try contradiction. rewrite HP, look_views. destruct (dict_get name d) as [x|]; cbn [option_map]; [apply number_of|cbn; eauto].
  - pose proof (member_group m g c v env HE) as H. unfold n_entries. destruct (look_group m g env); cbn in *.
    + rewrite H. reflexivity.
    + destruct H as (e & ->). cbn. eauto.
Qed.
Lemma visibility : forall version v, List.length version = 4%nat -> all_bytes version ->
  visible (Some version) (as_version v) = not_older version v.
Proof.
  intros version [[[a b] c] d] HL HB. destruct version as [|w [|x [|y [|z [|? ?]]]]]; try discriminate HL.
  assert (P : 0 <= w /\ 0 <= x /\ 0 <= y /\ 0 <= z).
  { unfold all_bytes, is_byte in HB. rewrite Forall_forall in HB. repeat split; apply HB; cbn; auto. }
  unfold as_version, not_older, visible.
  destruct (Z.eqb_spec a 0), (Z.eqb_spec b 0), (Z.eqb_spec c 0), (Z.eqb_spec d 0); cbn [andb]; subst;
  cbn [version_lt];
  repeat match goal with |- context [Z.ltb ?p ?q] => destruct (Z.ltb_spec p q); try lia end;
  repeat match goal with |- context [Z.eqb ?p ?q] => destruct (Z.eqb_spec p q); try lia end;
  repeat match goal with |- context [Z.leb ?p ?q] => destruct (Z.leb_spec p q); try lia end; reflexivity.
Qed.

(** ** Whole descriptions *)
Fixpoint as_members (fs : list field_spec) : members node :=
  match fs with
  | [] => MNil node
  | (name, v, t, k) :: r => MCons node name (as_version v) (as_cond t) (as_type k) (as_members r)
  end.
Fixpoint as_alts (l : list (Z * kind)) : alts node :=
  match l with [] => ANil node | (n, k) :: r => ACons node n (as_type k) (as_alts r) end.
Lemma as_type_fields : forall fs, as_type (Fields fs) = TStruct node (as_members fs).
Proof.
  reflexivity.
Qed.
Lemma as_type_choice : forall m g l, as_type (Choice m g l) = TSel node (ref_member_flag m g) (as_alts l).
Proof.
  reflexivity.
Qed.
Section Meaning.
  Variable version : list Z.
  Variable p : parent.
  Fixpoint fields (fs : list field_spec) (env : list (string * view)) (b : list Z) : option (option view * list Z) :=
    match fs with
    | [] => Some (Some (Members env), b)
    | (name, v, t, k) :: rest =>
        if not_older version v then
          match holds p env t with
          | Some true => match parse version p k env b with
                         | Some (x, r) => fields rest (match x with Some x => dict_set name x env | None => env end) r
                         | None => None
                         end
          | Some false => fields rest env b
          | None => None
          end
        else fields rest env b
    end.
  Fixpoint choose (n : Z) (env : list (string * view)) (b : list Z) (l : list (Z * kind)) : option (option view * list Z) :=
    match l with
    | [] => Some (None, b)
    | (key, k) :: l => if key =? n then parse version p k env b else choose n env b l
    end.
  Lemma parse_fields : forall fs env b, parse version p (Fields fs) env b = fields fs [] b.
  Proof. reflexivity. Qed.
  Lemma parse_choice : forall m g l env b, parse version p (Choice m g l) env b =
    match look_group m g env with None => None | Some n => choose n env b l end.
  Proof.
    intros m g l env b. cbn [parse]. destruct (look_group m g env) as [n|]; [|reflexivity].
    induction l as [|[key k] l IH]; [reflexivity|]. cbn [choose]. destruct (key =? n); [reflexivity|exact IH].
  Qed.
  Lemma kind_ok_fields : forall n v t k fs, kind_ok (Fields ((n, v, t, k) :: fs)) = true ->
    test_ok t = true /\ (is_choice k = true -> t = Always) /\ kind_ok k = true /\ kind_ok (Fields fs) = true.
  Proof.
    intros n v t k fs H. cbn in H. apply andb_prop in H as [H H4]. apply andb_prop in H as [H H3]. apply andb_prop in H as [H1 H2].
    repeat split; try assumption. intros C. rewrite C in H2. destruct t; cbn in H2; congruence.
  Qed.

  Variable c : node.
  Hypothesis HP : parent_is c p.
  Hypothesis HV : List.length version = 4%nat.
  Hypothesis HVB : all_bytes version.

  Definition meant (k : kind) : Prop := kind_ok k = true -> forall pv env name s,
    env_is pv env \/ (exists fs, k = Fields fs) -> all_bytes (s_rest s) ->
    agrees (option_map view_of) (rd node c (Some version) pv name None (as_type k) s) (parse version p k env (s_rest s)).

  Lemma agrees_map : forall {X Y Z'} (f : X -> Y) (g : Y -> Z') r o, agrees f r o ->
    agrees (fun x => g (f x)) r (match o with Some (y, b) => Some (g y, b) | None => None end).
  Proof.
    intros X Y Z' f g r o H. destruct o as [[y b]|]; cbn in *; [|exact H].
    destruct H as (tr & s' & x & E & F & R). exists tr, s', x. subst y. auto.
  Qed.
  Lemma leaf_agrees : forall name t s o, agrees view_of (rd_leaf node name t s) o ->
    agrees (option_map view_of) (andthen node (rd_leaf node name t s) (fun v s => ret node (Some v) s))
      (match o with Some (v, r) => Some (Some v, r) | None => None end).
  Proof.
    intros name t s o H.
    apply (agrees_bind view_of (option_map view_of) _ o (fun v s => ret node (Some v) s) (fun v r => Some (Some v, r)) H).
    intros x s' HB. apply (agrees_ret (option_map view_of) (Some x) s' HB).
  Qed.
  Lemma refer_agrees : forall {X} (f : ref node X) v s o, all_bytes (s_rest s) -> same_answer (f c v) o ->
    agrees (fun x : X => x) (refer node c (Some v) f s) (match o with Some x => Some (x, s_rest s) | None => None end).
  Proof.
    intros X f v s o HB H. unfold refer. destruct o as [x|]; cbn in H.
    - rewrite H. apply (agrees_ret (fun x => x) x s HB).
    - destruct H as (e & ->). apply agrees_fail.
  Qed.
  Lemma agrees_eq : forall {X Y} (f : X -> Y) r o o', agrees f r o -> o = o' -> agrees f r o'.
  Proof. intros; subst; assumption. Qed.

  Lemma repeated_agrees : forall k, kind_ok k = true -> meant k -> forall n acc s, all_bytes (s_rest s) ->
    agrees (map view_of) (repeated node n (fun sofar s => rd node c (Some version) (Some sofar) None None (as_type k) s) acc s)
      (match times n (parse version p k []) (s_rest s) with Some (l, r) => Some (map view_of acc ++ l, r) | None => None end).
  Proof.
    intros k HK IH n. induction n as [|n IHn]; intros acc s HB.
    - cbn [repeated times]. rewrite app_nil_r. apply (agrees_ret (map view_of) acc s HB).
    - cbn [repeated times].
      pose proof (IH HK (Some (VList acc)) [] None s (or_introl eq_refl) HB) as H.
      eapply agrees_eq.
      + apply (agrees_bind _ (map view_of) _ _ _ (fun x b => match times n (parse version p k []) b with
                  | Some (l, r) => Some (map view_of acc ++ (match x with Some x => [x] | None => [] end) ++ l, r) | None => None end) H).
        intros x s' HB'. eapply agrees_eq; [apply (IHn _ s' HB')|].
        destruct (times n (parse version p k []) (s_rest s')) as [[l r]|]; [|reflexivity].
        destruct x as [x|]; cbn [option_map]; [rewrite map_app, <- app_assoc|]; reflexivity.
      + destruct (parse version p k [] (s_rest s)) as [[x r]|]; [|reflexivity].
        destruct (times n (parse version p k []) r) as [[l r']|]; [|reflexivity]. destruct x; reflexivity.
  Qed.
  Lemma closing_agrees : forall name t v s, all_bytes (s_rest s) ->
    agrees (option_map view_of) (closing node name t v s) (Some (Some (view_of v), s_rest s)).
  Proof. intros. unfold closing. apply agrees_say. apply (agrees_ret (option_map view_of) (Some v) s H). Qed.
  Lemma array_agrees : forall k name t n (wrap : list value -> value) s, kind_ok k = true -> meant k -> all_bytes (s_rest s) ->
    (forall l, view_of (wrap l) = Items (map view_of l)) ->
    agrees (option_map view_of)
      (andthen node (array_of node c (Some version) name t (as_type k) n s) (fun l s => closing node name t (wrap l) s))
      (match times (Z.to_nat n) (parse version p k []) (s_rest s) with Some (l, rest) => Some (Some (Items l), rest) | None => None end).
  Proof.
    intros k name t n wrap s HK IH HB HW.
    assert (A : agrees (map view_of) (array_of node c (Some version) name t (as_type k) n s)
                  (times (Z.to_nat n) (parse version p k []) (s_rest s))).
    { unfold array_of. apply agrees_say. eapply agrees_eq; [apply (repeated_agrees k HK IH _ [] s HB)|].
      destruct (times (Z.to_nat n) (parse version p k []) (s_rest s)) as [[l r]|]; reflexivity. }
    apply (agrees_bind _ (option_map view_of) _ _ _ (fun l r => Some (Some (Items l), r)) A).
    intros l s' HB'. rewrite <- HW. apply closing_agrees. exact HB'.
  Qed.

  Lemma guard : forall cond pv name k s, is_choice k = false ->
    rd node c (Some version) pv name cond (as_type k) s =
    guarded node c pv cond s (fun s => rd node c (Some version) pv name None (as_type k) s).
  Proof. intros cond pv name k s H. destruct k; try discriminate H; destruct cond; reflexivity. Qed.

  Lemma members_agree : forall fs, Forall (fun f => meant (snd f)) fs -> kind_ok (Fields fs) = true ->
    forall d s, all_bytes (s_rest s) ->
    agrees (fun d => Some (Members (views d))) (rd_members node c (Some version) (as_members fs) d s) (fields fs (views d) (s_rest s)).
  Proof.
    induction fs as [|[[[name v] t] k] fs IHf]; intros HF HK d s HB.
    - cbn [as_members]. rewrite rdm_nil. apply (agrees_ret (fun d => Some (Members (views d))) d s HB).
    - inversion HF as [|? ? Hk HF']; subst. cbn [snd] in Hk.
      apply kind_ok_fields in HK as (K1 & K2 & K3 & K4). specialize (IHf HF' K4).
      cbn [as_members fields]. rewrite rdm_cons, visibility by assumption. destruct (not_older version v); [|apply IHf; exact HB].
      pose proof (condition t c p (VDict d) (views d) K1 HP eq_refl) as HC.
      assert (HT : forall s, all_bytes (s_rest s) -> agrees (fun d => Some (Members (views d)))
        (andthen node (rd node c (Some version) (Some (VDict d)) (Some name) None (as_type k) s)
           (fun v s => rd_members node c (Some version) (as_members fs) (match v with Some x => dict_set name x d | None => d end) s))
        (match parse version p k (views d) (s_rest s) with
         | Some (x, r) => fields fs (match x with Some x => dict_set name x (views d) | None => views d end) r
         | None => None
         end)).
      { intros s' HB'.
        apply (agrees_bind _ _ _ _ _ (fun x r => fields fs (match x with Some x => dict_set name x (views d) | None => views d end) r)
                 (Hk K3 (Some (VDict d)) (views d) (Some name) s' (or_introl eq_refl) HB')).
        intros x s2 HB2. destruct x as [x|]; cbn [option_map]; [rewrite <- dict_set_views|]; apply IHf; exact HB2. }
      destruct (as_cond t) as [f|] eqn:EC.
      + assert (NC : is_choice k = false).
        { destruct (is_choice k) eqn:E; [|reflexivity]. rewrite (K2 eq_refl) in EC. discriminate. }
        rewrite guard by exact NC. unfold guarded, refer. destruct (holds p (views d) t) as [[|]|]; cbn in HC.
        * rewrite HC. specialize (HT s HB). unfold ret at 1. cbn [andthen]. 
          destruct (rd node c (Some version) (Some (VDict d)) (Some name) None (as_type k) s) as [[tr s'] o]. cbn [app]. exact HT.
        * rewrite HC. specialize (IHf d s HB). unfold ret at 1 2. cbn [andthen app].
          destruct (rd_members node c (Some version) (as_members fs) d s) as [[tr s'] o]. cbn [app]. exact IHf.
        * destruct HC as (e & ->). cbn. eauto.
      + rewrite HC. cbn [holds]. apply HT. exact HB.
  Qed.

  Theorem every_kind : forall k, meant k.
  Proof.
    apply kind_rect'; unfold meant.
    - intros w HK pv env name s HE HB. cbn [as_type]. rewrite rd_prim. cbn [guarded parse].
      apply Nat.ltb_lt in HK. eapply agrees_eq; [apply leaf_agrees, number_leaf; assumption|]. cbn [fmt_width].
      rewrite unsigned_is. destruct (Nat.leb w (List.length (s_rest s))); reflexivity.
    - intros w HK pv env name s HE HB. cbn [as_type]. rewrite rd_prim. cbn [guarded parse].
      apply Nat.ltb_lt in HK. eapply agrees_eq; [apply leaf_agrees, number_leaf; assumption|]. rewrite signed_is by exact HK. cbn [fmt_width].
      rewrite unsigned_is. destruct (Nat.leb w (List.length (s_rest s))); reflexivity.
    - intros HK pv env name s HE HB. cbn [as_type]. rewrite rd_prim. cbn [guarded parse].
      eapply agrees_eq; [apply leaf_agrees, (number_leaf FmtDouble); [cbn; lia|assumption]|]. cbn [fmt_width].
      rewrite unsigned_is. destruct (Nat.leb 8 (List.length (s_rest s))); reflexivity.
    - intros HK pv env name s HE HB. cbn [as_type]. rewrite rd_prim. cbn [guarded parse].
      eapply agrees_eq; [apply leaf_agrees, id_leaf; assumption|]. destruct (s_rest s) as [|b0 [|b1 [|b2 [|b3 r]]]]; reflexivity.
    - intros HK pv env name s HE HB. cbn [as_type]. rewrite rd_prim. cbn [guarded parse].
      eapply agrees_eq; [apply leaf_agrees, text_leaf; assumption|]. destruct (prefixed (s_rest s)) as [[t r]|]; reflexivity.
    - intros n HK pv env name s HE HB. cbn [as_type]. rewrite rd_prim. cbn [guarded parse].
      cbn [kind_ok] in HK. apply Z.ltb_lt in HK.
      eapply agrees_eq; [apply leaf_agrees, hex_leaf; assumption|]. destruct (s_rest s); reflexivity.
    - intros HK pv env name s HE HB. cbn [as_type]. rewrite rd_prim. cbn [guarded parse].
      eapply agrees_eq; [apply leaf_agrees, paragraph_leaf; assumption|]. destruct (parse_chunks (s_rest s)) as [l [| |]]; reflexivity.
    - intros w gs HK pv env name s HE HB. cbn [as_type]. rewrite rd_flags. cbn [guarded parse].
      cbn [kind_ok] in HK. apply andb_prop in HK as [HW HG]. apply Nat.ltb_lt in HW.
      eapply agrees_eq; [apply leaf_agrees, bits_leaf; assumption|]. destruct (unsigned w (s_rest s)) as [[n r]|]; reflexivity.
    - intros fs IH HK pv env name s HE HB. rewrite as_type_fields, rd_struct, parse_fields. cbn [guarded]. apply agrees_say.
      pose proof (members_agree fs IH HK [] s HB) as A. change (views []) with (@nil (string * view)) in A.
      eapply agrees_eq; [apply (agrees_bind _ (option_map view_of) _ _ _ (fun x r => Some (x, r)) A)|].
      + intros x s' HB'. apply closing_agrees. exact HB'.
      + destruct (fields fs [] (s_rest s)) as [[x r]|]; reflexivity.
    - intros n k IH HK pv env name s HE HB. cbn [as_type]. rewrite rd_fixed. cbn [guarded parse]. cbn [kind_ok] in HK.
      apply array_agrees; auto.
    - intros w k IH HK pv env name s HE HB. cbn [as_type]. rewrite rd_var. cbn [guarded parse]. cbn [kind_ok] in HK.
      apply andb_prop in HK as [HW HK]. apply Nat.ltb_lt in HW.
      pose proof (number_leaf (FmtUInt w) None s HW HB) as A. cbn [fmt_width] in A.
      set (k' := fun v b => match v with Int n => match times (Z.to_nat n) (parse version p k []) b with Some (l, rest) => Some (Some (Items l), rest) | None => None end | _ => None end).
      eapply agrees_eq; [apply (agrees_bind _ (option_map view_of) _ _ _ k' A)|].
      + intros x s' HB'. destruct x; try apply agrees_fail. apply array_agrees; auto.
      + rewrite unsigned_is. destruct (Nat.leb w (List.length (s_rest s))); reflexivity.
    - intros n k IH HK pv env name s HE HB. cbn [as_type]. rewrite rd_x. cbn [guarded parse]. cbn [kind_ok] in HK.
      destruct HE as [HE|(? & ?)]; [|discriminate]. destruct pv as [v|]; [|contradiction].
      pose proof (refer_agrees (as_count n) v s _ HB (counted n c p v env HP HE)) as A.
      set (k' := fun n b => match times (Z.to_nat n) (parse version p k []) b with Some (l, rest) => Some (Some (Items l), rest) | None => None end).
      eapply agrees_eq; [apply (agrees_bind _ (option_map view_of) _ _ _ k' A)|].
      + intros x s' HB'. apply array_agrees; auto.
      + destruct (how_often p env n); reflexivity.
    - intros m g l IH HK pv env name s HE HB. rewrite as_type_choice, rd_sel, parse_choice.
      destruct HE as [HE|(? & ?)]; [|discriminate]. destruct pv as [v|]; [|contradiction].
      pose proof (refer_agrees (ref_member_flag m g) v s _ HB (member_group m g c v env HE)) as A.
      eapply agrees_eq; [apply (agrees_bind _ (option_map view_of) _ _ _ (fun n b => choose n env b l) A)|].
      + intros n s' HB'. clear A HB. revert HK. induction IH as [|[key k] l Hk Hl IHl]; intros HK.
        * cbn [as_alts choose]. rewrite rda_nil. apply (agrees_ret (option_map view_of) None s' HB').
        * cbn [kind_ok] in HK. apply andb_prop in HK as [HK1 HK2]. cbn [as_alts choose]. rewrite rda_cons.
          destruct (key =? n); [apply Hk; auto|apply IHl; exact HK2].
      + destruct (look_group m g env); reflexivity.
  Qed.
End Meaning.

(** ** Records *)
Definition seen_by (n : node) : parent :=
  Parent (n_type n) (match n_content n with Some (VDict d) => Some (views d) | _ => None end).
Definition node_ok (n : node) : Prop := match n_content n with None | Some (VDict _) => True | _ => False end.
Lemma seen_is : forall n, node_ok n -> parent_is n (seen_by n).
Proof. intros n H. split; [reflexivity|]. unfold node_ok in H. cbn [seen_by p_members]. destruct (n_content n) as [[]|]; try contradiction; reflexivity. Qed.

Definition as_env (o : option (option view * list Z)) : option (list (string * view) * list Z) :=
  match o with Some (Some (Members d), r) => Some (d, r) | _ => None end.
Theorem layout_agrees : forall version parent c s, version_ok version -> node_ok parent -> all_bytes (s_rest s) ->
  agrees views (layout version parent c s) (as_env (parse version (seen_by parent) (Fields (record_fields c)) [] (s_rest s))).
Proof.
  intros version parent c s [HL HV] HN HB. unfold layout. rewrite class_type_is.
  pose proof (every_kind version (seen_by parent) parent (seen_is _ HN) HL HV (Fields (record_fields c)) (records_ok c)
    None [] None s (or_intror (ex_intro _ _ eq_refl)) HB) as A.
  eapply agrees_eq; [apply (agrees_bind _ views _ _ _ (fun x r => match x with Some (Members d) => Some (d, r) | _ => None end) A)|].
  - intros x s' HB'. destruct x as [[]|]; try apply agrees_fail. apply (agrees_ret views d s' HB').
  - reflexivity.
Qed.
Lemma overwritten_views : forall e d, views (overwritten d e) = fold_left (fun env kv => dict_set (fst kv) (snd kv) env) (views e) (views d).
Proof.
  unfold overwritten. induction e as [|[n v] e IH]; intros d; [reflexivity|]. cbn [fold_left fst snd]. rewrite IH, dict_set_views. reflexivity.
Qed.
Theorem layouts_agree : forall version parent cs d s, version_ok version -> node_ok parent -> all_bytes (s_rest s) ->
  agrees views (layouts version parent cs d s) (parse_all version (seen_by parent) (map record_fields cs) (views d) (s_rest s)).
Proof.
  intros version parent cs. induction cs as [|c cs IH]; intros d s HV HN HB; cbn [layouts map parse_all].
  - apply (agrees_ret views d s HB).
  - pose proof (layout_agrees version parent c s HV HN HB) as A.
    eapply agrees_eq; [apply (agrees_bind views views _ _ _ (fun e r => parse_all version (seen_by parent) (map record_fields cs)
       (fold_left (fun env kv => dict_set (fst kv) (snd kv) env) e (views d)) r) A)|].
    + intros e s' HB'. rewrite <- overwritten_views. apply IH; assumption.
    + unfold as_env. destruct (parse version (seen_by parent) (Fields (record_fields c)) [] (s_rest s)) as [[[[]|] r]|]; reflexivity.
Qed.
(** Members of one layout have different names, so that writing them one after
    another into nothing is the layout itself. *)
Lemma dict_set_new : forall {V} name (v : V) d, dict_get name d = None -> dict_set name v d = d ++ [(name, v)].
Proof.
  intros V name v d. induction d as [|[n x] d IH]; intros H; [reflexivity|]. cbn in *. destruct (String.eqb name n); [discriminate|]. rewrite IH by exact H. reflexivity.
Qed.
Lemma dict_get_notin : forall {V} name (d : list (string * V)), ~ In name (map fst d) -> dict_get name d = None.
Proof.
  intros V name d. induction d as [|[n x] d IH]; intros H; [reflexivity|]. cbn in *. destruct (String.eqb_spec name n); [subst; tauto|]. apply IH. tauto.
Qed.
Lemma fold_sets : forall {V} (e d : list (string * V)), NoDup (map fst (d ++ e)) ->
  fold_left (fun env kv => dict_set (fst kv) (snd kv) env) e d = d ++ e.
Proof.
  intros V e. induction e as [|[n v] e IH]; intros d H; [symmetry; apply app_nil_r|]. cbn [fold_left fst snd].
  rewrite dict_set_new.
  - rewrite IH; rewrite <- app_assoc; [reflexivity|exact H].
  - apply dict_get_notin. rewrite map_app in H. cbn in H. apply NoDup_remove_2 in H. intros HI. apply H. apply in_or_app. left. exact HI.
Qed.
Lemma dict_set_names : forall {V} name (v : V) d, NoDup (map fst d) -> NoDup (map fst (dict_set name v d)) /\
  (forall x, In x (map fst (dict_set name v d)) -> x = name \/ In x (map fst d)).
Proof.
  intros V name v d. induction d as [|[n x] d IH]; intros H.
  - cbn. split; [constructor; [intros []|constructor]|]. intros y [->|[]]. auto.
  - cbn [dict_set]. inversion H as [|? ? H1 H2]; subst. destruct (String.eqb_spec name n) as [->|NE]; cbn [map fst].
    + split; [exact H|]. cbn. tauto.
    + destruct (IH H2) as [I1 I2]. split.
      * constructor; [|exact I1]. intros HI. apply I2 in HI as [->|HI]; [congruence|contradiction].
      * cbn. intros y [->|HI]; [auto|]. apply I2 in HI. tauto.
Qed.
Lemma fields_names : forall version p fs env b v r, NoDup (map fst env) -> fields version p fs env b = Some (v, r) ->
  exists d, v = Some (Members d) /\ NoDup (map fst d).
Proof.
  intros version p fs. induction fs as [|[[[n vv] t] k] fs IH]; intros env b v r HN H; cbn [fields] in H.
  - inversion H; subst. eauto.
  - destruct (not_older version vv); [|eapply IH; eassumption]. destruct (holds p env t) as [[|]|]; [|eapply IH; eassumption|discriminate].
    destruct (parse version p k env b) as [[x r']|]; [|discriminate]. eapply IH; [|exact H].
    destruct x; [apply dict_set_names; exact HN|exact HN].
Qed.
Lemma parse_all_one : forall version p c b, parse_all version p [record_fields c] [] b =
  as_env (parse version p (Fields (record_fields c)) [] b).
Proof.
  intros version p c b. cbn [parse_all]. rewrite parse_fields. destruct (fields version p (record_fields c) [] b) as [[v r]|] eqn:E; [|reflexivity].
  destruct (fields_names version p (record_fields c) [] b v r (NoDup_nil string) E) as (d & -> & HD). cbn [as_env]. rewrite fold_sets by exact HD. reflexivity.
Qed.
Lemma parse_all_cons : forall version p c ks b, parse_all version p (record_fields c :: ks) [] b =
  match parse_all version p [record_fields c] [] b with Some (d, r) => parse_all version p ks d r | None => None end.
Proof.
  intros version p c ks b. rewrite parse_all_one. cbn [parse_all]. rewrite parse_fields.
  destruct (fields version p (record_fields c) [] b) as [[v r]|] eqn:E; [|reflexivity].
  destruct (fields_names version p (record_fields c) [] b v r (NoDup_nil string) E) as (d & -> & HD). cbn [as_env]. rewrite fold_sets by exact HD. reflexivity.
Qed.
Lemma refined_differs : forall parent base d t, refined parent base d (Ok (Some t)) -> String.eqb t base = false.
Proof.
  intros parent base d t H. inversion H; subst; try reflexivity.
  match goal with K : is_control_type _ _ |- _ => destruct K as (s & K & _) end.
  destruct (String.eqb_spec t "Control") as [->|]; [|reflexivity]. exfalso. cbn in *. intuition congruence.
Qed.

Theorem content_is : forall version parent tagid payload m, version_ok version -> node_ok parent -> all_bytes payload ->
  reads version parent tagid payload (Ok m) ->
  parse_all version (seen_by parent) (record_parts tagid (m_type m)) [] payload = Some (views (m_content m), m_unparsed m).
Proof.
  intros version parent tagid payload m HV HN HB H.
  pose proof (layout_agrees version parent (type_of_tag tagid) (open_bytes payload) HV HN HB) as A.
  unfold record_parts. cbn [map]. cbn [s_rest open_bytes] in A.
  inversion H as [d tr s E R|d0 d tr0 tr1 s0 s t E R E2| | |]; subst; cbn [m_type m_content m_unparsed].
  - rewrite String.eqb_refl. cbn [map]. rewrite parse_all_one. rewrite E in A.
    destruct (as_env (parse version (seen_by parent) (Fields (record_fields (type_of_tag tagid))) [] payload)) as [[d' r]|]; cbn in A.
    + destruct A as (? & ? & ? & A & <- & <- & _). inversion A; subst. reflexivity.
    + destruct A as (? & ? & ? & A). discriminate.
  - rewrite (refined_differs _ _ _ _ R), parse_all_cons, parse_all_one. rewrite E in A.
    destruct (as_env (parse version (seen_by parent) (Fields (record_fields (type_of_tag tagid))) [] payload)) as [[d' r]|]; cbn in A.
    + destruct A as (? & ? & ? & A & <- & <- & HR). inversion A; subst.
      pose proof (layouts_agree version parent (refinement_layouts t) x1 x0 HV HN HR) as B. rewrite E2 in B.
      destruct (parse_all version (seen_by parent) (map record_fields (refinement_layouts t)) (views x1) (s_rest x0)) as [[d' r]|]; cbn in B.
      * destruct B as (? & ? & ? & B & <- & <- & _). inversion B; subst. reflexivity.
      * destruct B as (? & ? & ? & B). discriminate.
    + destruct A as (? & ? & ? & A). discriminate.
Qed.
Theorem failure_is : forall version parent tagid payload e, version_ok version -> node_ok parent -> all_bytes payload ->
  reads version parent tagid payload (Raise e) ->
  n_type parent = None /\ (tagid = 72 \/ tagid = 87) \/
  parse_all version (seen_by parent) (record_parts tagid (type_of_tag tagid)) [] payload = None \/
  (exists t d, refined parent (type_of_tag tagid) d (Ok (Some t)) /\
     (exists r, parse_all version (seen_by parent) (record_parts tagid (type_of_tag tagid)) [] payload = Some (views d, r)) /\
     parse_all version (seen_by parent) (record_parts tagid t) [] payload = None).
Proof.
  intros version parent tagid payload e HV HN HB H.
  pose proof (layout_agrees version parent (type_of_tag tagid) (open_bytes payload) HV HN HB) as A.
  cbn [s_rest open_bytes] in A. unfold record_parts. rewrite String.eqb_refl. cbn [map]. rewrite parse_all_one.
  inversion H as [| |tr s e' E|d tr s e' E R|d0 tr0 tr1 s0 s e' t E R E2]; subst.
  - right. left. rewrite E in A.
    destruct (as_env (parse version (seen_by parent) (Fields (record_fields (type_of_tag tagid))) [] payload)) as [[d' r]|]; [|reflexivity].
    cbn in A. destruct A as (? & ? & ? & A & _). discriminate.
  - left. assert (T : n_type parent = None /\ (type_of_tag tagid = "ListHeader" \/ type_of_tag tagid = "ControlData"))
      by (inversion R; subst; auto). destruct T as [T1 T2]. split; [exact T1|].
    unfold type_of_tag in T2. repeat match type of T2 with context [match ?x with _ => _ end] => destruct x; try (destruct T2; discriminate) end; auto.
  - right. right. exists t, d0. split; [exact R|]. rewrite E in A.
    destruct (as_env (parse version (seen_by parent) (Fields (record_fields (type_of_tag tagid))) [] payload)) as [[d' r]|] eqn:EP; cbn in A.
    + destruct A as (? & ? & ? & A & <- & <- & HR). inversion A; subst. split; [eauto|].
      rewrite (refined_differs _ _ _ _ R), parse_all_cons, parse_all_one, EP.
      pose proof (layouts_agree version parent (refinement_layouts t) x1 x0 HV HN HR) as B. rewrite E2 in B.
      destruct (parse_all version (seen_by parent) (map record_fields (refinement_layouts t)) (views x1) (s_rest x0)) as [[d' r]|]; [|reflexivity].
      cbn in B. destruct B as (? & ? & ? & B & _). discriminate.
    + destruct A as (? & ? & ? & A). discriminate.
Qed.
Lemma nearest_is : forall k done n, parent_of k done n -> nearest k done (seen_by n) /\ node_ok n.
Proof.
  intros k done n H. destruct H as [before r m after seen H _|H]; (split; [|exact I]).
  - exact (nr_record k done before r m after H).
  - exact (nr_none k done H).
Qed.

(** ** The id mappings *)
Lemma unsigned_encode : forall w n rest, 0 <= n < 256 ^ Z.of_nat w -> unsigned w (le_encode w n ++ rest) = Some (n, rest).
Proof.
  intros w n rest H. rewrite unsigned_is. rewrite app_length, le_encode_length.
  destruct (Nat.leb_spec w (w + List.length rest)); [|lia].
  rewrite firstn_app, skipn_app, le_encode_length, Nat.sub_diag.
  assert (E1 : firstn w (le_encode w n) = le_encode w n) by (apply firstn_all2; rewrite le_encode_length; lia).
  assert (E2 : skipn w (le_encode w n) = []) by (apply skipn_all2; rewrite le_encode_length; lia).
  rewrite E1, E2, firstn_O, skipn_O, app_nil_r, le_decode_encode by exact H. reflexivity.
Qed.
Lemma look_dict_set : forall {V} n k (v : V) d, look n (dict_set k v d) = if String.eqb n k then Some v else look n d.
Proof.
  intros V n k v d. unfold look. induction d as [|[k' x] d IH]; cbn.
  - destruct (String.eqb n k); reflexivity.
  - destruct (String.eqb_spec k k') as [->|NE]; cbn.
    + destruct (String.eqb n k'); reflexivity.
    + destruct (String.eqb_spec n k') as [->|NE']; [|exact IH].
      destruct (String.eqb_spec k' k); [congruence|reflexivity].
Qed.
Lemma fields_keep : forall version p fs env b d r name, ~ In name (map (fun f : field_spec => fst (fst (fst f))) fs) ->
  fields version p fs env b = Some (Some (Members d), r) -> look name d = look name env.
Proof.
  intros version p fs. induction fs as [|[[[n v] t] k] fs IH]; intros env b d r name HN H; cbn [fields] in H.
  - inversion H; subst. reflexivity.
  - cbn in HN. destruct (not_older version v); [|eapply IH; [tauto|exact H]].
    destruct (holds p env t) as [[|]|]; [|eapply IH; [tauto|exact H]|discriminate].
    destruct (parse version p k env b) as [[x r']|]; [|discriminate].
    rewrite (IH _ _ _ _ name ltac:(tauto) H). destruct x as [x|]; [|reflexivity]. rewrite look_dict_set.
    destruct (String.eqb_spec name n); [subst; tauto|reflexivity].
Qed.
Lemma field_u32 : forall version p name n fs env rest, version_ok version -> 0 <= n < 256 ^ 4 ->
  fields version p (always name u32 :: fs) env (le_encode 4 n ++ rest) = fields version p fs (dict_set name (Int n) env) rest.
Proof.
  intros version p name n fs env rest [HL HB] H. cbn [fields always holds].
  assert (E : not_older version (0, 0, 0, 0) = true).
  { rewrite <- visibility by assumption. reflexivity. }
  rewrite E. unfold u32. cbn [parse]. rewrite unsigned_encode by exact H. reflexivity.
Qed.
Theorem declared_counts : forall version parent first counts more rest m, version_ok version -> node_ok parent ->
  List.length counts = 7%nat -> Forall (fun n => Z.of_nat n < 256 ^ 4) counts ->
  0 <= first < 256 ^ 4 -> Forall (fun n => 0 <= n < 256 ^ 4) more -> all_bytes rest ->
  reads version parent 17 (flat_map (le_encode 4) (first :: map Z.of_nat counts ++ more) ++ rest) (Ok m) ->
  declares m counts.
Proof.
  intros version parent first counts more rest m HV HN HL HC HF HM HR H.
  assert (HB : all_bytes (flat_map (le_encode 4) (first :: map Z.of_nat counts ++ more) ++ rest)).
  { apply Forall_app. split; [|exact HR]. rewrite flat_map_concat_map. apply Forall_concat. apply Forall_map. apply Forall_forall.
    intros x _. apply le_encode_bytes. }
  pose proof (content_is _ _ _ _ _ HV HN HB H) as E.
  assert (T : m_type m = "IdMappings").
  { inversion H as [|? ? ? ? ? ? ? ? R| | |]; subst; [reflexivity|]. exfalso. change (type_of_tag 17) with "IdMappings" in R. inversion R. }
  rewrite T in E. change (record_parts 17 "IdMappings") with [record_fields "IdMappings"] in E. rewrite parse_all_one, parse_fields in E.
  destruct counts as [|c1 [|c2 [|c3 [|c4 [|c5 [|c6 [|c7 [|? ?]]]]]]]]; try discriminate HL. clear HL HB H T.
  repeat match goal with H : Forall _ (_ :: _) |- _ => inversion H; subst; clear H end.
  cbn [map flat_map app] in E.
  change (record_fields "IdMappings") with
    (always "bindata" u32 :: always "ko_fonts" u32 :: always "en_fonts" u32 :: always "cn_fonts" u32 :: always "jp_fonts" u32 ::
     always "other_fonts" u32 :: always "symbol_fonts" u32 :: always "user_fonts" u32 :: skipn 8 (record_fields "IdMappings")) in E.
  repeat rewrite <- app_assoc in E.
  repeat (rewrite field_u32 in E; [|exact HV|lia]).
  set (tail := skipn 8 (record_fields "IdMappings")) in *.
  match type of E with as_env ?x = _ => destruct x as [[v r]|] eqn:EF; [|discriminate] end.
  destruct v as [[]|]; try discriminate E. cbn [as_env] in E. injection E as E1 E2.
  assert (G : forall lang c, In (lang, c) (combine languages [c1; c2; c3; c4; c5; c6; c7]) ->
    dict_get (lang ++ "_fonts") (m_content m) = Some (VInt (Z.of_nat c))).
  { intros lang c HI. assert (LK : look (lang ++ "_fonts") d = Some (Int (Z.of_nat c))).
    { pose proof (fun name N => fields_keep _ _ _ _ _ _ _ name N EF) as KEEP. cbn in HI.
      repeat (destruct HI as [HI|HI];
        [inversion HI; subst lang c; rewrite KEEP by (vm_compute; intuition discriminate); reflexivity|]).
      contradiction. }
    rewrite E1, look_views in LK. destruct (dict_get (lang ++ "_fonts") (m_content m)) as [x|]; [|discriminate].
    cbn in LK. destruct x; cbn in LK; try discriminate. congruence. }
  unfold declares, languages. repeat (constructor; [apply G; cbn; tauto|]). constructor.
Qed.
