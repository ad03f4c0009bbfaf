(** Proofs about the JSON of records and models: what is read can be written. *)
From Coq Require Import ZArith String List Bool Lia Permutation Sorted.
From Verif Require Import Base BaseFacts Model_Text Model_Dataio Model_Record Model_Tree Model_ParaText Model_Bintype Model_Layouts Model_Models Model_Readers Model_Json
  Spec_Text Spec_Dataio Spec_Record Spec_ParaText Spec_Json Proof_Text Proof_Utf16 Proof_Record Proof_Dataio Proof_ParaText Proof_Layouts Proof_Json.
Import ListNotations.
Open Scope Z_scope.

(** ** Values that reading gives *)

Definition proper_chunk (x : (Z * Z) * chunk) : Prop :=
  match snd x with
  | ChText t => Forall code_point t
  | ChCtl (CtlChar _) => True
  | ChCtl (CtlTab _ _ _ _ u2) => all_bytes u2
  | ChCtl (CtlObj _ chid param) => all_bytes chid /\ all_bytes param
  end.
Inductive proper : value -> Prop :=
| pr_int : forall n, proper (VInt n)
| pr_flags : forall groups n, proper (VFlags groups n)
| pr_double : forall bits, proper (VDouble bits)
| pr_text : forall t, Forall code_point t -> proper (VText t)
| pr_bytes : forall b, all_bytes b -> proper (VBytes b)
| pr_chunks : forall l, Forall proper_chunk l -> proper (VChunks l)
| pr_tuple : forall l, Forall proper l -> proper (VTuple l)
| pr_list : forall l, Forall proper l -> proper (VList l)
| pr_dict : forall d, Forall (fun kv => proper (snd kv)) d -> NoDup (map fst d) -> proper (VDict d).

Lemma proper_set : forall n v d, proper v -> proper (VDict d) -> proper (VDict (dict_set n v d)).
Proof.
  intros n v d HV HD. inversion HD as [| | | | | | | |? F N]; subst. constructor; [|apply dict_set_names; exact N]. clear HD N.
  induction F as [|[k x] d Hx F IH]; cbn [dict_set]; [constructor; [exact HV|constructor]|]. destruct (String.eqb n k); constructor; assumption.
Qed.

Lemma drop_bytes : forall n b, all_bytes b -> all_bytes (zdrop n b).
Proof. intros n b H. revert n. induction H as [|c b Hc H IH]; intros n; cbn; [constructor|]. destruct (n <=? 0); [constructor; assumption|apply IH]. Qed.
Lemma take_bytes : forall n b, all_bytes b -> all_bytes (ztake n b).
Proof. intros n b H. revert n. induction H as [|c b Hc H IH]; intros n; cbn; [constructor|]. destruct (n <=? 0); constructor; [exact Hc|apply IH]. Qed.
Lemma readn_bytes : forall n s r s', all_bytes (s_rest s) -> readn n s = (r, s') -> all_bytes (s_rest s') /\ forall b, r = Ok b -> all_bytes b.
Proof.
  intros n s r s' H E. unfold readn, stream_read in E. destruct (zlen _ =? 0); inversion E; subst; cbn; (split; [apply drop_bytes; exact H|]); intros b E'; inversion E'; subst.
  apply take_bytes. exact H.
Qed.
Lemma scalar_points : forall t, Forall scalar t -> Forall code_point t.
Proof. intros t. apply Forall_impl. unfold scalar, code_point. lia. Qed.
Lemma bytes_le16 : forall b0 t, all_bytes b0 -> utf16le_decode b0 = Ok t -> Forall code_point t.
Proof. intros b0 t H E. apply utf16le_decode_iff in E as [_ E]; [|exact H]. apply scalar_points. exact E. Qed.

Lemma slice_bytes : forall a b l, all_bytes l -> all_bytes (zslice a b l).
Proof. intros a b l H. unfold zslice. apply take_bytes, drop_bytes. exact H. Qed.
Lemma control_proper : forall b r c, all_bytes b -> control_decode b = Ok c -> proper_chunk (r, ChCtl c).
Proof.
  intros b r c H E. unfold control_decode in E.
  destruct (struct_unpack UINT16 _) as [code|]; [|discriminate]. cbn [bind] in E. destruct (control_kind code) as [k|]; [|discriminate]. cbn [bind] in E.
  destruct (kind_size k =? 8); [|inversion E; subst; exact I].
  set (b' := zslice 2 (2 + 12) b) in *. assert (B : all_bytes b') by (apply slice_bytes; exact H). destruct (code =? 9).
  - destruct (struct_unpack UINT32 _); [|discriminate]. cbn [bind] in E. destruct (struct_unpack UINT8 _); [|discriminate]. cbn [bind] in E. destruct (struct_unpack UINT8 _); [|discriminate].
    cbn [bind] in E. inversion E; subst. cbn. apply drop_bytes. exact B.
  - destruct (chid_decode _) as [chid|] eqn:EC; [|discriminate]. cbn [bind] in E. inversion E; subst. cbn. split; [|apply slice_bytes; exact B].
    pose proof (slice_bytes 0 4 b' B) as B4. unfold chid_decode in EC. destruct (zslice 0 4 b') as [|b0 [|b1 [|b2 [|b3 r']]]]; try discriminate. inversion EC; subst.
    inversion B4 as [|? ? H0 G0]; subst. inversion G0 as [|? ? H1 G1]; subst. inversion G1 as [|? ? H2 G2]; subst. inversion G2 as [|? ? H3 G3]; subst. repeat (apply Forall_cons; [assumption|]); apply Forall_nil.
Qed.
Lemma chunks_proper : forall data out o, all_bytes data -> parse_chunks data = (out, o) -> Forall proper_chunk out.
Proof.
  intros data out o HB. unfold parse_chunks. generalize (S (List.length data)). intros fuel. generalize 0. revert out o.
  induction fuel as [|fuel IH]; intros out o idx H; cbn [parse_chunks_loop] in H; [inversion H; constructor|].
  destruct (idx <? zlen data); [|inversion H; constructor].
  destruct (control_find data idx) as [[[p q]|e]|]; [|inversion H; constructor|inversion H; constructor].
  match type of H with context [if p <? q then ?x else ?y] => set (after := if p <? q then x else y) in H end.
  assert (A : forall out o, after = (out, o) -> Forall proper_chunk out).
  { intros out' o' E. unfold after in E. destruct (p <? q).
    - destruct (control_decode (zslice p q data)) as [c|e] eqn:EC; [|inversion E; constructor].
      destruct (parse_chunks_loop fuel data q) as [out2 o2] eqn:E2. unfold gcons in E. cbn in E. inversion E; subst.
      constructor; [eapply control_proper; [|exact EC]; apply slice_bytes; exact HB|]. exact (IH _ _ _ E2).
    - exact (IH _ _ _ E). }
  destruct (idx <? p); [|exact (A _ _ H)]. destruct (utf16le_decode (zslice idx p data)) as [t|e] eqn:ET; [|inversion H; constructor].
  destruct after as [out2 o2] eqn:E2. unfold gcons in H. cbn in H. inversion H; subst. constructor; [|exact (A _ _ eq_refl)].
  cbn. eapply bytes_le16; [|exact ET]. apply slice_bytes. exact HB.
Qed.

Lemma hex_bytes : forall n, is_byte n -> all_bytes (fmt_x 2 n).
Proof.
  intros n H. destruct (fmt_x_digits 2 n) as (ds & -> & _ & F & _); [unfold is_byte in H; lia|]. apply Forall_map. eapply Forall_impl; [|exact F].
  intros d D. unfold is_digit, is_byte, hexdigit_lower in *. destruct (d <? 10) eqn:E; lia.
Qed.
Lemma b2a_bytes : forall b, all_bytes b -> all_bytes (b2a_hex b).
Proof. intros b H. unfold b2a_hex. induction H as [|c b Hc _ IH]; cbn; [constructor|]. apply Forall_app. split; [apply hex_bytes; exact Hc|exact IH]. Qed.

Lemma prim_proper : forall p s r s', all_bytes (s_rest s) -> prim_value p s = (r, s') -> all_bytes (s_rest s') /\ forall v, r = Some (Ok v) -> proper v.
Proof.
  intros p s r s' HB E. destruct p; cbn [prim_value] in E.
  - destruct (readn (calcsize f) s) as [[b|e] t] eqn:ER; destruct (readn_bytes _ _ _ _ HB ER) as [B1 _]; inversion E; subst; (split; [exact B1|]); intros v EV; [|discriminate].
    destruct (struct_unpack f b) as [n|]; [|discriminate]. cbn in EV. inversion EV; subst. destruct f; constructor.
  - destruct (readn 4 s) as [[b|e] t] eqn:ER; destruct (readn_bytes _ _ _ _ HB ER) as [B1 B2]; inversion E; subst; (split; [exact B1|]); intros v EV; [|discriminate].
    specialize (B2 b eq_refl). unfold chid_decode in EV. destruct b as [|b0 [|b1 [|b2 [|b3 r']]]]; try discriminate. cbn in EV. inversion EV; subst. constructor. apply bytes_points.
    inversion B2 as [|? ? H0 G0]; subst. inversion G0 as [|? ? H1 G1]; subst. inversion G1 as [|? ? H2 G2]; subst. inversion G2 as [|? ? H3 G3]; subst. repeat (apply Forall_cons; [assumption|]); apply Forall_nil.
  - destruct (bstr_read s) as [[t|e] s1] eqn:EB.
    + unfold bstr_read, prim_read in EB. destruct (readn (calcsize UINT16) s) as [[b|e] s2] eqn:ER; destruct (readn_bytes _ _ _ _ HB ER) as [B1 _]; [|discriminate].
      destruct (struct_unpack UINT16 b) as [n|]; [|discriminate]. inversion E; subst. destruct (n =? 0).
      * inversion EB; subst. split; [exact B1|]. intros v EV. inversion EV; subst. constructor. constructor.
      * destruct (readn (2 * n) s2) as [[d|e] s3] eqn:ER2; destruct (readn_bytes _ _ _ _ B1 ER2) as [B3 B4]; [|discriminate].
        inversion EB; subst. split; [exact B3|]. intros v EV. inversion EV; subst. constructor. eapply bytes_le16; [apply B4; reflexivity|eassumption].
    + inversion E; subst. split; [|discriminate]. unfold bstr_read, prim_read in EB. destruct (readn (calcsize UINT16) s) as [[b|e'] s2] eqn:ER; destruct (readn_bytes _ _ _ _ HB ER) as [B1 _]; [|inversion EB; subst; exact B1].
      destruct (struct_unpack UINT16 b) as [n|]; [|inversion EB; subst; exact B1]. destruct (n =? 0); [discriminate|].
      destruct (readn (2 * n) s2) as [[d|e''] s3] eqn:ER2; destruct (readn_bytes _ _ _ _ B1 ER2) as [B3 B4]; inversion EB; subst; exact B3.
  - unfold para_text_read, stream_read_all in E. destruct (parse_chunks (s_rest s)) as [out [|e|]] eqn:EP; inversion E; subst; (split; [constructor|]); intros v EV; try discriminate.
    inversion EV; subst. constructor. eapply chunks_proper; eassumption.
  - destruct (readn n s) as [[b|e] t] eqn:ER; destruct (readn_bytes _ _ _ _ HB ER) as [B1 B2]; inversion E; subst; (split; [exact B1|]); intros v EV; inversion EV; subst. constructor. apply B2. reflexivity.
  - destruct (readn n s) as [[b|e] t] eqn:ER; destruct (readn_bytes _ _ _ _ HB ER) as [B1 B2]; inversion E; subst; (split; [exact B1|]); intros v EV; inversion EV; subst. constructor. apply b2a_bytes, B2. reflexivity.
  - destruct (readn 4 s) as [[b|e] t] eqn:ER; destruct (readn_bytes _ _ _ _ HB ER) as [B1 B2]; inversion E; subst; (split; [exact B1|]); intros v EV; [|discriminate].
    unfold version_decode in EV. destruct b as [|b0 [|b1 [|b2 [|b3 r']]]]; try discriminate. inversion EV; subst. repeat constructor.
Qed.

Section Run.
  Variable Ctx : Type.
  Definition oev_ok (e : oev Ctx) : Prop := forall v, oev_value Ctx e = Some v -> proper v.
  Definition state_ok (s : state Ctx) : Prop :=
    all_bytes (s_rest (st_stream Ctx s)) /\ Forall (fun iv => proper (snd iv)) (st_stack Ctx s) /\ Forall oev_ok (st_out Ctx s).
  Definition step_ok (r : step_res Ctx) : Prop :=
    match r with Next _ s => state_ok s | Stop _ out strm _ => Forall oev_ok out /\ all_bytes (s_rest strm) end.

  Lemma leaf_proper : forall t s, all_bytes (s_rest s) ->
    match read_leaf Ctx t s with
    | LeafOk v s' => proper v /\ all_bytes (s_rest s')
    | LeafError s' _ | LeafRaise s' _ => all_bytes (s_rest s')
    | LeafFuel => True
    end.
  Proof.
    intros t s HB. destruct t; cbn [read_leaf]; try exact HB.
    - destruct (prim_value p s) as [r s'] eqn:E. destruct (prim_proper p s r s' HB E) as [B V]. destruct r as [[v|e]|]; auto.
    - destruct (prim_value (PFmt base) s) as [r s'] eqn:E. destruct (prim_proper _ s r s' HB E) as [B V]. destruct r as [[v|e]|]; auto.
      destruct v; try exact B. split; [constructor|exact B].
  Qed.
  Lemma collect_proper : forall i v stack stack', proper v -> Forall (fun iv => proper (snd iv)) stack -> collect Ctx i v stack = Ok stack' -> Forall (fun iv => proper (snd iv)) stack'.
  Proof.
    intros i v stack stack' HV HS E. unfold collect in E. destruct HS as [|[pi pv] below HP HS]; [inversion E; constructor|]. cbn [snd] in HP.
    destruct (a_dontcollect Ctx (fst i)); [inversion E; subst; constructor; assumption|].
    destruct pv; try (inversion E; subst; constructor; assumption).
    - inversion E; subst. constructor; [|exact HS]. cbn. inversion HP; subst. constructor. apply Forall_app. split; [assumption|constructor; [exact HV|constructor]].
    - destruct (a_name Ctx (fst i)); inversion E; subst. constructor; [|exact HS]. cbn. apply proper_set; assumption.
  Qed.
  Lemma out_snoc : forall out e, Forall oev_ok out -> oev_ok e -> Forall oev_ok (out ++ [e]).
  Proof. intros out e H K. apply Forall_app. split; [exact H|constructor; [exact K|constructor]]. Qed.
  Lemma expand_ok : forall n a t rest s strm out, state_ok s -> all_bytes (s_rest strm) -> Forall oev_ok out -> step_ok (expand_array Ctx n a t rest s strm out).
  Proof.
    intros n a t rest s strm out (H1 & H2 & H3) HB HO. unfold expand_array. destruct (rev _); cbn; [split; assumption|]. repeat split; assumption.
  Qed.

  Lemma step_proper : forall c s, state_ok s -> step_ok (step Ctx c s).
  Proof.
    intros c s HS. pose proof HS as (HB & HK & HO). unfold step. destruct (st_events Ctx s) as [|e rest]; [split; assumption|].
    assert (ST : forall x, step_ok (stop Ctx s x)) by (intros x; split; assumption).
    assert (GEN : forall a t, (forall sel l, t <> TSel Ctx sel l) -> forall e,
      step_ok (match e with
            | BEnd _ _ =>
                match st_stack Ctx s with
                | [] => stop Ctx s IndexError
                | (i, v) :: below =>
                    let v' := match snd i, v with TFixed _ _ _, VList l => VTuple l | _, _ => v end in
                    match collect Ctx i v' below with
                    | Raise x => stop Ctx s x
                    | Ok stack' => Next Ctx (mkState Ctx rest stack' (st_select Ctx s) (st_stream Ctx s) (st_out Ctx s ++ [OEnd Ctx (a_name Ctx (fst i)) (snd i) v']))
                    end
                end
            | _ =>
                match a_when Ctx a with
                | Some k =>
                    match st_select Ctx s with
                    | [] => stop Ctx s IndexError
                    | key :: _ =>
                        if k =? key
                        then Next Ctx (mkState Ctx (bev_with Ctx e (without_when Ctx a, t) :: rest) (st_stack Ctx s) (st_select Ctx s) (st_stream Ctx s) (st_out Ctx s))
                        else Next Ctx (mkState Ctx (skip_tree Ctx e rest) (st_stack Ctx s) (st_select Ctx s) (st_stream Ctx s) (st_out Ctx s))
                    end
                | None =>
                    match a_cond Ctx a with
                    | Some cond =>
                        match st_stack Ctx s with
                        | [] => stop Ctx s IndexError
                        | (_, pv) :: _ =>
                            match cond c pv with
                            | Raise x => stop Ctx s x
                            | Ok true => Next Ctx (mkState Ctx (bev_with Ctx e (without_cond Ctx a, t) :: rest) (st_stack Ctx s) (st_select Ctx s) (st_stream Ctx s) (st_out Ctx s))
                            | Ok false => Next Ctx (mkState Ctx (skip_tree Ctx e rest) (st_stack Ctx s) (st_select Ctx s) (st_stream Ctx s) (st_out Ctx s))
                            end
                        end
                    | None =>
                        match t, a_count Ctx a with
                        | TX _ count _, None =>
                            match st_stack Ctx s with
                            | [] => stop Ctx s IndexError
                            | (_, pv) :: _ =>
                                match count c pv with
                                | Raise x => stop Ctx s x
                                | Ok n => expand_array Ctx n a t rest s (st_stream Ctx s) (st_out Ctx s)
                                end
                            end
                        | TVar _ counttype _, None =>
                            let pos := s_pos (st_stream Ctx s) in
                            match read_leaf Ctx (TPrim Ctx (PFmt counttype)) (st_stream Ctx s) with
                            | LeafOk v s' =>
                                let out := st_out Ctx s ++ [OLeaf Ctx None (TPrim Ctx (PFmt counttype)) pos v] in
                                match v with
                                | VInt n => expand_array Ctx n a t rest s s' out
                                | _ => Stop Ctx out s' (Failed TypeError)
                                end
                            | LeafError s' x =>
                                Stop Ctx (st_out Ctx s ++ [OError Ctx None (TPrim Ctx (PFmt counttype)) pos x]) s' (Failed (ParseError x pos))
                            | LeafRaise s' x => Stop Ctx (st_out Ctx s) s' (Failed x)
                            | LeafFuel => Stop Ctx (st_out Ctx s) (st_stream Ctx s) OutOfFuel
                            end
                        | TFixed _ _ n, None => expand_array Ctx n a t rest s (st_stream Ctx s) (st_out Ctx s)
                        | _, _ =>
                            match e with
                            | BStart _ i =>
                                Next Ctx (mkState Ctx rest ((i, match t with TStruct _ _ => VDict [] | _ => VList [] end) :: st_stack Ctx s)
                                        (st_select Ctx s) (st_stream Ctx s) (st_out Ctx s ++ [OStart Ctx (a_name Ctx a) t]))
                            | _ =>
                                let pos := s_pos (st_stream Ctx s) in
                                match read_leaf Ctx t (st_stream Ctx s) with
                                | LeafOk v s' =>
                                    match collect Ctx (a, t) v (st_stack Ctx s) with
                                    | Raise x => Stop Ctx (st_out Ctx s) s' (Failed x)
                                    | Ok stack' => Next Ctx (mkState Ctx rest stack' (st_select Ctx s) s' (st_out Ctx s ++ [OLeaf Ctx (a_name Ctx a) t pos v]))
                                    end
                                | LeafError s' x => Stop Ctx (st_out Ctx s ++ [OError Ctx (a_name Ctx a) t pos x]) s' (Failed (ParseError x pos))
                                | LeafRaise s' x => Stop Ctx (st_out Ctx s) s' (Failed x)
                                | LeafFuel => Stop Ctx (st_out Ctx s) (st_stream Ctx s) OutOfFuel
                                end
                            end
                        end
                    end
                end
            end)).
    { intros a t _ ev.
      assert (NX : forall evs sel, step_ok (Next Ctx (mkState Ctx evs (st_stack Ctx s) sel (st_stream Ctx s) (st_out Ctx s)))) by (intros; repeat split; assumption).
      assert (TAIL : forall (b : bool) i, step_ok
         (if b then Next Ctx (mkState Ctx rest ((i, match t with TStruct _ _ => VDict [] | _ => VList [] end) :: st_stack Ctx s)
                                        (st_select Ctx s) (st_stream Ctx s) (st_out Ctx s ++ [OStart Ctx (a_name Ctx a) t]))
          else let pos := s_pos (st_stream Ctx s) in
                                match read_leaf Ctx t (st_stream Ctx s) with
                                | LeafOk v s' =>
                                    match collect Ctx (a, t) v (st_stack Ctx s) with
                                    | Raise x => Stop Ctx (st_out Ctx s) s' (Failed x)
                                    | Ok stack' => Next Ctx (mkState Ctx rest stack' (st_select Ctx s) s' (st_out Ctx s ++ [OLeaf Ctx (a_name Ctx a) t pos v]))
                                    end
                                | LeafError s' x => Stop Ctx (st_out Ctx s ++ [OError Ctx (a_name Ctx a) t pos x]) s' (Failed (ParseError x pos))
                                | LeafRaise s' x => Stop Ctx (st_out Ctx s) s' (Failed x)
                                | LeafFuel => Stop Ctx (st_out Ctx s) (st_stream Ctx s) OutOfFuel
                                end)).
      { intros [|] i.
        - split; [exact HB|]. split; [|apply out_snoc; [exact HO|intros v E; discriminate]]. constructor; [|exact HK]. cbn. destruct t; repeat constructor.
        - cbv zeta. pose proof (leaf_proper t (st_stream Ctx s) HB) as L. destruct (read_leaf Ctx t (st_stream Ctx s)) as [v s'|s' x|s' x|].
          + destruct L as [L1 L2]. destruct (collect Ctx (a, t) v (st_stack Ctx s)) as [stack'|x] eqn:EC; [|split; assumption].
            split; [exact L2|]. split; [eapply collect_proper; eassumption|]. apply out_snoc; [exact HO|]. intros w E. inversion E; subst. exact L1.
          + split; [|exact L]. apply out_snoc; [exact HO|]. intros w E. discriminate.
          + split; assumption.
          + split; assumption. }
      assert (WC : forall X Y, step_ok X -> step_ok Y -> forall evB evF,
        step_ok (match a_when Ctx a with
                | Some k =>
                    match st_select Ctx s with
                    | [] => stop Ctx s IndexError
                    | key :: _ => if k =? key then Next Ctx (mkState Ctx evB (st_stack Ctx s) (st_select Ctx s) (st_stream Ctx s) (st_out Ctx s))
                        else Next Ctx (mkState Ctx evF (st_stack Ctx s) (st_select Ctx s) (st_stream Ctx s) (st_out Ctx s))
                    end
                | None => X end)) by (intros X Y HX HY evB evF; destruct (a_when Ctx a); [destruct (st_select Ctx s) as [|key ?]; [apply ST|destruct (_ =? key); apply NX]|exact HX]).
      assert (CC : forall X, step_ok X -> forall evB evF,
        step_ok (match a_cond Ctx a with
                    | Some cond =>
                        match st_stack Ctx s with
                        | [] => stop Ctx s IndexError
                        | (_, pv) :: _ =>
                            match cond c pv with
                            | Raise x => stop Ctx s x
                            | Ok true => Next Ctx (mkState Ctx evB (st_stack Ctx s) (st_select Ctx s) (st_stream Ctx s) (st_out Ctx s))
                            | Ok false => Next Ctx (mkState Ctx evF (st_stack Ctx s) (st_select Ctx s) (st_stream Ctx s) (st_out Ctx s))
                            end
                        end
                    | None => X end)) by (intros X HX evB evF; destruct (a_cond Ctx a); [destruct (st_stack Ctx s) as [|[? ?] ?]; [apply ST|destruct (_ c _) as [[|]|]; [apply NX|apply NX|apply ST]]|exact HX]).
      assert (AR : forall (i : Model_Bintype.item Ctx) (b : bool), step_ok (match t, a_count Ctx a with
                        | TX _ count _, None =>
                            match st_stack Ctx s with
                            | [] => stop Ctx s IndexError
                            | (_, pv) :: _ =>
                                match count c pv with
                                | Raise x => stop Ctx s x
                                | Ok n => expand_array Ctx n a t rest s (st_stream Ctx s) (st_out Ctx s)
                                end
                            end
                        | TVar _ counttype _, None =>
                            let pos := s_pos (st_stream Ctx s) in
                            match read_leaf Ctx (TPrim Ctx (PFmt counttype)) (st_stream Ctx s) with
                            | LeafOk v s' =>
                                let out := st_out Ctx s ++ [OLeaf Ctx None (TPrim Ctx (PFmt counttype)) pos v] in
                                match v with
                                | VInt n => expand_array Ctx n a t rest s s' out
                                | _ => Stop Ctx out s' (Failed TypeError)
                                end
                            | LeafError s' x =>
                                Stop Ctx (st_out Ctx s ++ [OError Ctx None (TPrim Ctx (PFmt counttype)) pos x]) s' (Failed (ParseError x pos))
                            | LeafRaise s' x => Stop Ctx (st_out Ctx s) s' (Failed x)
                            | LeafFuel => Stop Ctx (st_out Ctx s) (st_stream Ctx s) OutOfFuel
                            end
                        | TFixed _ _ n, None => expand_array Ctx n a t rest s (st_stream Ctx s) (st_out Ctx s)
                        | _, _ => if b then Next Ctx (mkState Ctx rest ((i, match t with TStruct _ _ => VDict [] | _ => VList [] end) :: st_stack Ctx s)
                                        (st_select Ctx s) (st_stream Ctx s) (st_out Ctx s ++ [OStart Ctx (a_name Ctx a) t]))
          else let pos := s_pos (st_stream Ctx s) in
                                match read_leaf Ctx t (st_stream Ctx s) with
                                | LeafOk v s' =>
                                    match collect Ctx (a, t) v (st_stack Ctx s) with
                                    | Raise x => Stop Ctx (st_out Ctx s) s' (Failed x)
                                    | Ok stack' => Next Ctx (mkState Ctx rest stack' (st_select Ctx s) s' (st_out Ctx s ++ [OLeaf Ctx (a_name Ctx a) t pos v]))
                                    end
                                | LeafError s' x => Stop Ctx (st_out Ctx s ++ [OError Ctx (a_name Ctx a) t pos x]) s' (Failed (ParseError x pos))
                                | LeafRaise s' x => Stop Ctx (st_out Ctx s) s' (Failed x)
                                | LeafFuel => Stop Ctx (st_out Ctx s) (st_stream Ctx s) OutOfFuel
                                end
                        end)).
      { intros i b. destruct (a_count Ctx a); [destruct t; apply (TAIL b i)|]. destruct t; try apply (TAIL b i).
        - apply expand_ok; assumption.
        - cbv zeta. pose proof (leaf_proper (TPrim Ctx (PFmt counttype)) (st_stream Ctx s) HB) as L.
          destruct (read_leaf Ctx (TPrim Ctx (PFmt counttype)) (st_stream Ctx s)) as [v s'|s' x|s' x|].
          + destruct L as [L1 L2]. assert (O : Forall oev_ok (st_out Ctx s ++ [OLeaf Ctx None (TPrim Ctx (PFmt counttype)) (s_pos (st_stream Ctx s)) v])) by (apply out_snoc; [exact HO|intros w E; inversion E; subst; exact L1]).
            destruct v; try (split; assumption). apply expand_ok; assumption.
          + split; [|exact L]. apply out_snoc; [exact HO|]. intros w E. discriminate.
          + split; assumption.
          + split; assumption.
        - destruct (st_stack Ctx s) as [|[? pv] ?] eqn:ES; [apply ST|]. destruct (count c pv); [|apply ST]. apply expand_ok; [exact HS|exact HB|exact HO]. }
      destruct ev as [i|i|i].
      - apply (WC _ (stop Ctx s IndexError) (CC _ (AR i true) _ _) (ST _)).
      - destruct (st_stack Ctx s) as [|[j v] below] eqn:ES; [apply ST|]. cbv zeta. inversion HK as [|? ? P1 P2]; subst. cbn [snd] in P1.
        set (v' := match snd j, v with TFixed _ _ _, VList l => VTuple l | _, _ => v end).
        assert (P : proper v') by (unfold v'; destruct (snd j); try exact P1; destruct v; try exact P1; inversion P1; subst; constructor; assumption).
        destruct (collect Ctx j v' below) as [stack'|x] eqn:EC; [|apply ST]. split; [exact HB|]. split; [eapply collect_proper; eassumption|].
        apply out_snoc; [exact HO|]. intros w E. inversion E; subst. exact P.
      - apply (WC _ (stop Ctx s IndexError) (CC _ (AR i false) _ _) (ST _)). }
    destruct (bev_item Ctx e) as [a t]. pose proof (fun H => GEN a t H e) as G. clear GEN. destruct t; try (apply G; intros; discriminate).
    clear G. destruct e; [|destruct (st_select Ctx s); [apply ST|repeat split; assumption]|apply ST].
    destruct (st_stack Ctx s) as [|[? pv] ?] eqn:ES; [apply ST|]. destruct (selector c pv); [|apply ST]. repeat split; assumption.
  Qed.

  Lemma run_proper : forall fuel c s out s' o, state_ok s -> run Ctx fuel c s = (out, s', o) -> Forall oev_ok out /\ all_bytes (s_rest s').
  Proof.
    induction fuel as [|fuel IH]; intros c s out s' o HS E; cbn [run] in E; [inversion E; subst; destruct HS as (? & ? & ?); auto|].
    pose proof (step_proper c s HS) as SP. destruct (step Ctx c s) as [s1|out1 strm1 o1]; [exact (IH _ _ _ _ _ SP E)|]. inversion E; subst. exact SP.
  Qed.
End Run.

Lemma class_proper : forall fuel c parent version s out s' d, all_bytes (s_rest s) -> read_class fuel c parent version s = (out, s', Some (Ok d)) ->
  proper (VDict d) /\ all_bytes (s_rest s').
Proof.
  intros fuel c parent version s out s' d HB E. unfold read_class in E.
  destruct (read_type_events node fuel (class_type c) parent (Some version) s) as [[out1 s1] o] eqn:ER. unfold read_type_events in ER.
  eapply run_proper in ER as [F B]; [|exact (conj HB (conj (Forall_nil _) (Forall_nil _)))].
  destruct o; try discriminate. inversion E as [[E1 E2 E3]]; subst. split; [|exact B].
  destruct (rev out) as [|ev r] eqn:EV; [discriminate|]. assert (I : In ev out) by (apply in_rev; rewrite EV; left; reflexivity).
  rewrite Forall_forall in F. specialize (F ev I). destruct (oev_value node ev) as [v|] eqn:EO; [|discriminate]. destruct v; inversion E3; subst. apply F. exact EO.
Qed.
Lemma update_proper : forall e d, proper (VDict e) -> proper (VDict d) -> proper (VDict (dict_update d e)).
Proof.
  intros e d HE. inversion HE as [| | | | | | | |? F _]; subst. clear HE. revert d. induction F as [|[k v] e Hv _ IH]; intros d HD; [exact HD|]. apply IH. apply proper_set; assumption.
Qed.
Lemma extension_proper : forall fuel version parent cs content evs s out s' d, all_bytes (s_rest s) -> proper (VDict content) ->
  read_extension fuel cs parent version content evs s = (out, s', Some (Ok d)) -> proper (VDict d) /\ all_bytes (s_rest s').
Proof.
  intros fuel version parent. induction cs as [|c cs IH]; intros content evs s out s' d HB HP E; cbn [read_extension] in E.
  - inversion E; subst. auto.
  - destruct (read_class fuel c parent version s) as [[o1 s1] [[d1|e]|]] eqn:EC; [|discriminate|discriminate].
    destruct (class_proper _ _ _ _ _ _ _ _ HB EC) as [P1 B1]. eapply IH; [exact B1| |exact E]. apply update_proper; assumption.
Qed.
Lemma model_proper : forall fuel version parent tagid payload m, all_bytes payload -> parse_model fuel version parent tagid payload = Some (Ok m) ->
  proper (VDict (m_content m)) /\ all_bytes (m_unparsed m).
Proof.
  intros fuel version parent tagid payload m HB E. unfold parse_model in E.
  destruct (read_class fuel (model_type tagid) parent version (open_bytes payload)) as [[evs s] [[d|e]|]] eqn:EC; [|discriminate|discriminate].
  destruct (class_proper _ _ _ _ (open_bytes payload) _ _ _ HB EC) as [P B]. destruct (extension_of _ parent d) as [[ext|]|e]; [|inversion E; subst; auto|discriminate].
  destruct (read_extension _ _ _ _ _ _ _) as [[evs' s'] [[d'|e]|]] eqn:EX; [|discriminate|discriminate]. inversion E; subst. cbn.
  exact (extension_proper _ _ _ _ _ _ _ _ _ _ B P EX).
Qed.

Lemma models_proper : forall fuel version records base stack o out o', Forall (fun r => all_bytes (r_payload r)) records ->
  parse_models_loop fuel version base stack records o = (out, o') ->
  Forall (fun rm : record * model => In (fst rm) records /\ proper (VDict (m_content (snd rm))) /\ all_bytes (m_unparsed (snd rm))) out.
Proof.
  intros fuel version. induction records as [|r rest IH]; intros base stack o out o' HB E; cbn [parse_models_loop] in E; [inversion E; constructor|].
  inversion HB as [|? ? B1 B2]; subst.
  destruct (pop_to _ stack) as [l [stack'|e]]; [|inversion E; constructor]. destruct (check_level _ stack'); [inversion E; constructor|].
  destruct stack' as [|parent above]; [inversion E; constructor|].
  destruct (parse_model fuel version parent (r_tagid r) (r_payload r)) as [[m|e]|] eqn:EM; [|inversion E; constructor|inversion E; constructor].
  match type of E with gcons _ ?g = _ => destruct g as [out2 o2] eqn:E2 end. unfold gcons in E. cbn in E. inversion E; subst. constructor.
  - cbn. split; [left; reflexivity|]. exact (model_proper _ _ _ _ _ _ B1 EM).
  - eapply Forall_impl; [|exact (IH _ _ _ _ _ B2 E2)]. intros rm (I & K). split; [right; exact I|exact K].
Qed.
Lemma chain_proper : forall fuel version gs o out o', Forall (Forall (fun r => all_bytes (r_payload r))) gs -> chain_models fuel version gs o = (out, o') ->
  Forall (fun rm : record * model => In (fst rm) (concat gs) /\ proper (VDict (m_content (snd rm))) /\ all_bytes (m_unparsed (snd rm))) out.
Proof.
  intros fuel version. induction gs as [|g gs IH]; intros o out o' HB E; cbn [chain_models] in E; [inversion E; constructor|]. inversion HB as [|? ? B1 B2]; subst.
  destruct (parse_models fuel version (g, Finished)) as [out1 o1] eqn:E1. pose proof (models_proper _ _ _ _ _ _ _ _ B1 E1) as M1.
  assert (M1' : Forall (fun rm : record * model => In (fst rm) (concat (g :: gs)) /\ proper (VDict (m_content (snd rm))) /\ all_bytes (m_unparsed (snd rm))) out1).
  { eapply Forall_impl; [|exact M1]. intros rm (I & K). split; [cbn; apply in_or_app; left; exact I|exact K]. }
  destruct o1; try (inversion E; subst; exact M1'). destruct (chain_models fuel version gs o) as [out2 o2] eqn:E2. unfold gapp in E. cbn in E. inversion E; subst.
  apply Forall_app. split; [exact M1'|]. eapply Forall_impl; [|exact (IH _ _ _ B2 E2)]. intros rm (I & K). split; [cbn; apply in_or_app; right; exact I|exact K].
Qed.

(** ** What is read can be encoded *)

Fixpoint value_ind' (P : value -> Prop) (Hi : forall n, P (VInt n)) (Hf : forall g n, P (VFlags g n)) (Hd : forall b, P (VDouble b)) (Ht : forall t, P (VText t)) (Hb : forall b, P (VBytes b))
    (Hc : forall l, P (VChunks l)) (Htup : forall l, Forall P l -> P (VTuple l)) (Hl : forall l, Forall P l -> P (VList l))
    (Hdict : forall d, Forall (fun kv => P (snd kv)) d -> P (VDict d)) (v : value) {struct v} : P v :=
  let rec := value_ind' P Hi Hf Hd Ht Hb Hc Htup Hl Hdict in
  let go := fix go (l : list value) : Forall P l := match l with [] => Forall_nil _ | x :: r => Forall_cons _ (rec x) (go r) end in
  match v with
  | VInt n => Hi n
  | VFlags g n => Hf g n
  | VDouble b => Hd b
  | VText t => Ht t
  | VBytes b => Hb b
  | VChunks l => Hc l
  | VTuple l => Htup l (go l)
  | VList l => Hl l (go l)
  | VDict d => Hdict d ((fix god (d : list (string * value)) : Forall (fun kv => P (snd kv)) d :=
      match d with [] => Forall_nil _ | (k, x) :: r => Forall_cons (k, x) (rec x) (god r) end) d)
  end.

Lemma zs_bytes : forall s, all_bytes (zs s).
Proof.
  induction s as [|c s IH]; [constructor|]. constructor; [|exact IH]. unfold is_byte. pose proof (Ascii.N_ascii_bounded c). lia.
Qed.
Lemma fmt_bytes : forall n, all_bytes (fmt_d n).
Proof.
  intros n. pose proof (integer_chars _ _ (integer_written n)) as H. rewrite forallb_forall in H. apply Forall_forall. intros c I. specialize (H c I).
  unfold number_char, is_dec, is_byte in *. lia.
Qed.
Lemma tagname_bytes : forall t, all_bytes (tagname t).
Proof. intros t. unfold tagname. destruct (zdict_get t tagnames); [apply zs_bytes|]. apply Forall_app. split; [apply zs_bytes|apply fmt_bytes]. Qed.

Lemma hexval_byte : forall c d, hexval c = Some d -> is_byte c.
Proof. intros c d. unfold hexval, is_byte. destruct (_ && _) eqn:E; [lia|]. destruct ((97 <=? c) && _) eqn:E2; [lia|discriminate]. Qed.
Lemma hex_line_bytes : forall n l c, (List.length l <= n)%nat -> parse_hex_line l = Some c -> all_bytes l.
Proof.
  induction n as [|n IH]; intros l c L E; [destruct l; [constructor|cbn in L; lia]|]. destruct l as [|a [|b rest]]; [constructor|discriminate|]. cbn [parse_hex_line] in E.
  destruct (hexval a) as [x|] eqn:EA; [|discriminate]. destruct (hexval b) as [y|] eqn:EB; [|discriminate].
  constructor; [exact (hexval_byte _ _ EA)|]. constructor; [exact (hexval_byte _ _ EB)|]. destruct rest as [|sep rest']; [constructor|].
  destruct (parse_hex_line rest') as [bs|] eqn:EP; [|discriminate]. destruct (sep =? 32) eqn:ES; [|discriminate]. constructor; [unfold is_byte; lia|]. eapply IH; [|exact EP]. cbn in L. lia.
Qed.
Lemma dump_lines : forall b, all_bytes b -> Forall all_bytes (fst (dumpbytes b false)).
Proof.
  intros b H. destruct (hexdump_plain b H) as (chunks & _ & E & _). revert chunks E. induction (fst (dumpbytes b false)) as [|l ls IH]; intros chunks E; [constructor|].
  destruct chunks as [|c chunks]; [discriminate|]. cbn in E. inversion E as [[E1 E2]]. constructor; [exact (hex_line_bytes _ _ _ (le_n _) E1)|exact (IH _ E2)].
Qed.
Lemma dump_encodable : forall b, all_bytes b -> encodable (json_dump b).
Proof. intros b H. constructor. apply Forall_map. eapply Forall_impl; [|exact (dump_lines b H)]. intros l K. constructor. apply bytes_points. exact K. Qed.

Lemma zs_keys : forall (d : list (string * value)), NoDup (map fst d) -> NoDup (map (fun kv => zs (fst kv)) d).
Proof.
  intros d H. induction d as [|[k v] d IH]; [constructor|]. cbn in *. inversion H as [|? ? N K]; subst. constructor; [|exact (IH K)].
  intros I. apply in_map_iff in I as ([k' v'] & E & I). apply zs_inj in E. cbn in E. subst k'. apply N. apply in_map_iff. exists (k, v'). auto.
Qed.

Ltac keys := repeat (apply NoDup_cons; [cbn; intros N; repeat destruct N as [N|N]; (discriminate || exact N)|]); apply NoDup_nil.
Lemma chunk_encodable : forall x, proper_chunk x -> encodable (json_chunk x).
Proof.
  intros [[a b] [t|c]] H; unfold json_chunk; cbn [fst snd].
  - repeat constructor. exact H.
  - constructor. constructor; [repeat constructor|]. constructor; [|constructor]. destruct c as [code|code w u0 u1 u2|code chid param]; cbn in H; unfold json_control.
    + constructor; [|keys]. apply Forall_cons; [split; [apply zs_bytes|apply en_int]|apply Forall_nil].
    + constructor; [|keys]. constructor; [split; [apply zs_bytes|constructor]|]. constructor; [|constructor]. split; [apply zs_bytes|].
      constructor; [|keys]. repeat (apply Forall_cons; [split; [apply zs_bytes|]|]); try apply Forall_nil; try apply en_int. apply en_bytes. exact H.
    + destruct H as [H1 H2]. constructor; [|keys]. repeat (apply Forall_cons; [split; [apply zs_bytes|]|]); try apply Forall_nil; try apply en_int; [apply en_str, bytes_points; exact H1|apply en_bytes; exact H2].
Qed.

Theorem value_encodable : forall v, proper v -> all_finite v -> encodable (json_value_of v).
Proof.
  apply (value_ind' (fun v => proper v -> all_finite v -> encodable (json_value_of v))); cbn [json_value_of].
  - constructor.
  - constructor.
  - intros b _ H. inversion H; subst. constructor. assumption.
  - intros t H _. inversion H; subst. constructor. assumption.
  - intros b H _. inversion H; subst. constructor. assumption.
  - intros l H _. inversion H; subst. constructor. apply Forall_map. eapply Forall_impl; [|eassumption]. exact chunk_encodable.
  - intros l IH HP HF. inversion HP; subst. inversion HF; subst. constructor. apply Forall_map. rewrite Forall_forall in *. auto.
  - intros l IH HP HF. inversion HP; subst. inversion HF; subst. constructor. apply Forall_map. rewrite Forall_forall in *. auto.
  - intros d IH HP HF. inversion HP; subst. inversion HF; subst. constructor.
    + apply Forall_map. rewrite Forall_forall in *. intros kv I. cbn. split; [apply zs_bytes|auto].
    + rewrite map_map. cbn. apply zs_keys. assumption.
Qed.

(** ** What the JSON value of it is *)

Lemma before_irrefl : forall a, ~ before a a.
Proof. induction a as [|x a IH]; cbn; [auto|]. intros [H|[_ H]]; [lia|exact (IH H)]. Qed.
Lemma sorted_unique : forall {A} (l l' : list (list Z * A)), ascending (map fst l) -> ascending (map fst l') -> Permutation l l' -> l = l'.
Proof.
  intros A. induction l as [|x l IH]; intros l' S S' P; [apply Permutation_nil in P; subst; reflexivity|]. destruct l' as [|y l']; [apply Permutation_sym, Permutation_nil in P; discriminate|].
  cbn in S, S'. apply StronglySorted_inv in S as [S F], S' as [S' F']. rewrite Forall_forall in F, F'.
  assert (x = y) as <-.
  { pose proof (Permutation_in x P (or_introl eq_refl)) as [->|I]; [reflexivity|]. pose proof (Permutation_in y (Permutation_sym P) (or_introl eq_refl)) as [->|J]; [reflexivity|].
    exfalso. apply (before_irrefl (fst x)). eapply before_trans; [apply F; apply in_map; exact J|apply F'; apply in_map; exact I]. }
  f_equal. apply IH; [exact S|exact S'|]. apply Permutation_cons_inv in P. exact P.
Qed.

Section Means.
  Variable float_repr : Z -> list Z.
  Notation means := (means float_repr).
  Notation says := (Spec_Json.says float_repr).

  Lemma dict_means : forall d j, NoDup (map fst d) -> means (JDict d) j -> exists ms, j = JO ms /\ Forall2 (fun kv m => fst m = fst kv /\ means (snd kv) (snd m)) (sort_items d) ms.
  Proof.
    intros d j N H. inversion H as [| | | | |? d' ms P F S]; subst. exists ms. split; [reflexivity|].
    assert (NM : map fst ms = map fst d') by (clear -F; induction F as [|x m l ms [E _] _ IH]; [reflexivity|cbn; rewrite E, IH; reflexivity]).
    assert (sort_items d = d') as ->; [|exact F]. apply sorted_unique; [apply sort_sorted; exact N|rewrite <- NM; exact S|].
    eapply Permutation_trans; [apply Permutation_sym, sort_perm|exact P].
  Qed.
  Lemma str_means : forall t j, means (JStr t) j -> j = JS (utf16_units t).
  Proof. intros t j H. inversion H. reflexivity. Qed.
  Lemma str_bytes_means : forall t j, all_bytes t -> means (JStr t) j -> j = JS t.
  Proof. intros t j B H. apply str_means in H as ->. rewrite bytes_units; [reflexivity|]. apply bytes_small. exact B. Qed.
  Lemma int_means : forall n j, means (JInt n) j -> j = JN n.
  Proof. intros n j H. inversion H. reflexivity. Qed.
  Lemma bytes_means : forall b j, means (JBytes b) j -> j = JS b.
  Proof. intros n j H. inversion H. reflexivity. Qed.

  Lemma dump_means : forall b j, all_bytes b -> means (json_dump b) j -> dump_says b j.
  Proof.
    intros b j B H. unfold json_dump in H. destruct (hexdump_plain b B) as (chunks & _ & E & C & _). exists (fst (dumpbytes b false)), chunks. split; [|auto].
    pose proof (dump_lines b B) as L. set (lines := fst (dumpbytes b false)) in *. clearbody lines. clear E C. inversion H as [| | | |? js F|]; subst. f_equal. clear H. revert js F. induction L as [|l ls Hl L IH]; intros js F; cbn [map] in F; inversion F as [|? j ? js' F1 F2]; subst; [reflexivity|]. cbn.
    rewrite (str_bytes_means l j Hl F1), (IH _ F2). reflexivity.
  Qed.

  Ltac fields :=
    repeat match goal with
    | H : Forall2 _ (_ :: _) _ |- _ => let k := fresh "k" in let m := fresh "m" in let ms := fresh "ms" in let E := fresh "E" in let M := fresh "M" in let F := fresh "F" in
        inversion H as [|? [k m] ? ms [E M] F]; clear H; subst; cbn [fst snd] in E, M; subst k
    | H : Forall2 _ [] _ |- _ => inversion H; clear H; subst
    end;
    repeat match goal with
    | H : means (JInt _) _ |- _ => apply int_means in H; subst
    | H : means (JBytes _) _ |- _ => apply bytes_means in H; subst
    end.

  Lemma control_means : forall r c j, proper_chunk (r, ChCtl c) -> means (json_control c) j -> exists ms, control_says c ms /\ j = JO (map (fun kv => (zs (fst kv), snd kv)) ms).
  Proof.
    intros r c j P H. destruct c as [code|code w u0 u1 u2|code chid param]; cbn in P; unfold json_control in H; apply dict_means in H as (ms & -> & F); try keys.
    - cbn in F. fields. exists [("code"%string, JN code)]. split; [constructor|reflexivity].
    - cbn in F. fields. match goal with M : means (JDict _) ?x |- _ => apply dict_means in M as (ms & -> & F); [|keys] end. cbn in F. fields.
      eexists. split; [constructor|reflexivity].
    - cbn in F. fields. destruct P as [P1 P2]. match goal with M : means (JStr _) ?x |- _ => apply str_bytes_means in M; [|exact P1]; subst end. eexists. split; [constructor|reflexivity].
  Qed.
  Lemma chunk_means : forall x j, proper_chunk x -> means (json_chunk x) j -> chunk_says x j.
  Proof.
    intros [[a b] c] j P H. unfold json_chunk in H. cbn [fst snd] in H. inversion H as [| | | |? js F|]; subst. inversion F as [|? j1 ? js1 F1 F2]; subst. inversion F2 as [|? j2 ? js2 F3 F4]; subst.
    inversion F4; subst. inversion F1 as [| | | |? js G|]; subst. inversion G as [|? k1 ? ks1 G1 G2]; subst. inversion G2 as [|? k2 ? ks2 G3 G4]; subst. inversion G4; subst.
    apply int_means in G1, G3. subst. destruct c as [t|c].
    - apply str_means in F3. subst. constructor.
    - destruct (control_means _ c j2 P F3) as (ms & S & ->). constructor. exact S.
  Qed.
  Lemma list_means : forall (l : list value) js, Forall (fun v => forall j, proper v -> means (json_value_of v) j -> says v j) l -> Forall proper l ->
    Forall2 means (map json_value_of l) js -> Forall2 says l js.
  Proof.
    intros l js IH. revert js. induction IH as [|v l Hv _ IHl]; intros js P F; inversion F as [|? j ? js' F1 F2]; subst; [constructor|]. inversion P; subst. constructor; auto.
  Qed.

  Theorem value_means : forall v j, proper v -> means (json_value_of v) j -> says v j.
  Proof.
    apply (value_ind' (fun v => forall j, proper v -> means (json_value_of v) j -> says v j)); cbn [json_value_of].
    - intros n j _ H. apply int_means in H. subst. constructor.
    - intros g n j _ H. apply int_means in H. subst. constructor.
    - intros b j _ H. inversion H; subst. constructor; assumption.
    - intros t j _ H. apply str_means in H. subst. constructor.
    - intros b j _ H. apply bytes_means in H. subst. constructor.
    - intros l j P H. inversion P as [| | | | |? PF| | |]; subst. inversion H as [| | | |? js F|]; subst. constructor. clear P H. revert js F.
      induction PF as [|x l Hx _ IH]; intros js F; inversion F as [|? j ? js' F1 F2]; subst; constructor; [apply chunk_means; assumption|exact (IH _ F2)].
    - intros l IH j P H. inversion P; subst. inversion H as [| | | |? js F|]; subst. constructor. apply list_means; assumption.
    - intros l IH j P H. inversion P; subst. inversion H as [| | | |? js F|]; subst. constructor. apply list_means; assumption.
    - intros d IH j P H. inversion P as [| | | | | | | |? PF N]; subst. inversion H as [| | | | |? d' ms PM F S]; subst.
      apply Permutation_sym, Permutation_map_inv in PM as (d3 & -> & PM). apply sy_dict with (d' := d3); [exact PM| |exact S].
      assert (Q : Forall (fun kv => proper (snd kv) /\ forall j, proper (snd kv) -> means (json_value_of (snd kv)) j -> says (snd kv) j) d3).
      { rewrite Forall_forall in *. intros kv I. apply (Permutation_in kv (Permutation_sym PM)) in I. split; [apply (PF kv I)|apply (IH kv I)]. }
      clear -Q F. revert ms F. induction Q as [|[k v] d [Q1 Q2] _ IH]; intros ms F; inversion F as [|? [us w] ? ms' [E M] F2]; subst; constructor; [|exact (IH _ F2)].
      cbn in *. split; [exact E|auto].
  Qed.

  (** ** Records and models *)

  Definition readable (r : record) : Prop := all_bytes (r_payload r) /\ r_tagname r = tagname (r_tagid r) /\ exists n, r_seqno r = Some n.

  Definition record_json (r : record) : pyjson := JDict (record_items r (json_dump (r_payload r))).
  Definition model_json (rm : record * model) : pyjson :=
    JDict (record_items (fst rm) (json_dump (r_payload (fst rm))) ++
      [(zs "type", JStr (zs (m_type (snd rm)))); (zs "content", json_value_of (VDict (m_content (snd rm))))] ++
      match m_unparsed (snd rm) with [] => [] | u => [(zs "unparsed", json_dump u)] end).

  Ltac entries := repeat (apply Forall_cons; [split; [apply zs_bytes|]|]); try apply Forall_nil; try apply en_int.
  Lemma record_encodable : forall r, readable r -> encodable (record_json r).
  Proof.
    intros r (B & T & n & S). unfold record_json, record_items. rewrite S, T. cbn [app]. constructor; [|keys]. entries; [apply en_str, bytes_points, tagname_bytes|apply dump_encodable; exact B].
  Qed.
  Lemma model_encodable : forall rm, readable (fst rm) -> proper (VDict (m_content (snd rm))) -> all_bytes (m_unparsed (snd rm)) -> all_finite (VDict (m_content (snd rm))) -> encodable (model_json rm).
  Proof.
    intros [r m] (B & T & n & S) P U F. unfold model_json, record_items. cbn [fst snd] in *. rewrite S, T. destruct (m_unparsed m) as [|u us]; cbn [app].
    - constructor; [|keys]. entries; [apply en_str, bytes_points, tagname_bytes|apply dump_encodable; exact B|apply en_str, bytes_points, zs_bytes|apply value_encodable; assumption].
    - constructor; [|keys]. entries; [apply en_str, bytes_points, tagname_bytes|apply dump_encodable; exact B|apply en_str, bytes_points, zs_bytes|apply value_encodable; assumption|apply dump_encodable; exact U].
  Qed.
  Lemma record_means : forall r j, readable r -> means (record_json r) j -> exists n, r_seqno r = Some n /\ record_says r n j.
  Proof.
    intros r j (B & T & n & S) H. exists n. split; [exact S|]. unfold record_json, record_items in H. rewrite S in H. cbn [app] in H.
    remember (json_dump (r_payload r)) as pay eqn:EP. apply dict_means in H as (ms & -> & F); [|keys].
    cbn in F. fields. match goal with M : means (JStr _) ?x |- _ => apply str_bytes_means in M; [|rewrite T; apply tagname_bytes]; subst end.
    match goal with M : means (json_dump _) ?x |- _ => apply (dump_means _ _ B) in M; exists x end. split; [assumption|]. reflexivity.
  Qed.
  Lemma model_means : forall rm j, readable (fst rm) -> proper (VDict (m_content (snd rm))) -> all_bytes (m_unparsed (snd rm)) -> means (model_json rm) j ->
    exists n, r_seqno (fst rm) = Some n /\ model_says float_repr rm n j.
  Proof.
    intros [r m] j (B & T & n & S) P U H. exists n. split; [exact S|]. unfold model_json, record_items in H. cbn [fst snd] in *. rewrite S in H. remember (json_value_of (VDict (m_content m))) as content eqn:EC.
    remember (json_dump (r_payload r)) as pay eqn:EP.
    destruct (m_unparsed m) as [|u us] eqn:EU; cbn [app] in H.
    - apply dict_means in H as (ms & -> & F); [|keys]. cbn in F. fields.
      match goal with M : means (JStr (r_tagname r)) _ |- _ => apply str_bytes_means in M; [|rewrite T; apply tagname_bytes]; subst end.
      match goal with M : means (JStr (zs (m_type m))) _ |- _ => apply str_bytes_means in M; [|apply zs_bytes]; subst end.
      match goal with M1 : means (json_dump (r_payload r)) ?x, M2 : means (json_value_of _) ?y |- _ => exists x, y, []; apply (dump_means _ _ B) in M1; apply (value_means _ _ P) in M2 end.
      repeat (split; [assumption|]). split; [left; auto|]. reflexivity.
    - remember (json_dump (u :: us)) as ud eqn:EUD. apply dict_means in H as (ms & -> & F); [|keys]. cbn in F. fields.
      match goal with M : means (JStr (r_tagname r)) _ |- _ => apply str_bytes_means in M; [|rewrite T; apply tagname_bytes]; subst end.
      match goal with M : means (JStr (zs (m_type m))) _ |- _ => apply str_bytes_means in M; [|apply zs_bytes]; subst end.
      match goal with M1 : means (json_dump (r_payload r)) ?x, M2 : means (json_value_of _) ?y, M3 : means (json_dump (u :: us)) ?z |- _ =>
        exists x, y, [(zs "unparsed", z)]; apply (dump_means _ _ B) in M1; apply (value_means _ _ P) in M2; apply (dump_means _ _ U) in M3 end.
      repeat (split; [assumption|]). split; [right; split; [rewrite EU; discriminate|rewrite EU; eauto]|]. reflexivity.
  Qed.

  Hypothesis float_ok : forall bits, finite bits -> exists j, number_says (float_repr bits) j.

  (** The array. *)
  Lemma loop_reads : forall A (enc : A -> pyjson) xs js rest, Forall2 (fun x j => written float_repr (enc x) j) xs js -> forall x j, written float_repr (enc x) j ->
    reads_items (NEWLINE :: json_dumps float_repr (enc x) ++ concat (json_array_loop false (map (fun x => json_dumps float_repr (enc x)) xs)) ++ NEWLINE :: RBRACKET :: rest) (j :: js) rest.
  Proof.
    intros A enc xs js rest H. induction H as [|y k xs js Hy _ IH]; intros x j [_ W]; cbn [map json_array_loop concat app].
    - pose proof (W 0 (NEWLINE :: RBRACKET :: rest) eq_refl) as R. eapply ri_last with (r := NEWLINE :: RBRACKET :: rest); [|reflexivity]. cbn [skip]. replace (ws NEWLINE) with true by reflexivity.
      unfold json_dumps. rewrite (reads_starts _ _ _ R). exact R.
    - rewrite <- !app_assoc.
      match goal with |- reads_items (_ :: _ ++ COMMA :: ?z) _ _ => pose proof (W 0 (COMMA :: z) eq_refl) as R; eapply ri_more with (r := COMMA :: z); [|reflexivity|exact (IH y k Hy)] end.
       cbn [skip]. replace (ws NEWLINE) with true by reflexivity. unfold json_dumps in *. rewrite (reads_starts _ _ _ R). exact R.
  Qed.

  Lemma map_gen_ok : forall A (f : A -> list Z) l o, map_gen (fun x => Ok (f x)) l o = (map f l, o).
  Proof. intros A f l o. induction l as [|x l IH]; [reflexivity|]. cbn [map_gen map]. rewrite IH. reflexivity. Qed.

  Lemma array_written : forall A (enc : A -> pyjson) xs, xs <> [] -> Forall (fun x => encodable (enc x)) xs ->
    exists chunks js, json_objects_generate (fun x => Ok (json_dumps float_repr (enc x))) (xs, Finished) = (chunks, Finished) /\
      is_json (concat chunks) (JA js) /\ Forall2 (fun x j => means (enc x) j) xs js.
  Proof.
    intros A enc xs N E.
    assert (W : exists js, Forall2 (fun x j => written float_repr (enc x) j) xs js).
    { clear N. induction E as [|x xs Hx _ [js IH]]; [exists []; constructor|]. destruct (encode_written float_repr float_ok (enc x) Hx) as [j J]. exists (j :: js). constructor; assumption. }
    destruct W as [js W]. unfold json_objects_generate, generate_json_array. cbn [fst snd]. rewrite map_gen_ok. cbn [fst snd].
    eexists. exists js. split; [reflexivity|]. split.
    - inversion W as [|x j xs' js' Hx W']; subst; [congruence|]. exists []. split; [|reflexivity]. cbn [map json_array_loop concat app]. rewrite concat_app. cbn [concat app skip].
      replace (ws LBRACKET) with false by reflexivity. apply rd_array. rewrite <- ?app_assoc. exact (loop_reads A enc xs' js' [] W' x j Hx).
    - clear N E. induction W as [|x j xs js [M _] _ IH]; constructor; assumption.
  Qed.

  (** What is read. *)
  Lemma prim_bytes : forall f s r s', all_bytes (s_rest s) -> prim_read f s = (r, s') -> all_bytes (s_rest s').
  Proof.
    intros f s r s' B E. unfold prim_read in E. destruct (readn (calcsize f) s) as [[b|e] s1] eqn:E1; destruct (readn_bytes _ _ _ _ B E1) as [B1 _]; inversion E; subst; exact B1.
  Qed.
  Lemma header_bytes : forall s r s', all_bytes (s_rest s) -> decode_record_header s = (r, s') -> all_bytes (s_rest s').
  Proof.
    intros s r s' B E. unfold decode_record_header in E. destruct (prim_read UINT32 s) as [[h|e] s1] eqn:E1; pose proof (prim_bytes _ _ _ _ B E1) as B1.
    - cbv zeta in E. destruct (_ =? _) in E; [|inversion E; subst; exact B1]. destruct (prim_read UINT32 s1) as [[h2|e] s2] eqn:E2; pose proof (prim_bytes _ _ _ _ B1 E2) as B2.
      + inversion E; subst; exact B2.
      + destruct e; inversion E; subst; exact B2.
    - destruct e; inversion E; subst; exact B1.
  Qed.
  Lemma loop_readable : forall fuel s n, all_bytes (s_rest s) -> Forall readable (fst (read_records_loop fuel s n)).
  Proof.
    induction fuel as [|k IH]; intros s n B; cbn [read_records_loop]; [constructor|]. unfold read_record. destruct (decode_record_header s) as [[[[[t l] sz]|]|e] s1] eqn:EH; try constructor.
    pose proof (header_bytes _ _ _ B EH) as B1. destruct (readn sz s1) as [[p|e] s2] eqn:ER; [|constructor]. destruct (readn_bytes _ _ _ _ B1 ER) as [B2 B3]. cbn.
    constructor; [|apply IH; exact B2]. split; [apply B3; reflexivity|]. split; [reflexivity|]. exists n. reflexivity.
  Qed.
  Lemma read_readable : forall b, all_bytes b -> Forall readable (fst (read_records (open_bytes b))).
  Proof. intros b B. apply loop_readable. exact B. Qed.

  Lemma tree_in : forall (A : Type) (level : A -> Z) rs g o, records_in_a_tree level rs = (g, o) ->
    incl g rs /\ forall top rest, o = Some (top, rest) -> In top rs /\ incl rest rs.
  Proof.
    intros A level rs g o E. pose proof (tree_split A level rs) as T. rewrite E in T. destruct o as [[top rest]|].
    - destruct T as (-> & _). split; [apply incl_appl, incl_refl|]. intros top' rest' E'. inversion E'; subst. split; [apply in_or_app; right; left; reflexivity|apply incl_appr, incl_tl, incl_refl].
    - destruct T as (-> & _). split; [apply incl_refl|discriminate].
  Qed.
  Lemma group_in : forall (A : Type) (level : A -> Z) fuel top rs o, Forall (fun g => incl g (top :: rs)) (fst (group_loop fuel level top rs o)).
  Proof.
    intros A level. induction fuel as [|k IH]; intros top rs o; cbn [group_loop]; [constructor|]. destruct (records_in_a_tree level rs) as [g [[top' rest]|]] eqn:E; destruct (tree_in _ _ _ _ _ E) as [I1 I2].
    - destruct (I2 _ _ eq_refl) as [J1 J2]. unfold gcons. cbn [fst]. constructor; [apply incl_cons; [left; reflexivity|apply incl_tl; exact I1]|].
      eapply Forall_impl; [|apply IH]. intros x Hx. eapply incl_tran; [exact Hx|]. apply incl_cons; [right; exact J1|apply incl_tl; exact J2].
    - destruct o; cbn; try apply Forall_nil. apply Forall_cons; [|apply Forall_nil]. apply incl_cons; [left; reflexivity|apply incl_tl; exact I1].
  Qed.
  Lemma groups_in : forall (A : Type) (level : A -> Z) src, Forall (fun g => incl g (fst src)) (fst (group_by_toplevel level src)).
  Proof. intros A level [rs o]. unfold group_by_toplevel. cbn [fst snd]. destruct rs as [|r t]; [constructor|]. apply group_in. Qed.

  Lemma selected_in : forall sel src, incl (fst (select_records sel src)) (fst src).
  Proof.
    intros sel src. destruct sel as [|a b|n]; cbn [select_records]; [apply incl_refl| |].
    - intros r I. apply In_nth_error in I as [i I]. destruct src as [rs o]. pose proof (range_selection a b rs o i) as R. cbn [select_records] in R. rewrite R in I.
      destruct (Nat.ltb (a + i) b); [|discriminate]. apply nth_error_In in I. exact I.
    - unfold nth_item. destruct (nth_error (fst (group_by_toplevel r_level src)) n) as [g|] eqn:E.
      + apply nth_error_In in E. pose proof (groups_in _ r_level src) as G. rewrite Forall_forall in G. exact (G g E).
      + destruct (snd (group_by_toplevel r_level src)); cbn; intros x [].
  Qed.

  Theorem records_written : forall b sel rs, all_bytes b -> select_records sel (read_records (open_bytes b)) = (rs, Finished) -> rs <> [] ->
    exists chunks js, records_json float_repr (rs, Finished) = (chunks, Finished) /\ is_json (concat chunks) (JA js) /\
      Forall2 (fun r j => exists n, r_seqno r = Some n /\ record_says r n j) rs js.
  Proof.
    intros b sel rs B E N. assert (R : Forall readable rs).
    { apply Forall_forall. intros r I. pose proof (read_readable b B) as F. rewrite Forall_forall in F. apply F. apply (selected_in sel). rewrite E. exact I. }
    destruct (array_written record record_json rs N) as (chunks & js & E1 & J & M); [eapply Forall_impl; [|exact R]; exact record_encodable|].
    exists chunks, js. split; [exact E1|]. split; [exact J|]. clear -R M. revert js M. induction R as [|r rs Hr _ IH]; intros js M; inversion M as [|? j ? js' M1 M2]; subst; constructor.
    - apply record_means; assumption.
    - exact (IH _ M2).
  Qed.

  Lemma models_array : forall ms, ms <> [] -> Forall (fun rm => readable (fst rm) /\ proper (VDict (m_content (snd rm))) /\ all_bytes (m_unparsed (snd rm))) ms ->
    Forall (fun rm => all_finite (VDict (m_content (snd rm)))) ms ->
    exists chunks js, models_json float_repr (ms, Finished) = (chunks, Finished) /\ is_json (concat chunks) (JA js) /\
      Forall2 (fun rm j => exists n, r_seqno (fst rm) = Some n /\ model_says float_repr rm n j) ms js.
  Proof.
    intros ms N R F. destruct (array_written (record * model) model_json ms N) as (chunks & js & E1 & J & M).
    { rewrite Forall_forall in *. intros rm I. destruct (R rm I) as (R1 & R2 & R3). apply model_encodable; auto. }
    exists chunks, js. split; [|split; [exact J|]].
    - rewrite <- E1. unfold models_json, json_objects_generate. cbn [fst snd]. f_equal. generalize Finished as o. intros o. clear. induction ms as [|[r m] ms IH]; [reflexivity|].
      cbn [map_gen model_to_json]. rewrite IH. reflexivity.
    - clear -R M. revert js M. induction R as [|r rs (R1 & R2 & R3) _ IH]; intros js M; inversion M as [|? j ? js' M1 M2]; subst; constructor.
      + apply model_means; assumption.
      + exact (IH _ M2).
  Qed.

  Theorem models_written : forall b fuel version ms, all_bytes b -> stream_models fuel version (read_records (open_bytes b)) = (ms, Finished) -> ms <> [] ->
    Forall (fun rm => all_finite (VDict (m_content (snd rm)))) ms ->
    exists chunks js, models_json float_repr (ms, Finished) = (chunks, Finished) /\ is_json (concat chunks) (JA js) /\
      Forall2 (fun rm j => exists n, r_seqno (fst rm) = Some n /\ model_says float_repr rm n j) ms js.
  Proof.
    intros b fuel version ms B E N F. apply models_array; [exact N| |exact F]. unfold stream_models in E. pose proof (read_readable b B) as R. rewrite Forall_forall in R.
    set (src := read_records (open_bytes b)) in *. pose proof (groups_in _ r_level src) as G. apply chain_proper in E.
    - eapply Forall_impl; [|exact E]. intros rm (I & P & U). split; [|auto]. apply R. apply in_concat in I as (g & Ig & I). rewrite Forall_forall in G. exact (G g Ig _ I).
    - eapply Forall_impl; [|exact G]. intros g I. apply Forall_forall. intros r Ir. apply (R r (I r Ir)).
  Qed.
  Theorem treegroup_written : forall b fuel version n ms, all_bytes b -> treegroup_models fuel version n (read_records (open_bytes b)) = (ms, Finished) -> ms <> [] ->
    Forall (fun rm => all_finite (VDict (m_content (snd rm)))) ms ->
    exists chunks js, models_json float_repr (ms, Finished) = (chunks, Finished) /\ is_json (concat chunks) (JA js) /\
      Forall2 (fun rm j => exists n, r_seqno (fst rm) = Some n /\ model_says float_repr rm n j) ms js.
  Proof.
    intros b fuel version n ms B E N F. apply models_array; [exact N| |exact F]. unfold treegroup_models, records_treegroup, nth_item in E. pose proof (read_readable b B) as R. rewrite Forall_forall in R.
    set (src := read_records (open_bytes b)) in *. pose proof (groups_in _ r_level src) as G. rewrite Forall_forall in G.
    destruct (nth_error _ n) as [g|] eqn:EN; [|destruct (snd _); discriminate]. apply nth_error_In in EN. apply G in EN.
    unfold parse_models in E. apply models_proper in E.
    - eapply Forall_impl; [|exact E]. intros rm (I & P & U). split; [|auto]. apply R, EN. exact I.
    - apply Forall_forall. intros r Ir. apply (R r (EN r Ir)).
  Qed.
End Means.

(** The text determines the records. *)
Lemma dump_determines : forall b b' j, dump_says b j -> dump_says b' j -> b = b'.
Proof.
  intros b b' j (ls & cs & -> & E & C) (ls' & cs' & EJ & E' & C'). inversion EJ as [EL].
  assert (ls = ls') as <- by (clear -EL; revert ls' EL; induction ls as [|l ls IH]; intros [|l' ls'] EL; try discriminate; [reflexivity|]; cbn in EL; inversion EL; f_equal; auto).
  rewrite E in E'. assert (cs = cs') as <- by (clear -E'; revert cs' E'; induction cs as [|c cs IH]; intros [|c' cs'] E; try discriminate; [reflexivity|]; cbn in E; inversion E; f_equal; auto). congruence.
Qed.
Lemma record_determines : forall r r' n n' j, r_seqno r = Some n -> r_seqno r' = Some n' -> record_says r n j -> record_says r' n' j -> r = r'.
Proof.
  intros [t tn l s p q] [t' tn' l' s' p' q'] n n' j. cbn. intros -> -> (d & D & ->) (d' & D' & E). cbn in *. inversion E; subst. rewrite (dump_determines _ _ _ D D'). reflexivity.
Qed.
Theorem records_determined : forall float_repr b b' sel sel' rs rs' chunks chunks', (forall bits, finite bits -> exists j, number_says (float_repr bits) j) -> all_bytes b -> all_bytes b' ->
  select_records sel (read_records (open_bytes b)) = (rs, Finished) -> select_records sel' (read_records (open_bytes b')) = (rs', Finished) -> rs <> [] -> rs' <> [] ->
  records_json float_repr (rs, Finished) = (chunks, Finished) -> records_json float_repr (rs', Finished) = (chunks', Finished) -> concat chunks = concat chunks' -> rs = rs'.
Proof.
  intros fr b b' sel sel' rs rs' chunks chunks' FO B B' E E' N N' J J' EQ.
  destruct (records_written fr FO b sel rs B E N) as (c1 & js & J1 & I1 & F1). destruct (records_written fr FO b' sel' rs' B' E' N') as (c2 & js' & J2 & I2 & F2).
  rewrite J in J1. rewrite J' in J2. inversion J1; inversion J2; subst c1 c2. rewrite EQ in I1. pose proof (json_unique _ _ _ I1 I2) as JE. inversion JE; subst js'. clear -F1 F2.
  revert rs' F2. induction F1 as [|r j rs js (n & S & R) _ IH]; intros rs' F2; inversion F2 as [|r' ? rs2 ? (n' & S' & R') F2']; subst; [reflexivity|]. f_equal; [|exact (IH _ F2')].
  exact (record_determines _ _ _ _ _ S S' R R').
Qed.

(** ** The converse: only finite numbers have a JSON text *)

Lemma plain_numbers : forall t rest, forallb number_char t = true -> plain Outside (t ++ rest) = plain Outside rest.
Proof.
  induction t as [|c t IH]; intros rest H; [reflexivity|]. cbn [forallb] in H. apply andb_prop in H as [H1 H2]. cbn [app plain]. rewrite (IH _ H2). unfold number_char, is_dec in H1.
  destruct (c =? 34) eqn:E1; [lia|]. destruct (c =? 78) eqn:E2; [lia|]. destruct (c =? 73) eqn:E3; [lia|]. reflexivity.
Qed.
Lemma plain_hex : forall n rest, 0 <= n -> plain Inside (fmt_x 4 n ++ rest) = plain Inside rest.
Proof.
  intros n rest H. destruct (fmt_x_digits 4 n H) as (ds & -> & _ & F & _). induction F as [|d ds Hd _ IH]; [reflexivity|]. cbn [map app plain]. rewrite IH.
  unfold is_digit, hexdigit_lower in *. destruct (d <? 10) eqn:E; (destruct (_ =? 34) eqn:E1; [lia|]); (destruct (_ =? 92) eqn:E2; [lia|]); reflexivity.
Qed.
Lemma plain_escape : forall c rest, code_point c -> plain Inside (json_escape c ++ rest) = plain Inside rest.
Proof.
  intros c rest C. unfold json_escape, code_point in *. destruct (c =? 34) eqn:E1; [reflexivity|]. destruct (c =? 92) eqn:E2; [reflexivity|].
  destruct ((32 <=? c) && (c <=? 126)) eqn:E3; [cbn [app plain]; rewrite E1, E2; reflexivity|].
  destruct (c =? 10); [reflexivity|]. destruct (c =? 13); [reflexivity|]. destruct (c =? 9); [reflexivity|]. destruct (c =? 12); [reflexivity|]. destruct (c =? 8); [reflexivity|].
  destruct (c <? 0x10000) eqn:E4.
  - rewrite <- app_assoc. cbn [app]. change (plain Inside (92 :: 117 :: ?s)) with (plain Inside s). apply plain_hex. lia.
  - cbv zeta. rewrite <- !app_assoc. cbn [app]. change (plain Inside (92 :: 117 :: ?s)) with (plain Inside s). rewrite plain_hex.
    + change (plain Inside (92 :: 117 :: ?s)) with (plain Inside s). apply plain_hex. apply Z.lor_nonneg. split; [lia|]. apply Z.land_nonneg. right. lia.
    + apply Z.lor_nonneg. split; [lia|]. apply Z.land_nonneg. right. lia.
Qed.
Lemma plain_text : forall t rest, Forall code_point t -> plain Outside (json_string t ++ rest) = plain Outside rest.
Proof.
  intros t rest H. rewrite json_string_starts. change (plain Outside (34 :: ?s)) with (plain Inside s). induction H as [|c t Hc _ IH]; [reflexivity|]. cbn [map concat]. rewrite <- app_assoc, plain_escape by exact Hc. exact IH.
Qed.
Lemma plain_indent : forall level rest, plain Outside (newline_indent level ++ rest) = plain Outside rest.
Proof. intros level rest. unfold newline_indent, repeat_z. cbn [app]. change (plain Outside (10 :: ?s)) with (plain Outside s). induction (Z.to_nat (2 * level)) as [|n IH]; [reflexivity|exact IH]. Qed.

Section Finite.
  Variable float_repr : Z -> list Z.
  Hypothesis float_ok : forall bits, finite bits -> exists j, number_says (float_repr bits) j.

  (** As [encodable], without the numbers; and the numbers. *)
  Inductive shaped : pyjson -> Prop :=
  | sh_int : forall n, shaped (JInt n)
  | sh_float : forall bits, shaped (JFloat bits)
  | sh_str : forall t, Forall code_point t -> shaped (JStr t)
  | sh_bytes : forall b, all_bytes b -> shaped (JBytes b)
  | sh_list : forall l, Forall shaped l -> shaped (JList l)
  | sh_dict : forall d, Forall (fun kv => all_bytes (fst kv) /\ shaped (snd kv)) d -> shaped (JDict d).
  Inductive numbers : pyjson -> Prop :=
  | nu_int : forall n, numbers (JInt n)
  | nu_float : forall bits, finite bits -> numbers (JFloat bits)
  | nu_str : forall t, numbers (JStr t)
  | nu_bytes : forall b, numbers (JBytes b)
  | nu_list : forall l, Forall numbers l -> numbers (JList l)
  | nu_dict : forall d, Forall (fun kv => numbers (snd kv)) d -> numbers (JDict d).

  Lemma encodable_shaped : forall v, encodable v -> shaped v.
  Proof.
    apply (pyjson_rect' (fun v => encodable v -> shaped v)).
    - constructor.
    - constructor.
    - intros t H. inversion H; subst. constructor. assumption.
    - intros t H. inversion H; subst. constructor. assumption.
    - intros l IH H. inversion H; subst. constructor. rewrite Forall_forall in *. auto.
    - intros d IH H. inversion H; subst. constructor. rewrite Forall_forall in *. intros kv I. split; [apply H1; exact I|]. apply IH; [exact I|]. apply H1. exact I.
  Qed.

  Definition settles (t : list Z) (P : Prop) : Prop := forall rest, plain Outside (t ++ rest) = true -> P /\ plain Outside rest = true.

  Lemma brackets_settle : forall level a b (parts : list (list Z * Prop)), (a = 91 /\ b = 93) \/ (a = 123 /\ b = 125) -> Forall (fun p => settles (fst p) (snd p)) parts ->
    settles (json_brackets level a b (map fst parts)) (Forall (fun p => snd p) parts).
  Proof.
    intros level a b parts AB F rest H.
    assert (OUT : forall c s, c = 91 \/ c = 93 \/ c = 123 \/ c = 125 \/ c = 44 -> plain Outside (c :: s) = plain Outside s) by (intros c s [->|[->|[->|[->| ->]]]]; reflexivity).
    destruct parts as [|p parts].
    - cbn [map json_brackets app] in H. rewrite OUT, OUT in H by (destruct AB as [[-> ->]|[-> ->]]; auto). split; [constructor|exact H].
    - cbn [map json_brackets] in H. change ([a] ++ ?s) with (a :: s) in H. cbn [app] in H. rewrite OUT in H by (destruct AB as [[-> ->]|[-> ->]]; auto). rewrite <- !app_assoc, plain_indent in H.
      change (fst p :: map fst parts) with (map fst (p :: parts)) in H.
      assert (J : forall ps, ps <> [] -> Forall (fun p => settles (fst p) (snd p)) ps -> forall rest, plain Outside (join (44 :: newline_indent (level + 1)) (map fst ps) ++ rest) = true -> Forall (fun p => snd p) ps /\ plain Outside rest = true).
      { clear -OUT. induction ps as [|q ps IH]; intros N F rest H; [congruence|]. inversion F as [|? ? F1 F2]; subst. destruct ps as [|q' ps].
        - cbn [map join] in H. destruct (F1 _ H) as [P R]. split; [repeat constructor; exact P|exact R].
        - cbn [map] in H. rewrite join_cons2 in H. rewrite <- !app_assoc in H. destruct (F1 _ H) as [P R].
          change ((44 :: newline_indent (level + 1)) ++ ?s) with (44 :: newline_indent (level + 1) ++ s) in R. rewrite OUT in R by auto. rewrite plain_indent in R.
          destruct (IH ltac:(discriminate) F2 _ R) as [P2 R2]. split; [constructor; assumption|exact R2]. }
      destruct (J (p :: parts) ltac:(discriminate) F _ H) as [P R]. split; [exact P|]. rewrite plain_indent in R. cbn [app] in R. rewrite OUT in R by (destruct AB as [[-> ->]|[-> ->]]; auto). exact R.
  Qed.

  Theorem plain_numbers_finite : forall v, shaped v -> forall level, settles (json_encode float_repr level v) (numbers v).
  Proof.
    apply (pyjson_rect' (fun v => shaped v -> forall level, settles (json_encode float_repr level v) (numbers v))); cbn [json_encode].
    - intros n _ level rest H. split; [constructor|]. rewrite plain_numbers in H; [exact H|]. eapply integer_chars. apply integer_written.
    - intros bits _ level rest H. destruct (Z.eq_dec ((bits / 2 ^ 52) mod 2 ^ 11) 2047) as [E|NE].
      + exfalso. unfold json_float, float_exponent in H. rewrite Z.shiftr_div_pow2 in H by lia. change 0x7ff with (Z.ones 11) in H. rewrite Z.land_ones in H by lia. change (Z.ones 11) with 2047 in H.
        rewrite E in H. cbn [Z.eqb Pos.eqb] in H. destruct (_ =? 0); [destruct (Z.testbit bits 63)|]; discriminate H.
      + split; [constructor; exact NE|]. rewrite (finite_float float_repr float_ok bits NE) in H. destruct (float_ok bits NE) as [j J]. rewrite plain_numbers in H; [exact H|]. eapply number_chars. exact J.
    - intros t S level rest H. inversion S; subst. split; [constructor|]. rewrite plain_text in H by assumption. exact H.
    - intros b S level rest H. inversion S; subst. split; [constructor|]. rewrite plain_text in H by (apply bytes_points; assumption). exact H.
    - intros l IH S level rest H. inversion S as [| | | |? F|]; subst.
      replace (map (json_encode float_repr (level + 1)) l) with (map fst (map (fun v => (json_encode float_repr (level + 1) v, numbers v)) l)) in H by (rewrite map_map; reflexivity).
      apply brackets_settle in H as [P R]; [|left; auto|].
      + split; [|exact R]. constructor. rewrite Forall_map in P. exact P.
      + apply Forall_map. rewrite Forall_forall in *. intros v I. cbn. exact (IH v I (F v I) _).
    - intros d IH S level rest H. inversion S as [| | | | |? F]; subst. rewrite sort_map, map_map in H.
      replace (map _ (sort_items d)) with (map fst (map (fun kv => (json_string (fst kv) ++ [58; 32] ++ json_encode float_repr (level + 1) (snd kv), numbers (snd kv))) (sort_items d))) in H by (rewrite map_map; reflexivity).
      apply brackets_settle in H as [P R]; [|right; auto|].
      + split; [|exact R]. constructor. rewrite Forall_map in P. rewrite Forall_forall in *. intros kv I. apply (P kv). exact (Permutation_in kv (sort_perm d) I).
      + apply Forall_map. rewrite Forall_forall in *. intros kv I. apply (Permutation_in kv (Permutation_sym (sort_perm d))) in I. cbn [fst snd]. intros rest' H'. destruct (F kv I) as [B Sk].
        rewrite <- !app_assoc in H'. rewrite plain_text in H' by (apply bytes_points; exact B). change (plain Outside ([58; 32] ++ ?s)) with (plain Outside s) in H'. exact (IH kv I Sk _ _ H').
  Qed.

  Lemma numbers_finite : forall v, numbers (json_value_of v) -> all_finite v.
  Proof.
    apply (value_ind' (fun v => numbers (json_value_of v) -> all_finite v)); cbn [json_value_of]; try (constructor; fail).
    - intros b H. inversion H; subst. constructor. assumption.
    - intros l IH H. inversion H as [| | | |? F|]; subst. rewrite Forall_map in F. constructor. rewrite Forall_forall in *. auto.
    - intros l IH H. inversion H as [| | | |? F|]; subst. rewrite Forall_map in F. constructor. rewrite Forall_forall in *. auto.
    - intros d IH H. inversion H as [| | | | |? F]; subst. rewrite Forall_map in F. constructor. rewrite Forall_forall in *. intros kv I. apply IH; [exact I|]. exact (F kv I).
  Qed.
  Theorem value_shaped : forall v, proper v -> shaped (json_value_of v).
  Proof.
    apply (value_ind' (fun v => proper v -> shaped (json_value_of v))); cbn [json_value_of].
    - constructor.
    - constructor.
    - constructor.
    - intros t H. inversion H; subst. constructor. assumption.
    - intros b H. inversion H; subst. constructor. assumption.
    - intros l H. inversion H; subst. constructor. apply Forall_map. eapply Forall_impl; [|eassumption]. intros c P. apply encodable_shaped, chunk_encodable. exact P.
    - intros l IH HP. inversion HP; subst. constructor. apply Forall_map. rewrite Forall_forall in *. auto.
    - intros l IH HP. inversion HP; subst. constructor. apply Forall_map. rewrite Forall_forall in *. auto.
    - intros d IH HP. inversion HP; subst. constructor. apply Forall_map. rewrite Forall_forall in *. intros kv I. cbn. split; [apply zs_bytes|auto].
  Qed.
  Ltac shapes := repeat (apply Forall_cons; [split; [apply zs_bytes|]|]); try apply Forall_nil; try apply sh_int.
  Lemma model_shaped : forall rm, readable (fst rm) -> proper (VDict (m_content (snd rm))) -> all_bytes (m_unparsed (snd rm)) -> shaped (model_json rm).
  Proof.
    intros [r m] (B & T & n & S) P U. unfold model_json, record_items. cbn [fst snd] in *. rewrite S, T. destruct (m_unparsed m) as [|u us]; cbn [app].
    - constructor. shapes; [apply sh_str, bytes_points, tagname_bytes|apply encodable_shaped, dump_encodable; exact B|apply sh_str, bytes_points, zs_bytes|apply value_shaped; assumption].
    - constructor. shapes; [apply sh_str, bytes_points, tagname_bytes|apply encodable_shaped, dump_encodable; exact B|apply sh_str, bytes_points, zs_bytes|apply value_shaped; assumption|apply encodable_shaped, dump_encodable; exact U].
  Qed.
  Lemma model_finite : forall rm, numbers (model_json rm) -> all_finite (VDict (m_content (snd rm))).
  Proof.
    intros rm H. unfold model_json in H. apply numbers_finite. remember (json_value_of (VDict (m_content (snd rm)))) as c. inversion H as [| | | | |? F]; subst d. rewrite Forall_forall in F.
    apply (F (zs "content", c)). do 5 right. apply in_or_app. right. right. left. reflexivity.
  Qed.

  Lemma models_array_finite : forall ms chunks o, Forall (fun rm => readable (fst rm) /\ proper (VDict (m_content (snd rm))) /\ all_bytes (m_unparsed (snd rm))) ms ->
    models_json float_repr (ms, Finished) = (chunks, o) -> plain Outside (concat chunks) = true -> Forall (fun rm => all_finite (VDict (m_content (snd rm)))) ms.
  Proof.
    intros ms chunks o R E P. unfold models_json, json_objects_generate in E. cbn [fst snd] in E.
    assert (ME : map_gen (model_to_json float_repr) ms Finished = (map (fun rm => json_dumps float_repr (model_json rm)) ms, Finished)).
    { clear. induction ms as [|[r m] ms IH]; [reflexivity|]. cbn [map_gen model_to_json map]. rewrite IH. reflexivity. }
    rewrite ME in E. unfold generate_json_array in E. cbn [fst snd] in E. inversion E; subst. rewrite concat_app in P. clear E ME.
    generalize dependent ([[NEWLINE; RBRACKET]]). intros tl P. revert R P. assert (G : forall first, Forall (fun rm => readable (fst rm) /\ proper (VDict (m_content (snd rm))) /\ all_bytes (m_unparsed (snd rm))) ms ->
      plain Outside (concat (json_array_loop first (map (fun rm => json_dumps float_repr (model_json rm)) ms)) ++ concat tl) = true -> Forall (fun rm => all_finite (VDict (m_content (snd rm)))) ms); [|exact (G true)].
    induction ms as [|rm ms IH]; intros first R H; [constructor|]. inversion R as [|? ? (R1 & R2 & R3) R']; subst. cbn [map json_array_loop concat app] in H.
    assert (H' : plain Outside (json_dumps float_repr (model_json rm) ++ concat (json_array_loop false (map (fun rm => json_dumps float_repr (model_json rm)) ms)) ++ concat tl) = true).
    { rewrite <- !app_assoc in H. destruct first; exact H. }
    apply (plain_numbers_finite _ (model_shaped rm R1 R2 R3)) in H' as [N H']. constructor; [apply model_finite; exact N|]. exact (IH false R' H').
  Qed.

  Theorem models_only_if_finite : forall b fuel version ms chunks o v, all_bytes b -> stream_models fuel version (read_records (open_bytes b)) = (ms, Finished) ->
    models_json float_repr (ms, Finished) = (chunks, o) -> is_json (concat chunks) v -> Forall (fun rm => all_finite (VDict (m_content (snd rm)))) ms.
  Proof.
    intros b fuel version ms chunks o v B E EM J. eapply models_array_finite; [|exact EM|exact (json_plain _ _ J)]. clear EM J. unfold stream_models in E. pose proof (read_readable b B) as R. rewrite Forall_forall in R.
    set (src := read_records (open_bytes b)) in *. pose proof (groups_in _ r_level src) as G. apply chain_proper in E.
    - eapply Forall_impl; [|exact E]. intros rm (I & P & U). split; [|auto]. apply R. apply in_concat in I as (g & Ig & I). rewrite Forall_forall in G. exact (G g Ig _ I).
    - eapply Forall_impl; [|exact G]. intros g I. apply Forall_forall. intros r Ir. apply (R r (I r Ir)).
  Qed.
End Finite.
