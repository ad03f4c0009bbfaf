(** Property theorems about structured reads: C16-C20. *)
From Coq Require Import ZArith String List Bool Lia.
From Verif Require Import Base Model_Text Model_Dataio Model_ParaText Model_Bintype Spec_Text Spec_Dataio Spec_ParaText
  Spec_Bintype Proof_Bintype Proof_Bintype2.
Import ListNotations.
Open Scope Z_scope.

(** C16.  The event engine ([read_type_events], [read_type]) reports and returns
    what reading the declaration member by member ([rd]) gives, for all
    sufficient fuel; in particular it terminates on every byte string. *)
Theorem C16_engine_reads_the_declaration : forall (Ctx : Type) (c : Ctx) ver t s,
  wf Ctx t -> all_bytes (s_rest s) -> sane Ctx t ->
  exists n, forall k,
  match rd Ctx c ver None None None t s with
  | (tr, s', Some (Ok (Some v))) =>
      read_type_events Ctx (n + k) t c ver s = (tr, s', Finished) /\ read_type Ctx (n + k) t c ver s = (Some (Ok v), s')
  | (tr, s', Some (Raise e)) =>
      read_type_events Ctx (n + k) t c ver s = (tr, s', Failed e) /\ read_type Ctx (n + k) t c ver s = (Some (Raise e), s')
  | _ => False
  end.
Proof. exact read_type_is. Qed.
Print Assumptions C16_engine_reads_the_declaration.

(** And no amount of fuel gives another answer. *)
Theorem C16_no_other_answer : forall (Ctx : Type) (c : Ctx) ver t s fuel tr s' o, wf Ctx t -> o <> OutOfFuel ->
  read_type_events Ctx fuel t c ver s = (tr, s', o) ->
  exists r, rd Ctx c ver None None None t s = (tr, s', Some r) /\ o = match r with Ok _ => Finished | Raise e => Failed e end.
Proof. exact events_are. Qed.
Print Assumptions C16_no_other_answer.

(** A declaration using everything: counted, conditional, selected, versioned
    and length-prefixed members. *)
Open Scope string_scope.
Definition demo_kind : list (string * flag_field) := [("kind", (0, 1, None)); ("rest", (2, 7, None))].
Definition demo : ty unit :=
  TStruct unit
    (MCons unit "count" None None (TPrim unit (PFmt UINT16))
    (MCons unit "flags" None None (TFlags unit UINT8 demo_kind)
    (MCons unit "items" None None (TX unit (ref_member_int "count") (TPrim unit (PFmt UINT8)))
    (MCons unit "title" None (Some (fun c v => let? k := ref_member_flag "flags" "kind" c v in Ok (Z.eqb k 1))) (TPrim unit PBstr)
    (MCons unit "body" None None (TSel unit (ref_member_flag "flags" "kind")
        (ACons unit 1 (TFixed unit (TPrim unit (PFmt INT8)) 2) (ACons unit 2 (TPrim unit (PFmt UINT32)) (ANil unit))))
    (MCons unit "late" (Some [5; 0; 2; 0]) None (TPrim unit (PFmt UINT32))
    (MCons unit "tail" None None (TVar unit UINT16 (TStruct unit (MCons unit "x" None None (TPrim unit (PFmt UINT8)) (MNil unit))))
    (MNil unit)))))))).
Close Scope string_scope.
Definition demo_bytes : list Z := [3; 0; 0x41; 10; 20; 30; 1; 0; 0x41; 0; 0xff; 2; 2; 0; 7; 8; 99].
Definition demo_value : value :=
  VDict [("count", VInt 3); ("flags", VFlags demo_kind 0x41); ("items", VList [VInt 10; VInt 20; VInt 30]);
         ("title", VText [0x41]); ("body", VTuple [VInt (-1); VInt 2]);
         ("tail", VList [VDict [("x", VInt 7)]; VDict [("x", VInt 8)]])]%string.

Lemma demo_wf : wf unit demo /\ sane unit demo.
Proof. split; cbn; unfold int_fmt; cbn; repeat split; try discriminate; try lia; intuition discriminate. Qed.

Example C16_case :
  wf unit demo /\ sane unit demo /\
  read_type unit 60 demo tt (Some [5; 0; 1; 0]) (open_bytes demo_bytes) = (Some (Ok demo_value), mkStream [99] 16) /\
  snd (rd unit tt (Some [5; 0; 1; 0]) None None None demo (open_bytes demo_bytes)) = Some (Ok (Some demo_value)).
Proof. split; [apply demo_wf|]. split; [apply demo_wf|]. split; vm_compute; reflexivity. Qed.

(** C17.  Bytes that hold a value of a declared type (relation [ser]: members
    one after another) read back as that value, leaving the rest. *)
Theorem C17_written_values_read_back : forall (Ctx : Type) (c : Ctx) ver t v b rest pos, wf Ctx t ->
  ser Ctx c ver None None t (Some v) b rest ->
  exists n, forall k, read_type Ctx (n + k) t c ver (mkStream (b ++ rest) pos) = (Some (Ok v), mkStream rest (pos + zlen b)).
Proof. exact written_reads_back. Qed.
Print Assumptions C17_written_values_read_back.

Theorem C17_leaves_read_back : forall p v b rest pos, prim_bytes p v b rest ->
  prim_value p (mkStream (b ++ rest) pos) = (Some (Ok v), mkStream rest (pos + zlen b)).
Proof. exact prim_value_of_bytes. Qed.
Print Assumptions C17_leaves_read_back.

Example C17_case : ser unit tt (Some [5; 0; 1; 0]) None None demo (Some demo_value) (removelast demo_bytes) [99].
Proof.
  assert (I : forall f n rest, f <> FmtDouble -> (0 < fmt_width f)%nat -> fmt_range f n ->
    forall pa, ser unit tt (Some [5; 0; 1; 0]) pa None (TPrim unit (PFmt f)) (Some (VInt n)) (number_bytes (fmt_width f) n) rest).
  { intros. apply ser_prim; [exact I|constructor; assumption]. }
  apply ser_struct; [exact Logic.I|].
  change (removelast demo_bytes) with
    ([3; 0] ++ [0x41] ++ ([10] ++ [20] ++ [30] ++ []) ++ (number_bytes 2 (zlen (utf16_units [0x41])) ++ utf16le_bytes [0x41]) ++
     ([0xff] ++ [2] ++ []) ++ ([2; 0] ++ (([7] ++ []) ++ ([8] ++ []) ++ [])) ++ []).
  eapply serm_cons; [reflexivity|apply (I UINT16 3); [discriminate|cbn; lia|cbn; lia]|].
  eapply serm_cons; [reflexivity|apply ser_flags; [exact Logic.I|apply (pb_int UINT8 0x41); [discriminate|cbn; lia|cbn; lia]]|].
  eapply serm_cons; [reflexivity|eapply (ser_x unit tt _ _ _ _ _ _ 3); [exact Logic.I|reflexivity|reflexivity|]|].
  { eapply seri_cons; [apply (I UINT8 10); [discriminate|cbn; lia|cbn; lia]|].
    eapply seri_cons; [apply (I UINT8 20); [discriminate|cbn; lia|cbn; lia]|].
    eapply seri_cons; [apply (I UINT8 30); [discriminate|cbn; lia|cbn; lia]|]. apply seri_nil. }
  eapply serm_cons; [reflexivity|apply ser_prim; [eexists; split; reflexivity|apply pb_bstr; [repeat constructor; unfold scalar; lia|vm_compute; reflexivity]]|].
  eapply serm_cons; [reflexivity|eapply (ser_sel unit tt _ _ _ _ _ _ 1); [reflexivity|reflexivity|reflexivity|]|].
  { apply ser_fixed; [exact Logic.I|].
    eapply seri_cons; [apply (I INT8 (-1)); [discriminate|cbn; lia|cbn; lia]|].
    eapply seri_cons; [apply (I INT8 2); [discriminate|cbn; lia|cbn; lia]|]. apply seri_nil. }
  apply serm_later; [reflexivity|].
  match goal with |- ser_members _ _ _ ?env _ _ _ _ =>
    assert (N : forall rest, ser_members unit tt (Some [5; 0; 1; 0])
       (added "tail" (Some (VList [VDict [("x"%string, VInt 7)]; VDict [("x"%string, VInt 8)]])) env) (MNil unit)
       (added "tail" (Some (VList [VDict [("x"%string, VInt 7)]; VDict [("x"%string, VInt 8)]])) env) [] rest) by (intros; apply serm_nil)
  end.
  eapply serm_cons; [reflexivity| |apply N].
  apply (ser_var unit tt _ _ _ UINT16 _ 2); [exact Logic.I|apply (pb_int UINT16 2); [discriminate|cbn; lia|cbn; lia]|].
  eapply (seri_cons unit tt _ _ 1 [] (Some (VDict [("x"%string, VInt 7)]))); [apply ser_struct; [exact Logic.I|]|].
  { eapply (serm_cons unit tt _ _ _ _ _ _ _ (Some (VInt 7))); [reflexivity|apply (I UINT8 7); [discriminate|cbn; lia|cbn; lia]|apply serm_nil]. }
  eapply (seri_cons unit tt _ _ 0 _ (Some (VDict [("x"%string, VInt 8)]))); [apply ser_struct; [exact Logic.I|]|apply seri_nil].
  eapply (serm_cons unit tt _ _ _ _ _ _ _ (Some (VInt 8))); [reflexivity|apply (I UINT8 8); [discriminate|cbn; lia|cbn; lia]|apply serm_nil].
Qed.

(** C18.  The leaves are reported at consecutive offsets ([covers]: each leaf
    read from the bytes between its offset and the next one's), and consumed
    bytes plus what is left are the payload. *)
Theorem C18_leaves_tile_the_payload : forall (Ctx : Type) (c : Ctx) ver t s fuel tr s', wf Ctx t -> sane Ctx t -> all_bytes (s_rest s) ->
  read_type_events Ctx fuel t c ver s = (tr, s', Finished) ->
  covers Ctx tr s s' /\ exists b, s_rest s = b ++ s_rest s' /\ s_pos s' = s_pos s + zlen b.
Proof. exact leaves_tile. Qed.
Print Assumptions C18_leaves_tile_the_payload.

Example C18_case :
  let '(tr, s', o) := read_type_events unit 60 demo tt (Some [5; 0; 1; 0]) (open_bytes demo_bytes) in
  o = Finished /\ s' = mkStream [99] 16 /\
  concat (map (fun e => match e with OLeaf _ _ _ pos _ => [pos] | _ => [] end) tr) = [0; 2; 3; 4; 5; 6; 10; 11; 12; 14; 15].
Proof. vm_compute. repeat split. Qed.

(** C19.  Filtering the compiled events equals the events of the declaration
    without the members of later versions ... *)
Theorem C19_filtered_events : forall (Ctx : Type) v t,
  filter_with_version Ctx (map_events Ctx (no_attrs Ctx) t) v = (visible_events Ctx (Some v) (no_attrs Ctx) t, Finished).
Proof. exact filter_is_visible. Qed.
Print Assumptions C19_filtered_events.

(** ... and reading for a version is reading the declaration with those members
    removed: same value, same stream, same reports. *)
Theorem C19_reading_for_a_version : forall (Ctx : Type) (c : Ctx) v t s, wf Ctx t -> all_bytes (s_rest s) -> sane Ctx t -> exists n, forall k,
  read_type Ctx (n + k) t c (Some v) s = read_type Ctx (n + k) (prune Ctx v t) c None s /\
  map (report_of Ctx) (fst (fst (read_type_events Ctx (n + k) t c (Some v) s))) =
  map (report_of Ctx) (fst (fst (read_type_events Ctx (n + k) (prune Ctx v t) c None s))).
Proof. exact read_version. Qed.
Print Assumptions C19_reading_for_a_version.

(** A member is left out exactly when the file's version is earlier than the
    member's. *)
Theorem C19_version_order : forall v r, visible (Some v) (Some r) = false <-> earlier v r.
Proof. exact visible_unless_earlier. Qed.
Print Assumptions C19_version_order.

Example C19_case :
  visible (Some [5; 0; 1; 0]) (Some [5; 0; 2; 0]) = false /\ visible (Some [5; 0; 2; 0]) (Some [5; 0; 2; 0]) = true /\
  visible (Some [5; 0; 10; 0]) (Some [5; 0; 2; 0]) = true /\
  snd (read_type unit 60 demo tt (Some [5; 0; 1; 0]) (open_bytes (demo_bytes ++ [0; 0; 0]))) = mkStream [99; 0; 0; 0] 16 /\
  fst (read_type unit 60 demo tt (Some [5; 1; 0; 0]) (open_bytes (demo_bytes ++ [0; 0; 0]))) = Some (Raise (ParseError (Eof 20) 20)) /\
  List.length (fst (filter_with_version unit (map_events unit (no_attrs unit) demo) [5; 0; 1; 0])) = 19%nat /\
  List.length (map_events unit (no_attrs unit) demo) = 20%nat.
Proof. vm_compute. repeat split. Qed.

(** C20.  Why leaves fail: exactly these cases. *)
Theorem C20_leaf_failures : forall p s, positive_width p -> all_bytes (s_rest s) -> forall e,
  (exists s', prim_value p s = (Some (Raise e), s')) <-> prim_fails p (s_rest s) (s_pos s) e.
Proof. exact prim_value_fails. Qed.
Print Assumptions C20_leaf_failures.

(** A failing read: a ParseError with the offset where the unreadable leaf
    started and the cause, after the leaves before it; or a KeyError for an
    unreadable flags member; or an exception of a declared reference. *)
Theorem C20_failures_located : forall (Ctx : Type) (c : Ctx) ver t s fuel tr s' e, wf Ctx t -> sane Ctx t -> all_bytes (s_rest s) ->
  read_type_events Ctx fuel t c ver s = (tr, s', Failed e) ->
  fails_because Ctx (fun e => e = IndexError \/ ref_raises Ctx c e t) tr s e.
Proof. exact failure_located. Qed.
Print Assumptions C20_failures_located.

Theorem C20_short_bytes_accepted : forall n b pos, b <> [] -> zlen b < n ->
  prim_value (PBytes n) (mkStream b pos) = (Some (Ok (VBytes b)), mkStream [] (pos + zlen b)) /\
  prim_value (PHex n) (mkStream b pos) = (Some (Ok (VBytes (concat (map (fmt_x 2) b)))), mkStream [] (pos + zlen b)).
Proof. exact bytes_cut_silently. Qed.
Print Assumptions C20_short_bytes_accepted.

Example C20_case :
  fst (read_type unit 60 demo tt None (open_bytes [3; 0; 0x41; 10])) = Some (Raise (ParseError (Eof 4) 4)) /\
  fst (read_type unit 60 demo tt None (open_bytes [3])) = Some (Raise (ParseError StructError 0)) /\
  fst (read_type unit 60 demo tt None (open_bytes [3; 0])) = Some (Raise KeyError) /\
  fst (prim_value (PHex 4) (open_bytes [0xab; 0x01])) = Some (Ok (VBytes [97; 98; 48; 49])).
Proof. vm_compute. repeat split. Qed.
