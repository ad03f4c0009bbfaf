(** Property theorems about reads in a program that has read before: C85. *)
From Coq Require Import ZArith String List Bool.
From Verif Require Import Base Model_Text Model_Dataio Model_ParaText Model_Bintype Model_Heap Spec_Text Spec_Dataio Spec_ParaText Spec_Bintype
  Spec_Heap Proof_Bintype Proof_Bintype2 Proof_Heap Proof_Heap2 Props_Bintype.
Import ListNotations.
Open Scope Z_scope.

(** C85.  Whatever has been read before, whether it went well or not, a read
    says the same as in a program that has just started. *)
Theorem C85_history_does_not_matter : forall (Ctx : Type) classes history q,
  told_now Ctx classes (after Ctx classes (started Ctx) history) q = told_now Ctx classes (started Ctx) q.
Proof. intros. rewrite any_history. symmetry. apply (any_history Ctx classes [] q). Qed.
Print Assumptions C85_history_does_not_matter.

(** With shared and mutated dicts it says what the events of C16 do. *)
Theorem C85_same_events : forall (Ctx : Type) classes history q,
  told_now Ctx classes (after Ctx classes (started Ctx) history) q =
  (let '(out, strm, o) := read_type_events Ctx (c_fuel Ctx q) (classes (c_class Ctx q)) (c_ctx Ctx q) (c_version Ctx q) (c_stream Ctx q) in
   (map Some out, strm, o)).
Proof. exact any_history. Qed.
Print Assumptions C85_same_events.

(** That is what the declaration says, member by member; and so is the value. *)
Theorem C85_declaration : forall (Ctx : Type) classes history q t, classes (c_class Ctx q) = t ->
  wf Ctx t -> sane Ctx t -> all_bytes (s_rest (c_stream Ctx q)) ->
  exists n, forall k, c_fuel Ctx q = (n + k)%nat ->
  let st := after Ctx classes (started Ctx) history in
  match rd Ctx (c_ctx Ctx q) (c_version Ctx q) None None None t (c_stream Ctx q) with
  | (tr, s', Some (Ok (Some v))) =>
      told_now Ctx classes st q = (map Some tr, s', Finished) /\ snd (read_value Ctx classes st q) = Some (Ok v)
  | (tr, s', Some (Raise e)) =>
      told_now Ctx classes st q = (map Some tr, s', Failed e) /\ snd (read_value Ctx classes st q) = Some (Raise e)
  | _ => False
  end.
Proof. exact any_history_value. Qed.
Print Assumptions C85_declaration.

(** What was read stays as it was, whatever is read later. *)
Theorem C85_kept : forall (Ctx : Type) classes history q later,
  let st := after Ctx classes (started Ctx) history in
  told Ctx (after Ctx classes st (q :: later)) (snd (read_events Ctx classes st q)) = told_now Ctx classes st q.
Proof. exact earlier_kept. Qed.
Print Assumptions C85_kept.

(** The declaration of C16 and one more, read for two versions and for none,
    from whole and broken bytes: the last read after the others and alone. *)
Definition two_classes (id : nat) : ty unit :=
  match id with O => demo | _ => TStruct unit (MCons unit "n" None None (TPrim unit (PFmt UINT16)) (MNil unit)) end.
Definition demo_call (id : nat) (version : option (list Z)) (bytes : list Z) : call unit := mkCall unit id tt version (open_bytes bytes) 60.
Definition demo_history : list (call unit) :=
  [demo_call 0 (Some [5; 1; 0; 0]) demo_bytes; demo_call 1 (Some [5; 0; 1; 0]) [1; 2]; demo_call 0 (Some [5; 0; 1; 0]) [3; 0; 0x41; 10];
   demo_call 0 None demo_bytes; demo_call 0 (Some [5; 0; 1; 0]) demo_bytes].

Example C85_case :
  let st := after unit two_classes (started unit) demo_history in
  let q := demo_call 0 (Some [5; 0; 1; 0]) demo_bytes in
  snd (read_value unit two_classes st q) = Some (Ok demo_value) /\
  List.length (fst (fst (told_now unit two_classes st q))) = 23%nat /\
  (List.length (in_heap unit st) = 167)%nat /\ List.length (in_versioned unit st) = 2%nat /\ List.length (in_master unit st) = 2%nat /\
  snd (told_now unit two_classes st (demo_call 0 None demo_bytes)) = Failed (ParseError StructError 16).
Proof. vm_compute. repeat split; reflexivity. Qed.
