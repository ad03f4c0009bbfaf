(** Specification of reads in a program that has read before. *)
From Coq Require Import ZArith String List Bool.
From Verif Require Import Base Model_Dataio Model_ParaText Model_Bintype Model_Heap.
Import ListNotations.
Open Scope Z_scope.

Section Spec.
  Variable Ctx : Type.
  Variable classes : nat -> Model_Bintype.ty Ctx.

  (** The program after a list of reads. *)
  Fixpoint after (st : interp Ctx) (history : list (call Ctx)) : interp Ctx :=
    match history with
    | [] => st
    | q :: rest => after (fst (read_events Ctx classes st q)) rest
    end.

  (** What an answer says in the program [st]: its events, looked at in [st],
      where the stream is, and how the read ended. *)
  Definition told (st : interp Ctx) (ans : answer) : list (option (oev Ctx)) * stream * outcome :=
    (map (view Ctx (in_heap Ctx st)) (ans_out ans), ans_stream ans, ans_outcome ans).

  (** A read in the program [st], looked at when it is done. *)
  Definition told_now (st : interp Ctx) (q : call Ctx) : list (option (oev Ctx)) * stream * outcome :=
    told (fst (read_events Ctx classes st q)) (snd (read_events Ctx classes st q)).
End Spec.
