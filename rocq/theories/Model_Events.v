(** Events of record models: src/hwp5/binmodel/__init__.py 334-395, 478-495
    ([resolve_models], [ModelStream.parse_model_events]).  They are the events
    of bintype.py without anything that raises on an ERROREVENT. *)
From Coq Require Import ZArith String List Bool.
From Verif Require Import Base Model_Text Model_Dataio Model_Record Model_Tree Model_Bintype Model_Classes Model_Layouts Model_Models.
Import ListNotations.
Open Scope string_scope.
Open Scope list_scope.
Open Scope Z_scope.

Section Events.
  Variable Ctx : Type.

  (** bintype.py 356-363 [eval_typedef_events]: one turn.  Where [step] ends with
      a ParseError, an ERROREVENT has been passed on and nothing raises it here:
      the leaf has no value, it is not collected (313 matches neither None nor
      ENDEVENT) and the generators go on.  A count without value is a KeyError
      (250).  Simplification: the declared references raise no ParseError. *)
  Definition step_on (c : Ctx) (s : state Ctx) : step_res Ctx :=
    match step Ctx c s with
    | Stop _ out strm (Failed (ParseError _ _)) =>
        match st_events Ctx s with
        | e :: rest =>
            match snd (bev_item Ctx e) with
            | TVar _ _ _ => Stop Ctx out strm (Failed KeyError)
            | _ => Next Ctx (mkState Ctx rest (st_stack Ctx s) (st_select Ctx s) strm out)
            end
        | [] => step Ctx c s
        end
    | r => r
    end.
  Fixpoint run_on (fuel : nat) (c : Ctx) (s : state Ctx) : list (oev Ctx) * stream * outcome :=
    match fuel with
    | O => (st_out Ctx s, st_stream Ctx s, OutOfFuel)
    | S k => match step_on c s with
             | Next _ s' => run_on k c s'
             | Stop _ out strm o => (out, strm, o)
             end
    end.
  (** bintype.py 412-422 [resolve_type_events] *)
  Definition type_events (fuel : nat) (t : ty Ctx) (c : Ctx) (version : list Z) (s : stream) : list (oev Ctx) * stream * outcome :=
    run_on fuel c (mkState Ctx (get_typedef Ctx t (Some version)) [] [] s []).
End Events.

(** 365-368, 378-383: the events of a class and the dict of the last one. *)
Definition class_events (fuel : nat) (c : string) (parent : node) (version : list Z) (s : stream)
  : list (oev node) * stream * option (res (list (string * value))) :=
  match type_events node fuel (class_type c) parent version s with
  | (out, s', Finished) =>
      (out, s', Some (match rev out with
                      | [] => Raise UnboundLocalError
                      | e :: _ => match oev_value node e with
                                  | Some (VDict d) => Ok d
                                  | Some _ => Raise TypeError
                                  | None => Raise KeyError
                                  end
                      end))
  | (out, s', Failed e) => (out, s', Some (Raise e))
  | (out, s', OutOfFuel) => (out, s', None)
  end.
Fixpoint extension_events (fuel : nat) (cs : list string) (parent : node) (version : list Z)
    (content : list (string * value)) (evs : list (oev node)) (s : stream)
  : list (oev node) * stream * option (res (list (string * value))) :=
  match cs with
  | [] => (evs, s, Some (Ok content))
  | c :: r =>
      match class_events fuel c parent version s with
      | (out, s', Some (Ok d)) => extension_events fuel r parent version (dict_update content d) (evs ++ out) s'
      | (out, s', x) => (evs ++ out, s', x)
      end
  end.

(** 357-385 [resolve_model_events]: the events, the stream, and type and content
    of the model. *)
Definition model_events (fuel : nat) (version : list Z) (parent : node) (tagid : Z) (payload : list Z)
  : list (oev node) * stream * option (res model) :=
  let base := model_type tagid in
  match class_events fuel base parent version (open_bytes payload) with
  | (evs, s, None) => (evs, s, None)
  | (evs, s, Some (Raise e)) => (evs, s, Some (Raise e))
  | (evs, s, Some (Ok content)) =>
      match extension_of base parent content with
      | Raise e => (evs, s, Some (Raise e))
      | Ok None => (evs, s, Some (Ok (mkModel base content evs (s_rest s))))
      | Ok (Some ext) =>
          match extension_events fuel (get_extension_mro ext base) parent version content evs s with
          | (evs', s', None) => (evs', s', None)
          | (evs', s', Some (Raise e)) => (evs', s', Some (Raise e))
          | (evs', s', Some (Ok content')) => (evs', s', Some (Ok (mkModel ext content' evs' (s_rest s'))))
          end
      end
  end.

(** The events of a stream: of a record (with what is left over at its end,
    490-494) and of its members. *)
Inductive mev : Type :=
| MStart (r : record)
| MEvent (e : oev node)
| MEnd (r : record) (offset : Z) (leftover : list Z).

(** 334-354 [resolve_models] with prefix_ancestors_from_level, as
    [parse_models_loop]; a context is created and given its stream for each
    record (479-489), so its leftover is what its own payload leaves. *)
Fixpoint events_loop (fuel : nat) (version : list Z) (base : option Z) (stack : list node) (records : list record) (o : outcome) : gen mev :=
  match records with
  | [] => ([], o)
  | r :: rest =>
      let b := match base with None => r_level r | Some b => b end in
      let level' := match base with None => 0 | Some b => r_level r - b end in
      match pop_to level' stack with
      | (_, Raise e) => ([], Failed e)
      | (_, Ok stack') =>
          match check_level level' stack', stack' with
          | Some e, _ => ([], Failed e)
          | None, [] => ([], Failed IndexError)
          | None, parent :: above =>
              match model_events fuel version parent (r_tagid r) (r_payload r) with
              | (evs, _, None) => (MStart r :: map MEvent evs, OutOfFuel)
              | (evs, _, Some (Raise e)) => (MStart r :: map MEvent evs, Failed e)
              | (evs, s, Some (Ok m)) =>
                  gapp (MStart r :: map MEvent evs ++ [MEnd r (s_pos s) (s_rest s)])
                       (events_loop fuel version (Some b) (model_node m :: on_child parent m :: above) rest o)
              end
          end
      end
  end.

(** 478-495 [parse_model_events]: tree by tree. *)
Fixpoint chain_events (fuel : nat) (version : list Z) (groups : list (list record)) (o : outcome) : gen mev :=
  match groups with
  | [] => ([], o)
  | g :: rest => match events_loop fuel version None [root_node] g Finished with
                 | (out, Finished) => gapp out (chain_events fuel version rest o)
                 | (out, o') => (out, o')
                 end
  end.
Definition stream_events (fuel : nat) (version : list Z) (records : gen record) : gen mev :=
  let groups := group_by_toplevel r_level records in
  chain_events fuel version (fst groups) (snd groups).
