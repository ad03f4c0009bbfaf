(** Model of src/hwp5/bintype.py: compiled type definitions and the event-based
    reader.  Layout declarations are those of src/hwp5/dataio.py 385-590. *)
From Coq Require Import ZArith String List Bool.
From Verif Require Import Base Model_Text Model_Dataio Model_ParaText.
Import ListNotations.
Open Scope Z_scope.

(** Python values produced by reading: ints, floats (bit pattern), flags
    (an int with named bit groups, dataio.py 207-227), text, bytes, paragraph
    text chunks, tuples, lists, dicts. *)
Inductive value : Type :=
| VInt (n : Z)
| VDouble (bits : Z)
| VFlags (groups : list (string * flag_field)) (n : Z)
| VText (t : list Z)
| VBytes (b : list Z)
| VChunks (l : list ((Z * Z) * chunk))
| VTuple (l : list value)
| VList (l : list value)
| VDict (d : list (string * value)).

(** The leaf types that bintype.py 380-409 distinguishes. *)
Inductive prim : Type :=
| PFmt (f : binfmt)          (* has [binfmt] *)
| PChid                      (* binmodel/controlchar.py 38-122 *)
| PBstr                      (* dataio.py 162-170 *)
| PChunks                    (* binmodel/tagid51_para_text.py 32-52 *)
| PBytes (n : Z)             (* filestructure.py 52-56 *)
| PHex (n : Z)               (* dataio.py 131-135 *)
| PVersion.                  (* filestructure.py 59-69 *)

(** b2a_hex *)
Definition b2a_hex (b : list Z) : list Z := concat (map (fmt_x 2) b).

Definition fmt_value (f : binfmt) (n : Z) : value :=
  match f with FmtDouble => VDouble n | _ => VInt n end.

(** filestructure.py 62-64 [VERSION.decode]; the same indices as CHID. *)
Definition version_decode (b : list Z) : res value :=
  match b with
  | b0 :: b1 :: b2 :: b3 :: _ => Ok (VTuple [VInt b3; VInt b2; VInt b1; VInt b0])
  | _ => Raise IndexError
  end.

(** bintype.py 380-409 [resolve_value_from_stream].  [None]: out of fuel, which
    does not happen (C22). *)
Definition prim_value (p : prim) (s : stream) : option (res value) * stream :=
  match p with
  | PFmt f =>
      match readn (calcsize f) s with
      | (Raise e, s') => (Some (Raise e), s')
      | (Ok b, s') => (Some (let? n := struct_unpack f b in Ok (fmt_value f n)), s')
      end
  | PChid =>
      match readn 4 s with
      | (Raise e, s') => (Some (Raise e), s')
      | (Ok b, s') => (Some (let? t := chid_decode b in Ok (VText t)), s')
      end
  | PBstr =>
      match bstr_read s with
      | (Raise e, s') => (Some (Raise e), s')
      | (Ok t, s') => (Some (Ok (VText t)), s')
      end
  | PChunks =>
      match para_text_read s with
      | (Some (Ok l), s') => (Some (Ok (VChunks l)), s')
      | (Some (Raise e), s') => (Some (Raise e), s')
      | (None, s') => (None, s')
      end
  | PBytes n =>
      match readn n s with
      | (Raise e, s') => (Some (Raise e), s')
      | (Ok b, s') => (Some (Ok (VBytes b)), s')
      end
  | PHex n =>
      match readn n s with
      | (Raise e, s') => (Some (Raise e), s')
      | (Ok b, s') => (Some (Ok (VBytes (b2a_hex b))), s')
      end
  | PVersion =>
      match readn 4 s with
      | (Raise e, s') => (Some (Raise e), s')
      | (Ok b, s') => (Some (version_decode b), s')
      end
  end.

(** Version tuples compare lexicographically. *)
Fixpoint version_lt (a b : list Z) : bool :=
  match a, b with
  | [], [] => false
  | [], _ :: _ => true
  | _ :: _, [] => false
  | x :: a', y :: b' => if x <? y then true else if y <? x then false else version_lt a' b'
  end.

Section Bintype.
  (** The parse context (a dict); references may look at it. *)
  Variable Ctx : Type.

  (** count_reference, selector_reference and condition (dataio.py 434-471):
      functions of the context and of the enclosing value as built so far. *)
  Definition ref (X : Type) : Type := Ctx -> value -> res X.

  (** Layout declarations.  Selection keys are ints or enum members (ints). *)
  Inductive ty : Type :=
  | TPrim (p : prim)
  | TFlags (base : binfmt) (groups : list (string * flag_field))   (* dataio.py 207-290 *)
  | TStruct (ms : members)                                        (* 541-588; no members: [MNil] *)
  | TFixed (t : ty) (size : Z)                                    (* ARRAY, 392-407 *)
  | TVar (counttype : binfmt) (t : ty)                            (* N_ARRAY, 413-428 *)
  | TX (count : ref Z) (t : ty)                                   (* X_ARRAY, 448-459 *)
  | TSel (selector : ref Z) (alternatives : alts)                 (* SelectiveType, 462-471 *)
  with members : Type :=
  | MNil
  | MCons (name : string) (version : option (list Z)) (cond : option (ref bool)) (t : ty) (rest : members)
  with alts : Type :=
  | ANil
  | ACons (key : Z) (t : ty) (rest : alts).

  (** The keys of an item dict besides 'type'. *)
  Record attrs : Type := mkAttrs {
    a_name : option string;
    a_version : option (list Z);
    a_cond : option (ref bool);
    a_when : option Z;            (* select_when *)
    a_count : option Z;
    a_dontcollect : bool
  }.
  Definition no_attrs : attrs := mkAttrs None None None None None false.
  Definition member_attrs (name : string) (v : option (list Z)) (c : option (ref bool)) : attrs :=
    mkAttrs (Some name) v c None None false.
  Definition with_when (a : attrs) (k : Z) : attrs :=
    mkAttrs (a_name a) (a_version a) (a_cond a) (Some k) (a_count a) (a_dontcollect a).
  Definition without_when (a : attrs) : attrs :=
    mkAttrs (a_name a) (a_version a) (a_cond a) None (a_count a) (a_dontcollect a).
  Definition without_cond (a : attrs) : attrs :=
    mkAttrs (a_name a) (a_version a) None (a_when a) (a_count a) (a_dontcollect a).
  Definition with_count (a : attrs) (n : Z) : attrs :=
    mkAttrs (a_name a) (a_version a) (a_cond a) (a_when a) (Some n) (a_dontcollect a).

  Definition item : Type := (attrs * ty)%type.

  (** (STARTEVENT, item), (ENDEVENT, item), (None, item) *)
  Inductive bev : Type :=
  | BStart (i : item)
  | BEnd (i : item)
  | BLeaf (i : item).

  Definition bev_item (e : bev) : item := match e with BStart i | BEnd i | BLeaf i => i end.
  Definition bev_with (e : bev) (i : item) : bev :=
    match e with BStart _ => BStart i | BEnd _ => BEnd i | BLeaf _ => BLeaf i end.

  (** bintype.py 44-86 [bintype_map_events].  The conversions between dicts and
      sorted tuples (104-120, 159-169) do not change an item's content; an END
      event refers to the same item as its START event. *)
  Fixpoint map_events (a : attrs) (t : ty) : list bev :=
    match t with
    | TPrim _ | TFlags _ _ => [BLeaf (a, t)]
    | TStruct ms => BStart (a, t) :: map_members ms ++ [BEnd (a, t)]
    | TFixed t' _ => BStart (a, t) :: map_events no_attrs t' ++ [BEnd (a, t)]
    | TVar _ t' => BStart (a, t) :: map_events no_attrs t' ++ [BEnd (a, t)]
    | TX _ t' => BStart (a, t) :: map_events no_attrs t' ++ [BEnd (a, t)]
    | TSel _ l => BStart (a, t) :: map_alts a l ++ [BEnd (a, t)]
    end
  with map_members (ms : members) : list bev :=
    match ms with
    | MNil => []
    | MCons name v c t rest => map_events (member_attrs name v c) t ++ map_members rest
    end
  with map_alts (a : attrs) (l : alts) : list bev :=
    match l with
    | ANil => []
    | ACons k t rest => map_events (with_when a k) t ++ map_alts a rest
    end.

  (** bintype.py 172-183 [pop_subevents] (and treeop.py 127-137, the same loop):
      what is consumed and what is left. *)
  Fixpoint pop_subevents_loop (level : Z) (evs : list bev) : list bev * list bev :=
    match evs with
    | [] => ([], [])
    | e :: rest =>
        match e with
        | BStart _ => let (out, left) := pop_subevents_loop (level + 1) rest in (e :: out, left)
        | BEnd _ =>
            if 0 <? level then let (out, left) := pop_subevents_loop (level - 1) rest in (e :: out, left)
            else ([e], rest)
        | BLeaf _ => let (out, left) := pop_subevents_loop level rest in (e :: out, left)
        end
    end.
  Definition pop_subevents (evs : list bev) := pop_subevents_loop 0 evs.

  (** bintype.py 89-101 [filter_with_version]. *)
  Fixpoint filter_loop (fuel : nat) (evs : list bev) (version : list Z) : gen bev :=
    match evs with
    | [] => ([], Finished)
    | e :: rest =>
        match fuel with
        | O => ([], OutOfFuel)
        | S k =>
            match a_version (fst (bev_item e)) with
            | Some req =>
                if version_lt version req then
                  match e with
                  | BStart _ => filter_loop k (snd (pop_subevents rest)) version
                  | _ => filter_loop k rest version
                  end
                else gcons e (filter_loop k rest version)
            | None => gcons e (filter_loop k rest version)
            end
        end
    end.
  Definition filter_with_version (evs : list bev) (version : list Z) : gen bev :=
    filter_loop (List.length evs) evs version.

  (** bintype.py 412-419 [resolve_type_events], 126-152: the compiled
      definition for the version in the context, if there is one.  The caches
      are in Model_Heap.v (they map a type and version to this result, C85). *)
  Definition get_typedef (t : ty) (version : option (list Z)) : list bev :=
    let evs := map_events no_attrs t in
    match version with
    | None => evs
    | Some v => fst (filter_with_version evs v)
    end.

  (** What is reported while reading: (STARTEVENT, item), (None, item) with
      bin_offset and value, (ENDEVENT, item) with value, (ERROREVENT, item). *)
  Inductive oev : Type :=
  | OStart (name : option string) (t : ty)
  | OLeaf (name : option string) (t : ty) (offset : Z) (v : value)
  | OEnd (name : option string) (t : ty) (v : value)
  | OError (name : option string) (t : ty) (offset : Z) (e : exn).

  (** State of the chained generators of bintype.py 356-363: the event deque,
      the stack of open items with their values (the stacks of lines 190 and 297
      hold the same items), the stack of select keys, the stream, and what has
      been reported. *)
  Record state : Type := mkState {
    st_events : list bev;
    st_stack : list (item * value);
    st_select : list Z;
    st_stream : stream;
    st_out : list oev
  }.

  (** bintype.py 313-324: collect a value into the enclosing one. *)
  Definition collect (i : item) (v : value) (stack : list (item * value)) : res (list (item * value)) :=
    match stack with
    | [] => Ok []
    | (pi, pv) :: below =>
        if a_dontcollect (fst i) then Ok stack
        else match pv with
             | VDict d =>
                 match a_name (fst i) with
                 | Some n => Ok ((pi, VDict (dict_set n v d)) :: below)
                 | None => Raise KeyError
                 end
             | VList l => Ok ((pi, VList (l ++ [v])) :: below)
             | _ => Ok stack
             end
    end.

  (** A leaf passing through resolve_values (366-377), evaluate_bin_values
      (286-292), construct_composite_values and read_type_events (425-439).
      A failed read of a flags item has no 'value': KeyError at line 291. *)
  Inductive leaf_res : Type :=
  | LeafOk (v : value) (s : stream)
  | LeafError (s : stream) (e : exn)      (* ERROREVENT, then ParseError *)
  | LeafRaise (s : stream) (e : exn)      (* raised inside the chain *)
  | LeafFuel.

  Definition read_leaf (t : ty) (s : stream) : leaf_res :=
    match t with
    | TPrim p =>
        match prim_value p s with
        | (Some (Ok v), s') => LeafOk v s'
        | (Some (Raise e), s') => LeafError s' e
        | (None, _) => LeafFuel
        end
    | TFlags base groups =>
        match prim_value (PFmt base) s with
        | (Some (Ok v), s') =>
            match v with
            | VInt n => LeafOk (VFlags groups n) s'
            | _ => LeafRaise s' TypeError
            end
        | (Some (Raise e), s') => LeafRaise s' KeyError
        | (None, _) => LeafFuel
        end
    | _ => LeafRaise s AssertionError
    end.

  Inductive step_res : Type :=
  | Next (s : state)
  | Stop (out : list oev) (strm : stream) (o : outcome).

  Definition stop (s : state) (e : exn) : step_res := Stop (st_out s) (st_stream s) (Failed e).

  (** [range(0, count)] *)
  Definition times {X} (count : Z) (l : list X) : list X := concat (repeat l (Z.to_nat count)).

  (** bintype.py 230-270, after the count is known: the sub-events are
      repeated [count] times between the START event (now with its count) and
      the END event. *)
  Definition expand_array (count : Z) (a : attrs) (t : ty) (rest : list bev) (s : state)
      (strm : stream) (out : list oev) : step_res :=
    match rev (fst (pop_subevents rest)) with
    | [] => Stop out strm (Failed IndexError)                  (* subevents[-1] *)
    | endevent :: rsub =>
        Next (mkState (BStart (with_count a count, t) :: times count (rev rsub) ++ endevent :: snd (pop_subevents rest))
                      (st_stack s) (st_select s) strm out)
    end.

  (** bintype.py 186-283 [resolve_typedefs]: one turn of the loop, together
      with what the later generators do with the event it yields. *)
  Definition skip_tree (e : bev) (rest : list bev) : list bev :=
    match e with BStart _ => snd (pop_subevents rest) | _ => rest end.

  Definition step (c : Ctx) (s : state) : step_res :=
    match st_events s with
    | [] => Stop (st_out s) (st_stream s) Finished
    | e :: rest =>
        let (a, t) := bev_item e in
        match t with
        | TSel selector _ =>
            (* 196-208 *)
            match e with
            | BStart _ =>
                match st_stack s with
                | [] => stop s IndexError
                | (_, pv) :: _ =>
                    match selector c pv with
                    | Raise x => stop s x
                    | Ok k => Next (mkState rest (st_stack s) (k :: st_select s) (st_stream s) (st_out s))
                    end
                end
            | BEnd _ =>
                match st_select s with
                | [] => stop s IndexError
                | _ :: ks => Next (mkState rest (st_stack s) ks (st_stream s) (st_out s))
                end
            | BLeaf _ => stop s AssertionError
            end
        | _ =>
            match e with
            | BEnd _ =>
                (* the item lost select_when and condition, and got its count,
                   at its START event *)
                match st_stack s with
                | [] => stop s IndexError
                | (i, v) :: below =>
                    let v' := match snd i, v with TFixed _ _, VList l => VTuple l | _, _ => v end in
                    match collect i v' below with
                    | Raise x => stop s x
                    | Ok stack' => Next (mkState rest stack' (st_select s) (st_stream s)
                                                 (st_out s ++ [OEnd (a_name (fst i)) (snd i) v']))
                    end
                end
            | _ =>
                match a_when a with
                | Some k =>
                    (* 209-222 *)
                    match st_select s with
                    | [] => stop s IndexError
                    | key :: _ =>
                        if k =? key
                        then Next (mkState (bev_with e (without_when a, t) :: rest) (st_stack s) (st_select s) (st_stream s) (st_out s))
                        else Next (mkState (skip_tree e rest) (st_stack s) (st_select s) (st_stream s) (st_out s))
                    end
                | None =>
                    match a_cond a with
                    | Some cond =>
                        (* 223-236 *)
                        match st_stack s with
                        | [] => stop s IndexError
                        | (_, pv) :: _ =>
                            match cond c pv with
                            | Raise x => stop s x
                            | Ok true => Next (mkState (bev_with e (without_cond a, t) :: rest) (st_stack s) (st_select s) (st_stream s) (st_out s))
                            | Ok false => Next (mkState (skip_tree e rest) (st_stack s) (st_select s) (st_stream s) (st_out s))
                            end
                        end
                    | None =>
                        match t, a_count a with
                        | TX count _, None =>
                            match st_stack s with
                            | [] => stop s IndexError
                            | (_, pv) :: _ =>
                                match count c pv with
                                | Raise x => stop s x
                                | Ok n => expand_array n a t rest s (st_stream s) (st_out s)
                                end
                            end
                        | TVar counttype _, None =>
                            let pos := s_pos (st_stream s) in
                            match read_leaf (TPrim (PFmt counttype)) (st_stream s) with
                            | LeafOk v s' =>
                                let out := st_out s ++ [OLeaf None (TPrim (PFmt counttype)) pos v] in
                                match v with
                                | VInt n => expand_array n a t rest s s' out
                                | _ => Stop out s' (Failed TypeError)
                                end
                            | LeafError s' x =>
                                Stop (st_out s ++ [OError None (TPrim (PFmt counttype)) pos x]) s' (Failed (ParseError x pos))
                            | LeafRaise s' x => Stop (st_out s) s' (Failed x)
                            | LeafFuel => Stop (st_out s) (st_stream s) OutOfFuel
                            end
                        | TFixed _ n, None => expand_array n a t rest s (st_stream s) (st_out s)
                        | _, _ =>
                            match e with
                            | BStart i =>
                                Next (mkState rest
                                        ((i, match t with TStruct _ => VDict [] | _ => VList [] end) :: st_stack s)
                                        (st_select s) (st_stream s) (st_out s ++ [OStart (a_name a) t]))
                            | _ =>
                                let pos := s_pos (st_stream s) in
                                match read_leaf t (st_stream s) with
                                | LeafOk v s' =>
                                    match collect (a, t) v (st_stack s) with
                                    | Raise x => Stop (st_out s) s' (Failed x)
                                    | Ok stack' => Next (mkState rest stack' (st_select s) s' (st_out s ++ [OLeaf (a_name a) t pos v]))
                                    end
                                | LeafError s' x => Stop (st_out s ++ [OError (a_name a) t pos x]) s' (Failed (ParseError x pos))
                                | LeafRaise s' x => Stop (st_out s) s' (Failed x)
                                | LeafFuel => Stop (st_out s) (st_stream s) OutOfFuel
                                end
                            end
                        end
                    end
                end
            end
        end
    end.

  Fixpoint run (fuel : nat) (c : Ctx) (s : state) : list oev * stream * outcome :=
    match fuel with
    | O => (st_out s, st_stream s, OutOfFuel)
    | S k => match step c s with
             | Next s' => run k c s'
             | Stop out strm o => (out, strm, o)
             end
    end.

  (** bintype.py 425-439 [read_type_events] and 442-450 [read_type_item]:
      the collected events. *)
  Definition read_type_events (fuel : nat) (t : ty) (c : Ctx) (version : option (list Z)) (s : stream)
    : list oev * stream * outcome :=
    run fuel c (mkState (get_typedef t version) [] [] s []).

  Definition oev_value (e : oev) : option value :=
    match e with OLeaf _ _ _ v | OEnd _ _ v => Some v | _ => None end.

  (** bintype.py 453-455 [read_type]: the value of the last event's item. *)
  Definition read_type (fuel : nat) (t : ty) (c : Ctx) (version : option (list Z)) (s : stream)
    : option (res value) * stream :=
    match read_type_events fuel t c version s with
    | (out, s', Finished) =>
        (match rev out with
         | [] => Some (Raise IndexError)
         | e :: _ => match oev_value e with Some v => Some (Ok v) | None => Some (Raise KeyError) end
         end, s')
    | (_, s', Failed e) => (Some (Raise e), s')
    | (_, s', OutOfFuel) => (None, s')
    end.
End Bintype.

(** dataio.py 434-438 [ref_member] *)
Definition ref_member {Ctx} (name : string) : ref Ctx value :=
  fun _ vs => match vs with
              | VDict d => match dict_get name d with Some v => Ok v | None => Raise KeyError end
              | _ => Raise TypeError
              end.

(** As a count: an int (or an int with named bits). *)
Definition int_of_value (v : value) : res Z :=
  match v with VInt n | VFlags _ n => Ok n | _ => Raise TypeError end.

Definition ref_member_int {Ctx} (name : string) : ref Ctx Z :=
  fun c vs => let? v := ref_member name c vs in int_of_value v.

(** dataio.py 441-445 [ref_member_flag]: a bit group of a flags member. *)
Definition ref_member_flag {Ctx} (name field : string) : ref Ctx Z :=
  fun c vs => let? v := ref_member name c vs in
              match v with
              | VFlags groups n =>
                  match dict_get field groups with
                  | Some (lsb, msb, _) => Ok (get_int_value lsb msb n)
                  | None => Raise AttributeError
                  end
              | _ => Raise AttributeError
              end.
