(** The reader of structured values with its mutable objects: the dicts that
    events refer to, the deque of events, and the caches of compiled layouts
    that live as long as the program (bintype.py).  Model_Bintype.v describes
    the same code with values in place of objects. *)
From Coq Require Import ZArith String List Bool.
From Verif Require Import Base Model_Dataio Model_ParaText Model_Bintype.
Import ListNotations.
Open Scope Z_scope.

(** The three markers of treeop.py 24-29 and None (bintype.py 44-86). *)
Inductive kind : Type := KStart | KEnd | KLeaf.
(** What is handed out: the same, and ERROREVENT (bintype.py 155-156). *)
Inductive ykind : Type := YStart | YEnd | YLeaf | YError.

Section Heap.
  Variable Ctx : Type.
  Notation ty := (ty Ctx).
  Notation attrs := (attrs Ctx).
  Notation item := (item Ctx).
  Notation bev := (bev Ctx).
  Notation oev := (oev Ctx).

  (** An item dict (bintype.py 44-283, 286-325, 366-377): 'type', the keys of
      [attrs], 'select_key', 'value', 'bin_offset' and 'exception'.  The keys
      'bin_type' and 'flags_type' (81-82) are determined by 'type'.  'value' is
      a value: the dict or list being filled (300-303) is held by its item alone
      until the item's END event. *)
  Record obj : Type := mkObj {
    o_attrs : attrs;
    o_ty : ty;
    o_select : option Z;
    o_value : option value;
    o_offset : option Z;
    o_exn : option exn
  }.

  (** Objects are numbered in the order of their creation; [dict(...)] adds one. *)
  Definition heap : Type := list obj.
  Definition fresh (i : item) : obj := mkObj (fst i) (snd i) None None None None.
  (** An address always belongs to an object; the default is never looked at. *)
  Definition hget (h : heap) (a : nat) : obj := nth a h (fresh (no_attrs Ctx, TStruct Ctx (MNil Ctx))).
  Fixpoint hset (h : heap) (a : nat) (o : obj) : heap :=
    match h, a with
    | [], _ => []
    | _ :: r, O => o :: r
    | x :: r, S k => x :: hset r k o
    end.
  Definition hput (h : heap) (a : nat) (f : obj -> obj) : heap := hset h a (f (hget h a)).

  Definition content (h : heap) (a : nat) : item := (o_attrs (hget h a), o_ty (hget h a)).

  (** [item[key] = value] and [item.pop(key)] *)
  Definition put_attrs (x : attrs) (o : obj) : obj := mkObj x (o_ty o) (o_select o) (o_value o) (o_offset o) (o_exn o).
  Definition put_select (k : Z) (o : obj) : obj := mkObj (o_attrs o) (o_ty o) (Some k) (o_value o) (o_offset o) (o_exn o).
  Definition put_value (v : value) (o : obj) : obj := mkObj (o_attrs o) (o_ty o) (o_select o) (Some v) (o_offset o) (o_exn o).
  Definition put_offset (n : Z) (o : obj) : obj := mkObj (o_attrs o) (o_ty o) (o_select o) (o_value o) (Some n) (o_exn o).
  Definition put_exn (e : exn) (o : obj) : obj := mkObj (o_attrs o) (o_ty o) (o_select o) (o_value o) (o_offset o) (Some e).

  (** Events of a compiled layout, whose items are tuples (104-120), and events
      whose items are dicts. *)
  Definition static : Type := (kind * item)%type.
  Definition hev : Type := (kind * nat)%type.

  Definition static_of (e : bev) : static :=
    match e with BStart _ i => (KStart, i) | BEnd _ i => (KEnd, i) | BLeaf _ i => (KLeaf, i) end.

  (** bintype.py 104-114 [make_items_immutable]: an END event gets the tuple of
      its START event from the stack. *)
  Fixpoint freeze {X} (look : X -> item) (stack : list item) (evs : list (kind * X)) : res (list static) :=
    match evs with
    | [] => Ok []
    | (KLeaf, x) :: r => let? out := freeze look stack r in Ok ((KLeaf, look x) :: out)
    | (KStart, x) :: r => let? out := freeze look (look x :: stack) r in Ok ((KStart, look x) :: out)
    | (KEnd, _) :: r =>
        match stack with
        | [] => Raise IndexError
        | i :: below => let? out := freeze look below r in Ok ((KEnd, i) :: out)
        end
    end.

  (** bintype.py 159-169 [static_to_mutable] and 262-271 [clone]: a new dict
      with the same keys for every item; an END event gets the dict of its START
      event from the stack. *)
  Fixpoint copy {X} (look : heap -> X -> obj) (h : heap) (stack : list nat) (evs : list (kind * X)) : res (heap * list hev) :=
    match evs with
    | [] => Ok (h, [])
    | (KLeaf, x) :: r =>
        let? (h', out) := copy look (h ++ [look h x]) stack r in Ok (h', (KLeaf, List.length h) :: out)
    | (KStart, x) :: r =>
        let? (h', out) := copy look (h ++ [look h x]) (List.length h :: stack) r in Ok (h', (KStart, List.length h) :: out)
    | (KEnd, _) :: r =>
        match stack with
        | [] => Raise IndexError
        | a :: below => let? (h', out) := copy look h below r in Ok (h', (KEnd, a) :: out)
        end
    end.
  Definition thaw (h : heap) (evs : list static) : res (heap * list hev) := copy (fun _ i => fresh i) h [] evs.
  Definition clone (h : heap) (evs : list hev) : res (heap * list hev) := copy hget h [] evs.

  (** bintype.py 172-183 [pop_subevents], treeop.py 127-137 [iter_subevents]:
      what is consumed and what is left. *)
  Fixpoint hpop (level : Z) (evs : list hev) : list hev * list hev :=
    match evs with
    | [] => ([], [])
    | (k, a) :: rest =>
        match k with
        | KStart => let (out, left) := hpop (level + 1) rest in ((k, a) :: out, left)
        | KEnd =>
            if 0 <? level then let (out, left) := hpop (level - 1) rest in ((k, a) :: out, left)
            else ([(k, a)], rest)
        | KLeaf => let (out, left) := hpop level rest in ((k, a) :: out, left)
        end
    end.

  (** bintype.py 89-101 [filter_with_version], over dicts. *)
  Fixpoint hfilter (fuel : nat) (h : heap) (evs : list hev) (version : list Z) : list hev :=
    match evs, fuel with
    | [], _ | _, O => []
    | (k, a) :: rest, S n =>
        match a_version Ctx (o_attrs (hget h a)) with
        | Some req =>
            if version_lt version req then
              match k with
              | KStart => hfilter n h (snd (hpop 0 rest)) version
              | _ => hfilter n h rest version
              end
            else (k, a) :: hfilter n h rest version
        | None => (k, a) :: hfilter n h rest version
        end
    end.

  (** ** The chain of generators of bintype.py 356-363 *)

  (** The deque of events and the stacks of [resolve_typedefs] (190, 191), the
      stack of [construct_composite_values] (297), the stream, and the (event,
      item) pairs handed out so far. *)
  Record hstate : Type := mkH {
    h_heap : heap;
    h_events : list hev;
    h_stack : list nat;
    h_selects : list nat;
    h_values : list nat;
    h_stream : stream;
    h_out : list (ykind * nat)
  }.

  Inductive hstep_res : Type :=
  | HNext (s : hstate)
  | HStop (h : heap) (out : list (ykind * nat)) (strm : stream) (o : outcome).

  Definition hstop (s : hstate) (e : exn) : hstep_res := HStop (h_heap s) (h_out s) (h_stream s) (Failed e).

  Definition is_array (t : ty) : bool :=
    match t with TFixed _ _ _ | TVar _ _ _ | TX _ _ _ => true | _ => false end.

  (** bintype.py 313-324: the value of item [b] goes into the value of the item
      on top of the stack. *)
  Definition hcollect (h : heap) (stack : list nat) (b : nat) (v : value) : res heap :=
    match stack with
    | [] => Ok h
    | p :: _ =>
        if a_dontcollect Ctx (o_attrs (hget h b)) then Ok h
        else match o_ty (hget h p) with
             | TStruct _ _ =>
                 match a_name Ctx (o_attrs (hget h b)) with
                 | None => Raise KeyError
                 | Some n =>
                     match o_value (hget h p) with
                     | Some (VDict d) => Ok (hput h p (put_value (VDict (dict_set n v d))))
                     | Some _ => Raise TypeError
                     | None => Raise KeyError
                     end
                 end
             | t =>
                 if is_array t then
                   match o_value (hget h p) with
                   | Some (VList l) => Ok (hput h p (put_value (VList (l ++ [v]))))
                   | Some _ => Raise AttributeError
                   | None => Raise KeyError
                   end
                 else Ok h
             end
    end.

  (** bintype.py 274-276: the sub-events cloned [n] times, each batch put in
      front of the earlier ones. *)
  Fixpoint clones (n : nat) (h : heap) (sub : list hev) : res (heap * list hev) :=
    match n with
    | O => Ok (h, [])
    | S k => let? (h1, one) := clone h sub in
             let? (h2, more) := clones k h1 sub in
             Ok (h2, more ++ one)
    end.

  (** bintype.py 256-277, once the count is known. *)
  Definition hexpand (s : hstate) (h : heap) (strm : stream) (out : list (ykind * nat)) (n : Z) (a : nat) (rest : list hev) : hstep_res :=
    let h1 := hput h a (fun o => put_attrs (with_count Ctx (o_attrs o) n) o) in
    match rev (fst (hpop 0 rest)) with
    | [] => HStop h1 out strm (Failed IndexError)
    | endevent :: rsub =>
        match clones (Z.to_nat n) h1 (rev rsub) with
        | Raise e => HStop h1 out strm (Failed e)
        | Ok (h2, l) =>
            HNext (mkH h2 ((KStart, a) :: l ++ endevent :: snd (hpop 0 rest)) (h_stack s) (h_selects s) (h_values s) strm out)
        end
    end.

  Definition hskip (k : kind) (rest : list hev) : list hev :=
    match k with KStart => snd (hpop 0 rest) | _ => rest end.

  (** A reference evaluated in [stack[-1]['value']] (199-202, 229-230, 245-249). *)
  Definition parent_value (s : hstate) : res value :=
    match h_stack s with
    | [] => Raise IndexError
    | p :: _ => match o_value (hget (h_heap s) p) with None => Raise KeyError | Some v => Ok v end
    end.

  (** A leaf passing through resolve_values (366-377), evaluate_bin_values
      (286-292) and construct_composite_values (295-325): its dict gets
      'bin_offset' and 'value' or 'exception'. *)
  Definition hleaf (s : hstate) (h : heap) (a : nat) (next : heap -> stream -> value -> hstep_res) : hstep_res :=
    let pos := s_pos (h_stream s) in
    let h1 := hput h a (put_offset pos) in
    match read_leaf Ctx (o_ty (hget h a)) (h_stream s) with
    | LeafOk v s' =>
        let h2 := hput h1 a (put_value v) in
        match hcollect h2 (h_values s) a v with
        | Raise x => HStop h2 (h_out s) s' (Failed x)
        | Ok h3 => next h3 s' v
        end
    | LeafError s' x => HStop (hput h1 a (put_exn x)) (h_out s ++ [(YError, a)]) s' (Failed (ParseError x pos))
    | LeafRaise s' x => HStop h1 (h_out s) s' (Failed x)
    | LeafFuel => HStop h1 (h_out s) (h_stream s) OutOfFuel
    end.

  (** One turn of the loop of bintype.py 195-283, together with what the later
      generators do with the event it yields. *)
  Definition hstep (c : Ctx) (s : hstate) : hstep_res :=
    let h := h_heap s in
    match h_events s with
    | [] => HStop h (h_out s) (h_stream s) Finished
    | (k, a) :: rest =>
        let o := hget h a in
        match o_ty o with
        | TSel _ selector _ =>
            (* 197-209 *)
            match k with
            | KStart =>
                match (let? pv := parent_value s in selector c pv) with
                | Raise x => hstop s x
                | Ok key => HNext (mkH (hput h a (put_select key)) rest (h_stack s) (a :: h_selects s) (h_values s) (h_stream s) (h_out s))
                end
            | KEnd =>
                match h_selects s with
                | [] => hstop s IndexError
                | _ :: below => HNext (mkH h rest (h_stack s) below (h_values s) (h_stream s) (h_out s))
                end
            | KLeaf => hstop s AssertionError
            end
        | _ =>
            match a_when Ctx (o_attrs o) with
            | Some w =>
                (* 210-225 *)
                match k, h_selects s with
                | KEnd, _ => hstop s AssertionError
                | _, [] => hstop s IndexError
                | _, sel :: _ =>
                    match o_select (hget h sel) with
                    | None => hstop s KeyError
                    | Some key =>
                        HNext (mkH (hput h a (fun o => put_attrs (without_when Ctx (o_attrs o)) o))
                                   (if w =? key then (k, a) :: rest else hskip k rest)
                                   (h_stack s) (h_selects s) (h_values s) (h_stream s) (h_out s))
                    end
                end
            | None =>
                match a_cond Ctx (o_attrs o) with
                | Some cond =>
                    (* 226-240 *)
                    match k with
                    | KEnd => hstop s AssertionError
                    | _ =>
                        match (let? pv := parent_value s in cond c pv) with
                        | Raise x => hstop s x
                        | Ok b =>
                            HNext (mkH (hput h a (fun o => put_attrs (without_cond Ctx (o_attrs o)) o))
                                       (if b then (k, a) :: rest else hskip k rest)
                                       (h_stack s) (h_selects s) (h_values s) (h_stream s) (h_out s))
                        end
                    end
                | None =>
                    match is_array (o_ty o), a_count Ctx (o_attrs o) with
                    | true, None =>
                        (* 241-277 *)
                        match k with
                        | KStart =>
                            match o_ty o with
                            | TX _ count _ =>
                                match (let? pv := parent_value s in count c pv) with
                                | Raise x => hstop s x
                                | Ok n => hexpand s h (h_stream s) (h_out s) n a rest
                                end
                            | TVar _ counttype _ =>
                                let b := List.length h in
                                let h0 := h ++ [fresh (mkAttrs Ctx None None None None None true, TPrim Ctx (PFmt counttype))] in
                                hleaf s h0 b (fun h' s' v =>
                                  match v with
                                  | VInt n => hexpand s h' s' (h_out s ++ [(YLeaf, b)]) n a rest
                                  | _ => HStop h' (h_out s ++ [(YLeaf, b)]) s' (Failed TypeError)
                                  end)
                            | TFixed _ _ n => hexpand s h (h_stream s) (h_out s) n a rest
                            | _ => hstop s AssertionError
                            end
                        | _ => hstop s AssertionError
                        end
                    | _, _ =>
                        (* 278-283, then 366-377, 286-292 and 295-325 *)
                        match k with
                        | KStart =>
                            match o_ty o with
                            | TPrim _ _ | TFlags _ _ _ | TSel _ _ _ => hstop s AssertionError
                            | t =>
                                HNext (mkH (hput h a (put_value (match t with TStruct _ _ => VDict [] | _ => VList [] end)))
                                           rest (a :: h_stack s) (h_selects s) (a :: h_values s) (h_stream s) (h_out s ++ [(YStart, a)]))
                            end
                        | KEnd =>
                            match h_stack s, h_values s with
                            | [], _ | _, [] => hstop s IndexError
                            | _ :: stack, b :: values =>
                                match o_value (hget h b) with
                                | None => hstop s KeyError
                                | Some v =>
                                    let v' := match o_ty (hget h b), v with TFixed _ _ _, VList l => VTuple l | _, _ => v end in
                                    let h1 := hput h b (put_value v') in
                                    match hcollect h1 values b v' with
                                    | Raise x => HStop h1 (h_out s) (h_stream s) (Failed x)
                                    | Ok h2 => HNext (mkH h2 rest stack (h_selects s) values (h_stream s) (h_out s ++ [(YEnd, b)]))
                                    end
                                end
                            end
                        | KLeaf =>
                            hleaf s h a (fun h' s' v =>
                              HNext (mkH h' rest (h_stack s) (h_selects s) (h_values s) s' (h_out s ++ [(YLeaf, a)])))
                        end
                    end
                end
            end
        end
    end.

  Fixpoint hrun (fuel : nat) (c : Ctx) (s : hstate) : heap * list (ykind * nat) * stream * outcome :=
    match fuel with
    | O => (h_heap s, h_out s, h_stream s, OutOfFuel)
    | S k => match hstep c s with
             | HNext s' => hrun k c s'
             | HStop h out strm o => (h, out, strm, o)
             end
    end.

  (** ** The program between reads *)

  (** Layout declarations are classes or instances, compared by identity: a
      number for each, and what it declares (dataio.py 380-471, 541-588).  Of a
      declaration only the member dicts change: compiling adds 'bin_type' and
      'flags_type' to them (bintype.py 81-82), always the same. *)
  Variable classes : nat -> ty.

  (** The objects made so far, and the two caches (bintype.py 123, 134). *)
  Record interp : Type := mkInterp {
    in_heap : heap;
    in_master : list (nat * list static);
    in_versioned : list (list Z * list (nat * list static))
  }.

  Fixpoint assoc {K V} (eqb : K -> K -> bool) (k : K) (l : list (K * V)) : option V :=
    match l with [] => None | (k', v) :: r => if eqb k k' then Some v else assoc eqb k r end.
  (** [d[k] = v] *)
  Fixpoint assoc_set {K V} (eqb : K -> K -> bool) (k : K) (v : V) (l : list (K * V)) : list (K * V) :=
    match l with [] => [(k, v)] | (k', v') :: r => if eqb k k' then (k, v) :: r else (k', v') :: assoc_set eqb k v r end.
  (** Version tuples are equal if their numbers are. *)
  Fixpoint version_eqb (a b : list Z) : bool :=
    match a, b with
    | [], [] => true
    | x :: a', y :: b' => (x =? y) && version_eqb a' b'
    | _, _ => false
    end.

  (** bintype.py 117-120 [compile_type_definition] *)
  Definition compile (id : nat) : res (list static) :=
    freeze (fun i => i) [] (map static_of (map_events Ctx (no_attrs Ctx) (classes id))).

  (** bintype.py 126-131 [get_compiled_typedef] *)
  Definition compiled (st : interp) (id : nat) : interp * res (list static) :=
    match assoc Nat.eqb id (in_master st) with
    | Some evs => (st, Ok evs)
    | None =>
        match compile id with
        | Raise e => (st, Raise e)
        | Ok evs => (mkInterp (in_heap st) (assoc_set Nat.eqb id evs (in_master st)) (in_versioned st), Ok evs)
        end
    end.

  (** bintype.py 137-152 [get_compiled_typedef_with_version] *)
  Definition compiled_with_version (st : interp) (id : nat) (version : list Z) : interp * res (list static) :=
    let typedefs := match assoc version_eqb version (in_versioned st) with Some d => d | None => [] end in
    let st0 := mkInterp (in_heap st) (in_master st) (assoc_set version_eqb version typedefs (in_versioned st)) in
    match assoc Nat.eqb id typedefs with
    | Some evs => (st0, Ok evs)
    | None =>
        match compiled st0 id with
        | (st1, Raise e) => (st1, Raise e)
        | (st1, Ok evs) =>
            match thaw (in_heap st1) evs with
            | Raise e => (st1, Raise e)
            | Ok (h, l) =>
                let st2 := mkInterp h (in_master st1) (in_versioned st1) in
                match freeze (content h) [] (hfilter (List.length l) h l version) with
                | Raise e => (st2, Raise e)
                | Ok out =>
                    (mkInterp h (in_master st1)
                       (assoc_set version_eqb version (assoc_set Nat.eqb id out typedefs) (in_versioned st1)), Ok out)
                end
            end
        end
    end.

  (** A call of [read_type_events] (bintype.py 425-439) and of what it starts
      (356-363, 412-422), consumed to its end: the declaration, the context, the
      version in it if any, and the stream. *)
  Record call : Type := mkCall { c_class : nat; c_ctx : Ctx; c_version : option (list Z); c_stream : stream; c_fuel : nat }.
  Record answer : Type := mkAnswer { ans_out : list (ykind * nat); ans_stream : stream; ans_outcome : outcome }.

  Definition read_events (st : interp) (q : call) : interp * answer :=
    let '(st1, r) := match c_version q with
                     | Some v => compiled_with_version st (c_class q) v
                     | None => compiled st (c_class q)
                     end in
    let failed e h := (mkInterp h (in_master st1) (in_versioned st1), mkAnswer [] (c_stream q) (Failed e)) in
    match r with
    | Raise e => failed e (in_heap st1)
    | Ok evs =>
        (* static_to_mutable twice: lines 357 and 193 *)
        match thaw (in_heap st1) evs with
        | Raise e => failed e (in_heap st1)
        | Ok (h1, l1) =>
            match clone h1 l1 with
            | Raise e => failed e h1
            | Ok (h2, l2) =>
                let '(h3, out, strm, o) := hrun (c_fuel q) (c_ctx q) (mkH h2 l2 [] [] [] (c_stream q) []) in
                (mkInterp h3 (in_master st1) (in_versioned st1), mkAnswer out strm o)
            end
        end
    end.

  (** The program as it starts: no object made, nothing compiled. *)
  Definition started : interp := mkInterp [] [] [].

  (** What an (event, item) pair says when its dict is looked at. *)
  Definition view (h : heap) (e : ykind * nat) : option oev :=
    let o := hget h (snd e) in
    let name := a_name Ctx (o_attrs o) in
    match fst e, o_offset o, o_value o, o_exn o with
    | YStart, _, _, _ => Some (OStart Ctx name (o_ty o))
    | YEnd, _, Some v, _ => Some (OEnd Ctx name (o_ty o) v)
    | YLeaf, Some pos, Some v, _ => Some (OLeaf Ctx name (o_ty o) pos v)
    | YError, Some pos, _, Some x => Some (OError Ctx name (o_ty o) pos x)
    | _, _, _, _ => None
    end.

  (** bintype.py 453-455 [read_type]: ['value'] of the last pair's item. *)
  Definition read_value (st : interp) (q : call) : interp * option (res value) :=
    let '(st', ans) := read_events st q in
    (st', match ans_outcome ans with
          | Finished =>
              match rev (ans_out ans) with
              | [] => Some (Raise IndexError)
              | (_, a) :: _ => match o_value (hget (in_heap st') a) with Some v => Some (Ok v) | None => Some (Raise KeyError) end
              end
          | Failed e => Some (Raise e)
          | OutOfFuel => None
          end).
End Heap.
