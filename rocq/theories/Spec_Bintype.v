(** Specification of reading a declared layout: members one after another. *)
From Coq Require Import ZArith String List Bool.
From Verif Require Import Base Model_Text Model_Dataio Model_ParaText Model_Bintype Spec_Text Spec_Dataio Spec_ParaText.
Import ListNotations.
Open Scope Z_scope.

(** ** Leaf values and their bytes *)

(** [prim_bytes p v b rest]: the value [v] of type [p] is written as [b]; [rest]
    is what follows (paragraph text extends to the end). *)
Inductive prim_bytes : prim -> value -> list Z -> list Z -> Prop :=
| pb_int : forall f n rest, f <> FmtDouble -> (0 < fmt_width f)%nat -> fmt_range f n ->
    prim_bytes (PFmt f) (VInt n) (number_bytes (fmt_width f) n) rest
| pb_double : forall n rest, fmt_range FmtDouble n -> prim_bytes (PFmt FmtDouble) (VDouble n) (number_bytes 8 n) rest
| pb_chid : forall b0 b1 b2 b3 rest, prim_bytes PChid (VText [b3; b2; b1; b0]) [b0; b1; b2; b3] rest
| pb_bstr : forall cs rest, Forall scalar cs -> zlen (utf16_units cs) < 65536 ->
    prim_bytes PBstr (VText cs) (number_bytes 2 (zlen (utf16_units cs)) ++ utf16le_bytes cs) rest
| pb_bytes : forall b rest, b <> [] -> prim_bytes (PBytes (zlen b)) (VBytes b) b rest
| pb_hex : forall b rest, b <> [] -> prim_bytes (PHex (zlen b)) (VBytes (concat (map (fmt_x 2) b))) b rest
| pb_version : forall b0 b1 b2 b3 rest,
    prim_bytes PVersion (VTuple [VInt b3; VInt b2; VInt b1; VInt b0]) [b0; b1; b2; b3] rest
| pb_chunks : forall b out, all_bytes b -> para_text 0 b out Finished -> prim_bytes PChunks (VChunks out) b [].

(** Why a leaf cannot be read from what is left. *)
Inductive prim_fails : prim -> list Z -> Z -> exn -> Prop :=
| pf_end : forall p pos, p <> PChunks -> prim_fails p [] pos (Eof pos)
| pf_number : forall f b pos, b <> [] -> zlen b < Z.of_nat (fmt_width f) -> prim_fails (PFmt f) b pos StructError
| pf_chid : forall b pos, b <> [] -> zlen b < 4 -> prim_fails PChid b pos IndexError
| pf_version : forall b pos, b <> [] -> zlen b < 4 -> prim_fails PVersion b pos IndexError
| pf_bstr_size : forall b pos, b <> [] -> zlen b < 2 -> prim_fails PBstr b pos StructError
| pf_bstr_none : forall n pos, 0 < n < 65536 -> prim_fails PBstr (number_bytes 2 n) pos (Eof (pos + 2))
| pf_bstr_text : forall n b pos, 0 < n < 65536 -> ztake (2 * n) b <> [] ->
    (forall cs, Forall scalar cs -> ztake (2 * n) b <> utf16le_bytes cs) ->
    prim_fails PBstr (number_bytes 2 n ++ b) pos UnicodeDecodeError
| pf_chunks : forall b out e pos, para_text 0 b out (Failed e) -> prim_fails PChunks b pos e.

Definition positive_width (p : prim) : Prop :=
  match p with PFmt f => (0 < fmt_width f)%nat | PBytes n | PHex n => 0 < n | _ => True end.

Section Spec.
  Variable Ctx : Type.
  Notation ty := (ty Ctx).
  Notation members := (members Ctx).
  Notation alts := (alts Ctx).
  Notation oev := (oev Ctx).

  (** Result of reading something: what was reported, the stream, and the value
      ([None]: nothing selected, or condition not met). *)
  Definition sres (X : Type) : Type := (list oev * stream * option (res X))%type.

  Definition ret {X} (x : X) (s : stream) : sres X := ([], s, Some (Ok x)).
  Definition fail {X} (s : stream) (e : exn) : sres X := ([], s, Some (Raise e)).
  Definition say (o : oev) (s : stream) : sres unit := ([o], s, Some (Ok tt)).
  Definition andthen {X Y} (r : sres X) (k : X -> stream -> sres Y) : sres Y :=
    match r with
    | (out, s, Some (Ok x)) => let '(out', s', y) := k x s in (out ++ out', s', y)
    | (out, s, Some (Raise e)) => (out, s, Some (Raise e))
    | (out, s, None) => (out, s, None)
    end.

  Definition rd_leaf (name : option string) (t : ty) (s : stream) : sres value :=
    match read_leaf Ctx t s with
    | LeafOk v s' => ([OLeaf Ctx name t (s_pos s) v], s', Some (Ok v))
    | LeafError s' e => ([OError Ctx name t (s_pos s) e], s', Some (Raise (ParseError e (s_pos s))))
    | LeafRaise s' e => ([], s', Some (Raise e))
    | LeafFuel => ([], s, None)
    end.

  (** A reference evaluated in the enclosing value; there must be one. *)
  Definition refer {X} (c : Ctx) (parent : option value) (f : ref Ctx X) (s : stream) : sres X :=
    match parent with
    | None => fail s IndexError
    | Some v => match f c v with Ok x => ret x s | Raise e => fail s e end
    end.

  Definition guarded (c : Ctx) (parent : option value) (cond : option (ref Ctx bool)) (s : stream)
      (k : stream -> sres (option value)) : sres (option value) :=
    match cond with
    | None => k s
    | Some f => andthen (refer c parent f s) (fun b s => if b then k s else ret None s)
    end.

  (** n items, each read in the context of the list so far. *)
  Fixpoint repeated (n : nat) (item : value -> stream -> sres (option value)) (acc : list value) (s : stream)
    : sres (list value) :=
    match n with
    | O => ret acc s
    | S k => andthen (item (VList acc) s)
               (fun v s => repeated k item (match v with Some x => acc ++ [x] | None => acc end) s)
    end.

  Definition visible (version : option (list Z)) (required : option (list Z)) : bool :=
    match version, required with
    | Some v, Some r => negb (version_lt v r)
    | _, _ => true
    end.

  (** A declared layout, read as it is written down. *)
  Fixpoint rd (c : Ctx) (ver : option (list Z)) (parent : option value) (name : option string)
      (cond : option (ref Ctx bool)) (t : ty) (s : stream) : sres (option value) :=
    let array (n : Z) (t' : ty) (s : stream) : sres (list value) :=
        andthen (say (OStart Ctx name t) s)
          (fun _ s => repeated (Z.to_nat n) (fun sofar s => rd c ver (Some sofar) None None t' s) [] s) in
    let close (v : value) (s : stream) : sres (option value) :=
        andthen (say (OEnd Ctx name t v) s) (fun _ s => ret (Some v) s) in
    match t with
    | TPrim _ _ | TFlags _ _ _ =>
        guarded c parent cond s (fun s => andthen (rd_leaf name t s) (fun v s => ret (Some v) s))
    | TStruct _ ms =>
        guarded c parent cond s (fun s =>
          andthen (say (OStart Ctx name t) s) (fun _ s =>
          andthen (rd_members c ver ms [] s) (fun d s => close (VDict d) s)))
    | TFixed _ t' n =>
        guarded c parent cond s (fun s => andthen (array n t' s) (fun l s => close (VTuple l) s))
    | TVar _ counttype t' =>
        guarded c parent cond s (fun s =>
          andthen (rd_leaf None (TPrim Ctx (PFmt counttype)) s) (fun v s =>
          match v with
          | VInt n => andthen (array n t' s) (fun l s => close (VList l) s)
          | _ => fail s TypeError
          end))
    | TX _ count t' =>
        guarded c parent cond s (fun s =>
          andthen (refer c parent count s) (fun n s => andthen (array n t' s) (fun l s => close (VList l) s)))
    | TSel _ selector l =>
        (* the selector is evaluated even if the condition fails *)
        andthen (refer c parent selector s) (fun k s => rd_alts c ver parent name cond k l s)
    end
  with rd_members (c : Ctx) (ver : option (list Z)) (ms : members) (env : list (string * value)) (s : stream)
    : sres (list (string * value)) :=
    match ms with
    | MNil _ => ret env s
    | MCons _ name required cond t rest =>
        if visible ver required then
          andthen (rd c ver (Some (VDict env)) (Some name) cond t s)
            (fun v s => rd_members c ver rest (match v with Some x => dict_set name x env | None => env end) s)
        else rd_members c ver rest env s
    end
  with rd_alts (c : Ctx) (ver : option (list Z)) (parent : option value) (name : option string)
      (cond : option (ref Ctx bool)) (k : Z) (l : alts) (s : stream) : sres (option value) :=
    match l with
    | ANil _ => ret None s
    | ACons _ key t rest =>
        if key =? k then rd c ver parent name cond t s else rd_alts c ver parent name cond k rest s
    end.

  (** The reported leaves lie one after another: each was read at the offset it
      is reported with, from exactly the bytes between the previous leaf and the
      next one. *)
  Inductive covers : list oev -> stream -> stream -> Prop :=
  | cov_nil : forall s, covers [] s s
  | cov_start : forall n t tr s s', covers tr s s' -> covers (OStart Ctx n t :: tr) s s'
  | cov_end : forall n t v tr s s', covers tr s s' -> covers (OEnd Ctx n t v :: tr) s s'
  | cov_leaf : forall n t v b rest pos tr s',
      read_leaf Ctx t (mkStream (b ++ rest) pos) = LeafOk v (mkStream rest (pos + zlen b)) ->
      covers tr (mkStream rest (pos + zlen b)) s' ->
      covers (OLeaf Ctx n t pos v :: tr) (mkStream (b ++ rest) pos) s'.

  (** ** A value and its bytes, for a whole declaration *)
  Definition holds (c : Ctx) (parent : option value) (cond : option (ref Ctx bool)) : Prop :=
    match cond with None => True | Some f => exists pv, parent = Some pv /\ f c pv = Ok true end.
  Definition absent (c : Ctx) (parent : option value) (cond : option (ref Ctx bool)) : Prop :=
    exists f pv, cond = Some f /\ parent = Some pv /\ f c pv = Ok false.
  Fixpoint find_alt (k : Z) (l : alts) : option ty :=
    match l with ANil _ => None | ACons _ k' t rest => if k' =? k then Some t else find_alt k rest end.
  Definition added (name : string) (v : option value) (env : list (string * value)) :=
    match v with Some x => dict_set name x env | None => env end.
  Definition appended (v : option value) (acc : list value) :=
    match v with Some x => acc ++ [x] | None => acc end.

  (** [ser c ver parent cond t v b rest]: [b] holds the value [v] of the
      declared type [t] ([None]: an absent member), before [rest]. *)
  Inductive ser (c : Ctx) (ver : option (list Z)) : option value -> option (ref Ctx bool) -> ty -> option value -> list Z -> list Z -> Prop :=
  | ser_absent : forall parent cond t rest, match t with TSel _ _ _ => False | _ => True end ->
      absent c parent cond -> ser c ver parent cond t None [] rest
  | ser_prim : forall parent cond p v b rest, holds c parent cond -> prim_bytes p v b rest ->
      ser c ver parent cond (TPrim Ctx p) (Some v) b rest
  | ser_flags : forall parent cond f g n b rest, holds c parent cond -> prim_bytes (PFmt f) (VInt n) b rest ->
      ser c ver parent cond (TFlags Ctx f g) (Some (VFlags g n)) b rest
  | ser_struct : forall parent cond ms d b rest, holds c parent cond -> ser_members c ver [] ms d b rest ->
      ser c ver parent cond (TStruct Ctx ms) (Some (VDict d)) b rest
  | ser_fixed : forall parent cond t n l b rest, holds c parent cond -> ser_items c ver t (Z.to_nat n) [] l b rest ->
      ser c ver parent cond (TFixed Ctx t n) (Some (VTuple l)) b rest
  | ser_var : forall parent cond f t n l b1 b2 rest, holds c parent cond ->
      prim_bytes (PFmt f) (VInt n) b1 (b2 ++ rest) -> ser_items c ver t (Z.to_nat n) [] l b2 rest ->
      ser c ver parent cond (TVar Ctx f t) (Some (VList l)) (b1 ++ b2) rest
  | ser_x : forall parent cond f t pv n l b rest, holds c parent cond ->
      parent = Some pv -> f c pv = Ok n -> ser_items c ver t (Z.to_nat n) [] l b rest ->
      ser c ver parent cond (TX Ctx f t) (Some (VList l)) b rest
  | ser_sel : forall parent cond f l pv k t v b rest,
      parent = Some pv -> f c pv = Ok k -> find_alt k l = Some t -> ser c ver parent cond t v b rest ->
      ser c ver parent cond (TSel Ctx f l) v b rest
  | ser_unmatched : forall parent cond f l pv k rest,
      parent = Some pv -> f c pv = Ok k -> find_alt k l = None ->
      ser c ver parent cond (TSel Ctx f l) None [] rest
  with ser_members (c : Ctx) (ver : option (list Z)) : list (string * value) -> members -> list (string * value) -> list Z -> list Z -> Prop :=
  | serm_nil : forall env rest, ser_members c ver env (MNil Ctx) env [] rest
  | serm_later : forall env name req cond t ms d b rest, visible ver req = false ->
      ser_members c ver env ms d b rest -> ser_members c ver env (MCons Ctx name req cond t ms) d b rest
  | serm_cons : forall env name req cond t ms v d b1 b2 rest, visible ver req = true ->
      ser c ver (Some (VDict env)) cond t v b1 (b2 ++ rest) ->
      ser_members c ver (added name v env) ms d b2 rest ->
      ser_members c ver env (MCons Ctx name req cond t ms) d (b1 ++ b2) rest
  with ser_items (c : Ctx) (ver : option (list Z)) : ty -> nat -> list value -> list value -> list Z -> list Z -> Prop :=
  | seri_nil : forall t acc rest, ser_items c ver t 0 acc acc [] rest
  | seri_cons : forall t n acc v l b1 b2 rest, ser c ver (Some (VList acc)) None t v b1 (b2 ++ rest) ->
      ser_items c ver t n (appended v acc) l b2 rest -> ser_items c ver t (S n) acc l (b1 ++ b2) rest.

  (** An exception of one of the references of a declaration. *)
  Definition cond_raises (c : Ctx) (cond : option (ref Ctx bool)) (e : exn) : Prop :=
    match cond with None => False | Some f => exists pv, f c pv = Raise e end.
  Fixpoint ref_raises (c : Ctx) (e : exn) (t : ty) : Prop :=
    match t with
    | TPrim _ _ | TFlags _ _ _ => False
    | TStruct _ ms => ref_raises_members c e ms
    | TFixed _ t' _ | TVar _ _ t' => ref_raises c e t'
    | TX _ f t' => (exists pv, f c pv = Raise e) \/ ref_raises c e t'
    | TSel _ f l => (exists pv, f c pv = Raise e) \/ ref_raises_alts c e l
    end
  with ref_raises_members (c : Ctx) (e : exn) (ms : members) : Prop :=
    match ms with
    | MNil _ => False
    | MCons _ _ _ cond t rest => cond_raises c cond e \/ ref_raises c e t \/ ref_raises_members c e rest
    end
  with ref_raises_alts (c : Ctx) (e : exn) (l : alts) : Prop :=
    match l with ANil _ => False | ACons _ _ t rest => ref_raises c e t \/ ref_raises_alts c e rest end.

  (** How reading fails after reporting [tr] from [s]: a leaf cannot be read (the
      error carries its offset), or a flags leaf cannot be read (a KeyError), or
      one of the declared references raises ([R]). *)
  Definition fails_because (R : exn -> Prop) (tr : list oev) (s : stream) (e : exn) : Prop :=
    (exists tr0 name p s1 cause, tr = tr0 ++ [OError Ctx name (TPrim Ctx p) (s_pos s1) cause] /\ covers tr0 s s1 /\
       prim_fails p (s_rest s1) (s_pos s1) cause /\ e = ParseError cause (s_pos s1)) \/
    (exists s1 f cause, covers tr s s1 /\ prim_fails (PFmt f) (s_rest s1) (s_pos s1) cause /\ e = KeyError) \/
    (exists s1, covers tr s s1 /\ R e).

  (** Declarations with distinct alternatives, none of which is itself a
      selection. *)
  Definition not_sel (t : ty) : Prop := match t with TSel _ _ _ => False | _ => True end.
  Fixpoint has_key (k : Z) (l : alts) : Prop :=
    match l with ANil _ => False | ACons _ k' _ rest => k = k' \/ has_key k rest end.
  Fixpoint wf (t : ty) : Prop :=
    match t with
    | TPrim _ _ | TFlags _ _ _ => True
    | TStruct _ ms => wf_members ms
    | TFixed _ t' _ | TVar _ _ t' | TX _ _ t' => wf t'
    | TSel _ _ l => wf_alts l
    end
  with wf_members (ms : members) : Prop :=
    match ms with MNil _ => True | MCons _ _ _ _ t rest => wf t /\ wf_members rest end
  with wf_alts (l : alts) : Prop :=
    match l with
    | ANil _ => True
    | ACons _ k t rest => not_sel t /\ ~ has_key k rest /\ wf t /\ wf_alts rest
    end.

  (** Integer formats where integers are needed, and no leaf of width zero. *)
  Definition int_fmt (f : binfmt) : Prop := f <> FmtDouble /\ (0 < fmt_width f)%nat.
  Fixpoint sane (t : ty) : Prop :=
    match t with
    | TPrim _ p => positive_width p
    | TFlags _ f _ => int_fmt f
    | TStruct _ ms => sane_members ms
    | TFixed _ t' _ | TX _ _ t' => sane t'
    | TVar _ f t' => int_fmt f /\ sane t'
    | TSel _ _ l => sane_alts l
    end
  with sane_members (ms : members) : Prop :=
    match ms with MNil _ => True | MCons _ _ _ _ t rest => sane t /\ sane_members rest end
  with sane_alts (l : alts) : Prop :=
    match l with ANil _ => True | ACons _ _ t rest => sane t /\ sane_alts rest end.

  (** The declaration for one file version: members of later versions left out. *)
  Fixpoint prune (v : list Z) (t : ty) : ty :=
    match t with
    | TPrim _ _ | TFlags _ _ _ => t
    | TStruct _ ms => TStruct Ctx (prune_members v ms)
    | TFixed _ t' n => TFixed Ctx (prune v t') n
    | TVar _ f t' => TVar Ctx f (prune v t')
    | TX _ r t' => TX Ctx r (prune v t')
    | TSel _ r l => TSel Ctx r (prune_alts v l)
    end
  with prune_members (v : list Z) (ms : members) : members :=
    match ms with
    | MNil _ => MNil Ctx
    | MCons _ name req cond t rest =>
        if visible (Some v) req then MCons Ctx name req cond (prune v t) (prune_members v rest)
        else prune_members v rest
    end
  with prune_alts (v : list Z) (l : alts) : alts :=
    match l with
    | ANil _ => ANil Ctx
    | ACons _ k t rest => ACons Ctx k (prune v t) (prune_alts v rest)
    end.

  (** A reported event without the type it belongs to. *)
  Definition report_of (o : oev) : option string * Z * option Z * option value * option exn :=
    match o with
    | OStart _ n _ => (n, 0, None, None, None)
    | OLeaf _ n _ pos v => (n, 1, Some pos, Some v, None)
    | OEnd _ n _ v => (n, 2, None, Some v, None)
    | OError _ n _ pos e => (n, 3, Some pos, None, Some e)
    end.

  (** The events of a declaration for one file version: START and END around
      the contents, in the declared order, members of later versions left out
      with everything inside. *)
  Fixpoint visible_events (ver : option (list Z)) (a : attrs Ctx) (t : ty) : list (bev Ctx) :=
    let wrap (l : list (bev Ctx)) := BStart Ctx (a, t) :: l ++ [BEnd Ctx (a, t)] in
    match t with
    | TPrim _ _ | TFlags _ _ _ => [BLeaf Ctx (a, t)]
    | TStruct _ ms => wrap (visible_members ver ms)
    | TFixed _ t' _ | TVar _ _ t' | TX _ _ t' => wrap (visible_events ver (no_attrs Ctx) t')
    | TSel _ _ l => wrap (visible_alts ver a l)
    end
  with visible_members (ver : option (list Z)) (ms : members) : list (bev Ctx) :=
    match ms with
    | MNil _ => []
    | MCons _ name req cond t rest =>
        (if visible ver req then visible_events ver (member_attrs Ctx name req cond) t else []) ++ visible_members ver rest
    end
  with visible_alts (ver : option (list Z)) (a : attrs Ctx) (l : alts) : list (bev Ctx) :=
    match l with
    | ANil _ => []
    | ACons _ k t rest => visible_events ver (with_when Ctx a k) t ++ visible_alts ver a rest
    end.
End Spec.

(** An earlier version: at the first difference the number is smaller, or the
    later version goes on where the earlier one ends. *)
Definition earlier (v r : list Z) : Prop :=
  (exists p x y v' r', v = p ++ x :: v' /\ r = p ++ y :: r' /\ x < y) \/ (exists y r', r = v ++ y :: r').
