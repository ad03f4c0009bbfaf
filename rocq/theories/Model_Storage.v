(** Model of src/hwp5/storage/__init__.py, src/hwp5/storage/ole.py and
    src/hwp5/plat/olefileio.py. *)
From Coq Require Import ZArith String List Bool.
From Verif Require Import Base.
Import ListNotations.
Open Scope Z_scope.

(** Names and paths are texts. *)
Definition name := list Z.
Definition name_eqb (a b : name) : bool := if list_eq_dec Z.eq_dec a b then true else false.

(** What the code sees of a storage item, whatever its class:
    - [storage]: is_storage (storage/__init__.py 32-33), has [__iter__] and
      [__getitem__] as attributes;
    - [iter]: iterating over it; [get]: [item[name]];
    - [stream]: is_stream (36-37);
    - [open]: the contents read from [open()], or the exception (opening and
      reading all are one step);
    - [formats]: other_formats(), suffix and contents; empty when it has none.
    Being inductive, storages are finitely deep. *)
Inductive item : Type :=
| mkItem (storage : bool) (iter : gen name) (get : name -> res item)
         (stream : bool) (open : res (list Z)) (formats : list (name * res (list Z))).
Definition is_storage (x : item) : bool := let '(mkItem s _ _ _ _ _) := x in s.
Definition iter (x : item) : gen name := let '(mkItem _ i _ _ _ _) := x in i.
Definition get (x : item) : name -> res item := let '(mkItem _ _ g _ _ _) := x in g.
Definition is_stream (x : item) : bool := let '(mkItem _ _ _ s _ _) := x in s.
Definition open (x : item) : res (list Z) := let '(mkItem _ _ _ _ o _) := x in o.
Definition formats (x : item) : list (name * res (list Z)) := let '(mkItem _ _ _ _ _ f) := x in f.

(** An object with an [open] method and nothing else. *)
Definition stream_item (o : res (list Z)) (f : list (name * res (list Z))) : item :=
  mkItem false ([], Failed TypeError) (fun _ => Raise TypeError) true o f.
(** An object with [__iter__] and [__getitem__] and nothing else. *)
Definition storage_item (i : gen name) (g : name -> res item) : item :=
  mkItem true i g false (Raise AttributeError) [].

(** storage/__init__.py 40-53 [ItemWrapper], [StorageWrapper] and 56-68
    [ItemConversionStorage]: attributes are those of the wrapped item;
    iteration and indexing are defined.  [conv] is resolve_conversion_for. *)
Definition conversion_storage (conv : name -> option (item -> res item)) (x : item) : item :=
  mkItem true (iter x)
    (fun n => let? y := get x n in match conv n with Some f => f y | None => Ok y end)
    (is_stream x) (open x) (formats x).

(** An [ItemWrapper] with an [open] method: the special methods of the wrapped
    item are seen by hasattr, but cannot be used. *)
Definition open_wrapper (o : res (list Z)) (f : list (name * res (list Z))) (x : item) : item :=
  mkItem (is_storage x) ([], Failed TypeError) (fun _ => Raise TypeError) true o f.

Definition gthen {A} (g : gen A) (k : gen A) : gen A :=
  match snd g with Finished => gapp (fst g) k | o => (fst g, o) end.

(** storage/__init__.py 71-106 [ExtraItemStorage], [Open2Stream]. *)
Section Extra.
  Variable get : name -> res item.
  (** 73-81 *)
  Fixpoint extra_names (names : list name) (o : outcome) : gen name :=
    match names with
    | [] => ([], o)
    | n :: r =>
        gcons n (match get n with
                 | Raise e => ([], Failed e)
                 | Ok x => gapp (map (fun f => n ++ fst f) (formats x)) (extra_names r o)
                 end)
    end.
  (** 90-99: the virtual stream of this name; the KeyError is raised again. *)
  Fixpoint extra_search (n : name) (names : list name) (o : outcome) : res item :=
    match names with
    | [] => match o with Failed e => Raise e | _ => Raise KeyError end
    | root :: r =>
        match get root with
        | Raise e => Raise e
        | Ok x => match find (fun f => name_eqb (root ++ fst f) n) (formats x) with
                  | Some (_, content) => Ok (stream_item content [])
                  | None => extra_search n r o
                  end
        end
    end.
End Extra.
Fixpoint extra (x : item) : item :=
  match x with
  | mkItem _ i g st o f =>
      mkItem true (extra_names g (fst i) (snd i))
        (fun n => match g n with
                  | Ok y => Ok (if is_storage y then extra y else y)
                  | Raise KeyError => extra_search g n (fst i) (snd i)
                  | Raise e => Raise e
                  end) st o f
  end.

(** storage/__init__.py 109-121 [iter_storage_leafs] *)
Definition SLASH : Z := 47.
Fixpoint iter_storage_leafs (x : item) (basepath : name) : gen name :=
  match x with
  | mkItem _ i g _ _ _ =>
      (fix loop (names : list name) : gen name :=
         match names with
         | [] => ([], snd i)
         | n :: r =>
             match g n with
             | Raise e => ([], Failed e)
             | Ok y => if is_storage y then gthen (iter_storage_leafs y (basepath ++ n ++ [SLASH])) (loop r)
                       else gcons (basepath ++ n) (loop r)
             end
         end) (fst i)
  end.

(** [path.split('/')]: the first part and the others. *)
Fixpoint split_slash (p : name) : list name :=
  match p with
  | [] => [[]]
  | c :: r => if c =? SLASH then [] :: split_slash r
              else match split_slash r with s :: t => (c :: s) :: t | [] => [[c]] end
  end.

(** storage/__init__.py 147-156 [open_storage_item] *)
Fixpoint get_path (x : item) (segments : list name) {struct segments} : res item :=
  match segments with [] => Ok x | n :: r => let? y := get x n in get_path y r end.
Definition open_storage_item (x : item) (path : name) : res item := get_path x (split_slash path).

(** ** A file system: directories and files by absolute path, later entries
    shadowed by earlier ones.  No links, permissions or limits. *)
Inductive node := File (b : list Z) | Dir.
Definition fs := list (list name * node).
Definition path_eqb (a b : list name) : bool := if list_eq_dec (list_eq_dec Z.eq_dec) a b then true else false.
Definition fs_lookup (f : fs) (p : list name) : option node :=
  match p with
  | [] => Some Dir
  | _ => match find (fun e => path_eqb (fst e) p) f with Some (_, x) => Some x | None => None end
  end.
Definition is_dir (f : fs) (p : list name) : bool := match fs_lookup f p with Some Dir => true | _ => false end.
(** Walking along the parts of a path name. *)
Fixpoint fs_walk (f : fs) (cur : list name) (segments : list name) : res (list name) :=
  match segments with
  | [] => Ok cur
  | s :: r =>
      if is_dir f cur then
        if name_eqb s [] || name_eqb s (zs ".") then fs_walk f cur r
        else if name_eqb s (zs "..") then fs_walk f (removelast cur) r
        else fs_walk f (cur ++ [s]) r
      else Raise IOError
  end.
(** A path name is absolute or relative to the working directory. *)
Definition fs_resolve (f : fs) (cwd : list name) (p : name) : res (list name) :=
  if existsb (Z.eqb 0) p then Raise ValueError
  else match p with [] => Raise IOError | c :: _ => fs_walk f (if c =? SLASH then [] else cwd) (split_slash p) end.
(** os.path.exists *)
Definition fs_exists (f : fs) (cwd : list name) (p : name) : bool :=
  match fs_resolve f cwd p with Ok q => match fs_lookup f q with Some _ => true | None => false end | Raise _ => false end.
(** os.mkdir *)
Definition fs_mkdir (f : fs) (cwd : list name) (p : name) : fs * res unit :=
  match fs_resolve f cwd p with
  | Raise e => (f, Raise e)
  | Ok q => match fs_lookup f q with Some _ => (f, Raise IOError) | None => ((q, Dir) :: f, Ok tt) end
  end.
(** io.open(p, 'wb') and writing b *)
Definition fs_write (f : fs) (cwd : list name) (p : name) (b : list Z) : fs * res unit :=
  match fs_resolve f cwd p with
  | Raise e => (f, Raise e)
  | Ok q => match fs_lookup f q with Some Dir => (f, Raise IOError) | _ => ((q, File b) :: f, Ok tt) end
  end.

(** os.path.join (POSIX) of two parts. *)
Definition path_join (a b : name) : name :=
  match b with
  | c :: _ => if c =? SLASH then b
              else match a with [] => b | _ => if last a 0 =? SLASH then a ++ b else a ++ [SLASH] ++ b end
  | [] => match a with [] => b | _ => if last a 0 =? SLASH then a ++ b else a ++ [SLASH] ++ b end
  end.
(** [outpath.replace('\x05', '_05')] *)
Definition replace_05 (p : name) : name := flat_map (fun c => if c =? 5 then zs "_05" else [c]) p.

(** storage/__init__.py 124-144 [unpack] *)
Fixpoint unpack (x : item) (cwd : list name) (outbase : name) (f : fs) : fs * res unit :=
  match x with
  | mkItem _ i g _ _ _ =>
      (fix loop (names : list name) (f : fs) : fs * res unit :=
         match names with
         | [] => (f, match snd i with Failed e => Raise e | _ => Ok tt end)
         | n :: r =>
             let outpath := path_join outbase n in
             match g n with
             | Raise e => (f, Raise e)
             | Ok y =>
                 if is_storage y then
                   let made := if fs_exists f cwd outpath then (f, Ok tt) else fs_mkdir f cwd outpath in
                   match made with
                   | (f1, Raise e) => (f1, Raise e)
                   | (f1, Ok _) =>
                       match unpack y cwd outpath f1 with
                       | (f2, Raise e) => (f2, Raise e)
                       | (f2, Ok _) => loop r f2
                       end
                   end
                 else
                   match open y with
                   | Raise e => (f, Raise e)
                   | Ok b =>
                       match fs_write f cwd (replace_05 outpath) b with
                       | (f1, Raise e) => (f1, Raise e)
                       | (f1, Ok _) => loop r f1
                       end
                   end
             end
         end) (fst i) f
  end.

(** proc/unpack.py 28-37 [main], once the output directory is known. *)
Definition unpack_main (x : item) (cwd : list name) (outdir : name) (f : fs) : fs * res unit :=
  let made := if fs_exists f cwd outdir then (f, Ok tt) else fs_mkdir f cwd outdir in
  match made with (f1, Raise e) => (f1, Raise e) | (f1, Ok _) => unpack x cwd outdir f1 end.

(** ** OLE storages, plat/olefileio.py 75-166.  The OleFileIO object: the paths
    of all streams, existence, type (1: storage, 2: stream) and contents by
    path name. *)
Record olefile := mkOle {
  ole_listdir : list (list name);
  ole_exists : name -> bool;
  ole_type : name -> Z;
  ole_open : name -> res (list Z) }.

Definition mem_name (n : name) (l : list name) : bool := existsb (name_eqb n) l.
(** 145-156: the root. *)
Fixpoint top_names (yielded : list name) (streams : list (list name)) : gen name :=
  match streams with
  | [] => ([], Finished)
  | [] :: _ => ([], Failed IndexError)
  | (top :: _) :: r => if mem_name top yielded then top_names yielded r else gcons top (top_names (yielded ++ [top]) r)
  end.
(** 162-166: a storage. *)
Fixpoint sub_names (segments : list name) (streams : list (list name)) : list name :=
  match streams with
  | [] => []
  | s :: r =>
      if (zlen s =? zlen segments + 1) && path_eqb (removelast s) segments then last s [] :: sub_names segments r
      else sub_names segments r
  end.
(** 144-166 [olefile_listdir] *)
Definition is_root (path : name) : bool := name_eqb path [] || name_eqb path [SLASH].
Definition olefile_listdir (o : olefile) (path : name) : gen name :=
  if is_root path then top_names [] (ole_listdir o)
  else if negb (ole_exists o path) then ([], Failed IOError)
  else if negb (ole_type o path =? 1) then ([], Failed IOError)
  else (sub_names (split_slash path) (ole_listdir o), Finished).

(** 92-141 [OleStream], [OleStorage] (and storage/ole.py 29-43, which passes
    everything on).  The fuel bounds the depth to which the storage is looked
    at. *)
Fixpoint ole_storage (fuel : nat) (o : olefile) (path : name) : item :=
  storage_item (olefile_listdir o path)
    (fun n =>
       let p := if is_root path then n else path ++ [SLASH] ++ n in
       if negb (ole_exists o p) then Raise KeyError
       else if ole_type o p =? 1 then
         match fuel with O => Raise (OtherError 0) | S k => Ok (ole_storage k o p) end
       else if ole_type o p =? 2 then Ok (stream_item (ole_open o p) [])
       else Raise KeyError).
