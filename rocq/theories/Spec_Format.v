(** Specification of --format. *)
From Coq Require Import ZArith String List Bool.
From Verif Require Import Base Model_Record Model_Models Model_Storage Spec_Filestructure.
Import ListNotations.
Open Scope string_scope.
Open Scope list_scope.
Open Scope Z_scope.

(** A format: texts without %, %% and %(key)s or %(key)d, these two with or
    without a 0 and a width. *)
Inductive piece : Type := Lit (t : list Z) | Percent | Val (key : list Z) (zero : bool) (width : list Z) (number : bool).
Definition piece_text (p : piece) : list Z :=
  match p with
  | Lit t => t
  | Percent => zs "%%"
  | Val key zero width number => zs "%(" ++ key ++ zs ")" ++ (if zero then zs "0" else []) ++ width ++ (if number then zs "d" else zs "s")
  end.
Definition format_text (ps : list piece) : list Z := concat (map piece_text ps).

(** What there is to show of a model: numbers and texts.  [at_] are the names of
    file and stream, known to find. *)
Inductive number_field (rm : record * model) : list Z -> Z -> Prop :=
| nf_seqno : forall n, r_seqno (fst rm) = Some n -> number_field rm (zs "seqno") n
| nf_tagid : number_field rm (zs "tagid") (r_tagid (fst rm))
| nf_level : number_field rm (zs "level") (r_level (fst rm))
| nf_size : number_field rm (zs "size") (r_size (fst rm)).
Inductive text_field (at_ : option (name * name)) (rm : record * model) : list Z -> list Z -> Prop :=
| tf_tagname : text_field at_ rm (zs "tagname") (r_tagname (fst rm))
| tf_type : text_field at_ rm (zs "type") (zs (m_type (snd rm)))
| tf_filename : forall fn st, at_ = Some (fn, st) -> text_field at_ rm (zs "filename") fn
| tf_stream : forall fn st, at_ = Some (fn, st) -> text_field at_ rm (zs "stream") st.

(** Filled up on the left to a width *)
Definition padded (fill width : Z) (t out : list Z) : Prop :=
  exists k, out = repeat fill k ++ t /\ (width <= zlen t -> k = O) /\ (zlen t < width -> zlen out = width).
Inductive width_says : list Z -> Z -> Prop :=
| ws_none : width_says [] 0
| ws_some : forall t n, numeral t n -> 0 < n -> width_says t n.

Inductive shows (at_ : option (name * name)) (rm : record * model) : piece -> list Z -> Prop :=
| sh_lit : forall t, shows at_ rm (Lit t) t
| sh_percent : shows at_ rm Percent (zs "%")
| sh_number : forall key zero w number n t width out, number_field rm key n -> numeral t n -> width_says w width ->
    padded (if zero && number then 48 else 32) width t out -> shows at_ rm (Val key zero w number) out
| sh_text : forall key zero w t width out, text_field at_ rm key t -> width_says w width -> padded 32 width t out -> shows at_ rm (Val key zero w false) out.
Definition shows_all (at_ : option (name * name)) (rm : record * model) (ps : list piece) (out : list Z) : Prop :=
  exists outs, Forall2 (shows at_ rm) ps outs /\ out = concat outs.

(** Formats with the names above only, of numbers if shown as such. *)
Definition fine_piece (located : bool) (p : piece) : Prop :=
  match p with
  | Lit t => ~ In 37 t
  | Percent => True
  | Val key _ w number =>
      (exists n, width_says w n) /\
      (In key [zs "seqno"; zs "tagid"; zs "level"; zs "size"] \/
       number = false /\ In key ([zs "tagname"; zs "type"] ++ if located then [zs "filename"; zs "stream"] else []))
  end.
