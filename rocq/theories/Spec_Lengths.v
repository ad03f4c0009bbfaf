(** Lengths as they are meant: HWP units are 7200th parts of an inch. *)
From Coq Require Import ZArith QArith Qabs String List Bool.
From Verif Require Import Base Model_Text Model_XmlText Model_Plaintext Model_Html.
Import ListNotations.
Open Scope Z_scope.

(** A decimal numeral, like -12.5 *)
Fixpoint digits_of (acc : Z) (t : list Z) : option Z :=
  match t with
  | [] => Some acc
  | c :: r => if (48 <=? c) && (c <=? 57) then digits_of (10 * acc + (c - 48)) r else None
  end.
Fixpoint at_point (t : list Z) : list Z * option (list Z) :=
  match t with
  | [] => ([], None)
  | c :: r => if c =? 46 then ([], Some r) else let (a, b) := at_point r in (c :: a, b)
  end.
Definition unsigned (t : list Z) : option Q :=
  match at_point t with
  | ([], _) => None
  | (a, None) => option_map inject_Z (digits_of 0 a)
  | (a, Some f) =>
      match digits_of 0 a, digits_of 0 f with
      | Some n, Some m => Some (inject_Z n + inject_Z m / inject_Z (10 ^ Z.of_nat (List.length f)))%Q
      | _, _ => None
      end
  end.
Definition decimal (t : list Z) : option Q :=
  match t with 45 :: r => option_map Qopp (unsigned r) | _ => unsigned t end.

(** Numbers that are not very small or large are written as decimal numerals, the
    first fourteen digits right. *)
Definition prints (show : Q -> list Z) : Prop :=
  forall x, (x == 0 \/ 1 # 100000 <= Qabs x /\ Qabs x <= 1000000000)%Q ->
  exists v, decimal (show x) = Some v /\ (Qabs (v - x) <= Qabs x * (1 # 100000000000000))%Q.

(** A text that says a number of the unit, exact up to the tolerance *)
Definition says_length (t : list Z) (unit : string) (exact tolerance : Q) : Prop :=
  exists n v, t = n ++ zs unit /\ decimal n = Some v /\ (Qabs (v - exact) <= tolerance)%Q.

Definition inches (units : Q) : Q := (units / 7200)%Q.
Definition centimetres (units : Q) : Q := (inches units * (254 # 100))%Q.
Definition millimetres (units : Q) : Q := (inches units * (254 # 10))%Q.
Definition points (units : Q) : Q := (inches units * 72)%Q.
Definition percent (of part : Q) : Q := (of * part / 100)%Q.
Definition half (units : Z) : Q := (inject_Z units / 2)%Q.

(** The number in an attribute, of so many bits *)
Definition int_attr (bits : Z) (s : string) (x : xnode) (n : Z) : Prop := attr s x = Some (fmt_d n) /\ - 2 ^ bits < n < 2 ^ bits.
(** The number in an attribute of the child of this name *)
Definition int_below (bits : Z) (child s : string) (x : xnode) (n : Z) : Prop := exists c, children_named child x = [c] /\ int_attr bits s c n.

(** What is left of a hundredth of a centimetre or millimetre, and of a point *)
Definition hundredth : Q := 501 # 100000.
Definition css_hundredth : Q := 51 # 10000.
Definition exactly : Q := 1 # 1000000.

(** The value of a property says a length. *)
Definition value_says (value : option (list Z)) (unit : string) (exact tolerance : Q) : Prop :=
  exists t, value = Some t /\ says_length t unit exact tolerance.
(** Four lengths, as of margins: top, right, bottom, left *)
Definition says_four (t : list Z) (unit : string) (a b c d tolerance : Q) : Prop :=
  exists ta tb tc td, t = ta ++ zs " " ++ tb ++ zs " " ++ tc ++ zs " " ++ td /\
    says_length ta unit a tolerance /\ says_length tb unit b tolerance /\ says_length tc unit c tolerance /\ says_length td unit d tolerance.
