(** Proofs about JSON texts: a text has at most one value; what json.dumps
    writes has the value that was given. *)
From Coq Require Import ZArith String List Bool Lia Permutation Sorted.
From Verif Require Import Base BaseFacts Model_Text Model_Json Spec_Text Spec_Json Proof_Text Proof_Record.
Import ListNotations.
Open Scope Z_scope.

Scheme reads_ind1 := Minimality for reads Sort Prop
  with reads_items_ind1 := Minimality for reads_items Sort Prop
  with reads_members_ind1 := Minimality for reads_members Sort Prop.
Combined Scheme reads_both from reads_ind1, reads_items_ind1, reads_members_ind1.

(** ** A text has at most one value *)

Lemma short_escape_fun : forall e u u', In (e, u) short_escapes -> In (e, u') short_escapes -> u = u'.
Proof.
  intros e u u' H H'. cbn in H, H'.
  repeat (destruct H as [H|H]; [inversion H; subst; repeat (destruct H' as [H'|H']; [inversion H'; subst; try reflexivity; try discriminate|]); try contradiction|]). contradiction.
Qed.
Lemma short_escape_not_u : forall u, ~ In (117, u) short_escapes.
Proof. intros u H. cbn in H. repeat (destruct H as [H|H]; [discriminate|]). exact H. Qed.

Lemma string_units_fun : forall s us rest, string_units s us rest -> forall us' rest', string_units s us' rest' -> us = us' /\ rest = rest'.
Proof.
  intros s us rest H. induction H; intros us' rest' H'; inversion H'; subst; try lia; try auto;
    try (exfalso; eapply short_escape_not_u; eassumption).
  - edestruct IHstring_units as [-> ->]; [eassumption|]. auto.
  - edestruct IHstring_units as [-> ->]; [eassumption|]. match goal with A : In (e, u) _, B : In (e, ?v) _ |- _ => rewrite (short_escape_fun _ _ _ A B) end. auto.
  - edestruct IHstring_units as [-> ->]; [eassumption|].
    repeat match goal with A : hex_digit ?a = Some ?x, B : hex_digit ?a = Some ?y |- _ => rewrite A in B; inversion B; subst; clear B end. auto.
Qed.

Lemma natural_digit : forall t, natural_text t -> exists c r, t = c :: r /\ is_dec c = true.
Proof.
  intros [|c r] (N & D & _); [contradiction|]. cbn in D. apply andb_prop in D as [D _]. eauto.
Qed.
Lemma integer_fun : forall t n n', integer_text t n -> integer_text t n' -> n = n'.
Proof.
  intros t n n' H H'. inversion H; subst; inversion H'; subst; try reflexivity;
    match goal with K : natural_text (45 :: _) |- _ => apply natural_digit in K as (? & ? & E & D); inversion E; subst; discriminate end.
Qed.
Lemma integer_not_real : forall t n t' n' f e, integer_text t n -> integer_text t' n' -> fraction_text f -> exponent_text e -> f ++ e <> [] -> t <> t' ++ f ++ e.
Proof.
  intros t n t' n' f e H H' HF HE HN E.
  assert (D : forall u m, integer_text u m -> forall c, In c u -> is_dec c = true \/ c = 45).
  { intros u m K c I. inversion K as [u' (_ & D & _)|u' (_ & D & _)]; subst; rewrite forallb_forall in D; [left; apply D; exact I|].
    destruct I as [<-|I]; [right; reflexivity|left; apply D; exact I]. }
  assert (X : exists c, In c (f ++ e) /\ (c = 46 \/ c = 101 \/ c = 69)).
  { inversion HF; subst; [|exists 46; split; [left; reflexivity|tauto]].
    inversion HE; subst; [cbn in HN; congruence|]. exists e0. split; [left; reflexivity|tauto]. }
  destruct X as (c & I & C). assert (I' : In c t) by (rewrite E; apply in_or_app; right; exact I). destruct (D t n H c I') as [D1|D1].
  - unfold is_dec in D1. lia.
  - lia.
Qed.
Lemma number_fun : forall t v v', number_says t v -> number_says t v' -> v = v'.
Proof.
  intros t v v' H H'. inversion H as [t1 n1 I1|t1 n1 f1 e1 I1 F1 E1 N1 EQ1]; subst; inversion H' as [t2 n2 I2|t2 n2 f2 e2 I2 F2 E2 N2 EQ2]; subst.
  - rewrite (integer_fun _ _ _ I1 I2). reflexivity.
  - exfalso. exact (integer_not_real _ _ _ _ _ _ I1 I2 F2 E2 N2 eq_refl).
  - exfalso. exact (integer_not_real _ _ _ _ _ _ I2 I1 F1 E1 N1 eq_refl).
  - rewrite EQ2. reflexivity.
Qed.
Lemma number_nonempty : forall v, ~ number_says [] v.
Proof.
  intros v H. inversion H as [t n K|t n f e K]; subst.
  - inversion K as [u (N & _)|]; subst. contradiction.
  - destruct t; [|discriminate]. inversion K as [u (N & _)|]; subst. contradiction.
Qed.
(** A value that is a number starts with a character of numbers. *)
Lemma number_starts : forall c r v, number_says (fst (number_span (c :: r))) v -> number_char c = true.
Proof.
  intros c r v H. cbn [number_span] in H. destruct (number_char c); [reflexivity|]. cbn in H. apply number_nonempty in H. contradiction.
Qed.

Ltac no_number := match goal with H : number_says (fst (number_span ?s)) _ |- _ => exfalso; cbn [zs app] in H; apply number_starts in H; vm_compute in H; discriminate end.

Lemma reads_not_close : forall r v r', ~ reads (93 :: r) v r'.
Proof. intros r v r' H. inversion H; subst; try discriminate. no_number. Qed.

Theorem reads_fun :
  (forall s v r, reads s v r -> forall v' r', reads s v' r' -> v = v' /\ r = r') /\
  (forall s l r, reads_items s l r -> forall l' r', reads_items s l' r' -> l = l' /\ r = r') /\
  (forall s l r, reads_members s l r -> forall l' r', reads_members s l' r' -> l = l' /\ r = r').
Proof.
  apply reads_both.
  - intros rest v' r' H'. inversion H'; subst; try discriminate; auto; no_number.
  - intros rest v' r' H'. inversion H'; subst; try discriminate; auto; no_number.
  - intros rest v' r' H'. inversion H'; subst; try discriminate; auto; no_number.
  - intros s v H v' r' H'. inversion H'; subst; try no_number. split; [eapply number_fun; eassumption|reflexivity].
  - intros s us rest H v' r' H'. inversion H' as [| | | |s0 us0 rest0 K| | | |]; subst; try no_number. destruct (string_units_fun _ _ _ H _ _ K) as [-> ->]. auto.
  - intros s rest H v' r' H'. inversion H' as [| | | | |s0 rest0 K|s0 vs rest0 K| |]; subst; try no_number.
    + rewrite H in K. inversion K; subst. auto.
    + exfalso. inversion K; subst; match goal with K : reads (skip s) _ _ |- _ => rewrite H in K; apply reads_not_close in K; exact K end.
  - intros s vs rest H IH v' r' H'. inversion H' as [| | | | |s0 rest0 K|s0 vs0 rest0 K| |]; subst; try no_number.
    + exfalso. inversion H; subst; match goal with J : reads (skip s) _ _ |- _ => rewrite K in J; apply reads_not_close in J; exact J end.
    + destruct (IH _ _ K) as [-> ->]. auto.
  - intros s rest H v' r' H'. inversion H' as [| | | | | | |s0 rest0 K|s0 ms rest0 K]; subst; try no_number.
    + rewrite H in K. inversion K; subst. auto.
    + exfalso. inversion K; subst; congruence.
  - intros s ms rest H IH v' r' H'. inversion H' as [| | | | | | |s0 rest0 K|s0 ms0 rest0 K]; subst; try no_number.
    + exfalso. inversion H; subst; congruence.
    + destruct (IH _ _ K) as [-> ->]. auto.
  - intros s v r rest H IH E l' r' H'. inversion H' as [? v2 ? ? R E2|? v2 ? ? vs2 ? R E2]; subst; destruct (IH _ _ R) as [-> ->]; rewrite E in E2; inversion E2; subst; auto.
  - intros s v r r' vs rest H IH E HI IHI l' rest' H'. inversion H' as [? v2 ? ? R E2|? v2 ? ? vs2 ? R E2 R2]; subst; destruct (IH _ _ R) as [-> ->]; rewrite E in E2; inversion E2; subst.
    destruct (IHI _ _ R2) as [-> ->]. auto.
  - intros s k s1 us s2 s3 v r rest ES HS E1 E2 HR IH EC l' r' H'.
    inversion H' as [? k0 t1 us0 t2 t3 v0 q q' FS FU F1 F2 FR FC|? k0 t1 us0 t2 t3 v0 q q' ms q'' FS FU F1 F2 FR FC FM]; subst; rewrite ES in FS; inversion FS; subst;
      destruct (string_units_fun _ _ _ HS _ _ FU) as [-> ->]; rewrite E1 in F1; inversion F1; subst; destruct (IH _ _ FR) as [-> ->]; rewrite EC in FC; inversion FC; subst; auto.
  - intros s k s1 us s2 s3 v r r' ms rest ES HS E1 E2 HR IH EC HM IHM l' r'' H'.
    inversion H' as [? k0 t1 us0 t2 t3 v0 q q' FS FU F1 F2 FR FC|? k0 t1 us0 t2 t3 v0 q q' ms0 q'' FS FU F1 F2 FR FC FM]; subst; rewrite ES in FS; inversion FS; subst;
      destruct (string_units_fun _ _ _ HS _ _ FU) as [-> ->]; rewrite E1 in F1; inversion F1; subst; destruct (IH _ _ FR) as [-> ->]; rewrite EC in FC; inversion FC; subst.
    destruct (IHM _ _ FM) as [-> ->]. auto.
Qed.

Theorem json_unique : forall s v v', is_json s v -> is_json s v' -> v = v'.
Proof. intros s v v' (r & H & _) (r' & H' & _). exact (proj1 (proj1 reads_fun _ _ _ H _ _ H')). Qed.

(** Outside of its strings, a JSON text has no letters N and I. *)
Inductive place : Type := Outside | Inside | Escaped.
Fixpoint plain (q : place) (s : list Z) : bool :=
  match s with
  | [] => true
  | c :: r =>
      match q with
      | Outside => if c =? 34 then plain Inside r else negb ((c =? 78) || (c =? 73)) && plain Outside r
      | Inside => if c =? 34 then plain Outside r else if c =? 92 then plain Escaped r else plain Inside r
      | Escaped => plain Inside r
      end
  end.
Lemma plain_skip : forall s, plain Outside (skip s) = true -> plain Outside s = true.
Proof.
  induction s as [|c s IH]; [auto|]. cbn [skip]. destruct (ws c) eqn:E; [|auto]. intros H. cbn [plain]. unfold ws in E.
  destruct (c =? 34) eqn:E1; [lia|]. rewrite (IH H). lia.
Qed.
Lemma plain_string : forall s us rest, string_units s us rest -> plain Outside rest = true -> plain Inside s = true.
Proof.
  intros s us rest H. induction H as [rest|c s us rest C1 C2 C3 H IH|e u s us rest I H IH|a b c d x y z w s us rest Ha Hb Hc Hd H IH]; intros P.
  - exact P.
  - cbn [plain]. destruct (Z.eqb_spec c 34); [contradiction|]. destruct (Z.eqb_spec c 92); [contradiction|]. exact (IH P).
  - exact (IH P).
  - assert (G : forall c v t, hex_digit c = Some v -> plain Inside t = true -> plain Inside (c :: t) = true).
    { intros k v t E Q. cbn [plain]. unfold hex_digit in E. destruct (k =? 34) eqn:E1; [replace k with 34 in E by lia; discriminate|]. destruct (k =? 92) eqn:E2; [replace k with 92 in E by lia; discriminate|]. exact Q. }
    change (plain Inside (a :: b :: c :: d :: s) = true). eapply G; [exact Ha|]. eapply G; [exact Hb|]. eapply G; [exact Hc|]. eapply G; [exact Hd|]. exact (IH P).
Qed.
Lemma plain_number : forall s, plain Outside (snd (number_span s)) = true -> plain Outside s = true.
Proof.
  induction s as [|c s IH]; [auto|]. cbn [number_span]. destruct (number_char c) eqn:E; [|auto]. cbn [snd]. intros H. cbn [plain]. unfold number_char, is_dec in E.
  destruct (c =? 34) eqn:E1; [lia|]. rewrite (IH H). lia.
Qed.
Lemma plain_cons : forall c s, c <> 34 -> c <> 78 -> c <> 73 -> plain Outside s = true -> plain Outside (c :: s) = true.
Proof. intros c s H1 H2 H3 P. cbn [plain]. rewrite P. destruct (c =? 34) eqn:E; lia. Qed.
Ltac plain_step := apply plain_cons; [discriminate|discriminate|discriminate|].
Lemma plain_reads :
  (forall s v r, reads s v r -> plain Outside r = true -> plain Outside s = true) /\
  (forall s l r, reads_items s l r -> plain Outside r = true -> plain Outside s = true) /\
  (forall s l r, reads_members s l r -> plain Outside r = true -> plain Outside s = true).
Proof.
  apply reads_both.
  - intros rest P. exact P.
  - intros rest P. exact P.
  - intros rest P. exact P.
  - intros s v _ P. exact (plain_number s P).
  - intros s us rest H P. exact (plain_string _ _ _ H P).
  - intros s rest E P. plain_step. apply plain_skip. rewrite E. plain_step. exact P.
  - intros s vs rest _ IH P. plain_step. exact (IH P).
  - intros s rest E P. plain_step. apply plain_skip. rewrite E. plain_step. exact P.
  - intros s vs rest _ IH P. plain_step. exact (IH P).
  - intros s v r rest _ IH E P. apply plain_skip, IH, plain_skip. rewrite E. plain_step. exact P.
  - intros s v r r' vs rest _ IH E _ IHI P. apply plain_skip, IH, plain_skip. rewrite E. plain_step. exact (IHI P).
  - intros s k s1 us s2 s3 v r rest ES HS E1 E2 _ IH EC P. apply plain_skip. rewrite ES. apply (plain_string _ _ _ HS). apply plain_skip. rewrite E1. plain_step. apply plain_skip. rewrite <- E2.
    apply IH, plain_skip. rewrite EC. plain_step. exact P.
  - intros s k s1 us s2 s3 v r r' ms rest ES HS E1 E2 _ IH EC _ IHM P. apply plain_skip. rewrite ES. apply (plain_string _ _ _ HS). apply plain_skip. rewrite E1. plain_step. apply plain_skip. rewrite <- E2.
    apply IH, plain_skip. rewrite EC. plain_step. exact (IHM P).
Qed.
Lemma json_plain : forall s v, is_json s v -> plain Outside s = true.
Proof. intros s v (r & H & E). apply plain_skip. apply (proj1 plain_reads _ _ _ H). apply plain_skip. rewrite E. reflexivity. Qed.

(** ** Strings that are written *)

Lemma hex_digit_lower : forall d, 0 <= d < 16 -> hex_digit (hexdigit_lower d) = Some d.
Proof.
  intros d H. unfold hex_digit, hexdigit_lower. destruct (d <? 10) eqn:E.
  - replace ((48 <=? 48 + d) && (48 + d <=? 57)) with true by lia. f_equal. lia.
  - replace ((48 <=? 87 + d) && (87 + d <=? 57)) with false by lia. replace ((97 <=? 87 + d) && (87 + d <=? 102)) with true by lia. f_equal. lia.
Qed.
Lemma fmt_x4 : forall n, 0 <= n < 65536 -> exists a b c d x y z w, fmt_x 4 n = [a; b; c; d] /\
  hex_digit a = Some x /\ hex_digit b = Some y /\ hex_digit c = Some z /\ hex_digit d = Some w /\ 4096 * x + 256 * y + 16 * z + w = n.
Proof.
  intros n H. destruct (fmt_x_digits 4 n) as (ds & E & V & F & L); [lia|].
  assert (zlen (digits 16 n) <= 4) by (apply digits_length; lia). replace (Z.max 4 (zlen (digits 16 n))) with 4 in L by lia.
  destruct ds as [|x [|y [|z [|w [|? ?]]]]]; try (unfold zlen in L; cbn in L; lia).
  rewrite E. cbn [map]. exists (hexdigit_lower x), (hexdigit_lower y), (hexdigit_lower z), (hexdigit_lower w), x, y, z, w.
  split; [reflexivity|]. inversion F as [|? ? F1 G1]; subst. inversion G1 as [|? ? F2 G2]; subst. inversion G2 as [|? ? F3 G3]; subst. inversion G3 as [|? ? F4 G4]; subst.
  unfold is_digit in *. repeat (split; [apply hex_digit_lower; assumption|]). unfold of_digits. cbn. lia.
Qed.
Lemma surrogate_high : forall n, 0 <= n < 1048576 -> Z.lor 0xd800 (Z.land (Z.shiftr n 10) 0x3ff) = 0xD800 + n / 0x400.
Proof.
  intros n H. rewrite Z.shiftr_div_pow2 by lia. change 0x3ff with (Z.ones 10). rewrite Z.land_ones by lia.
  change (2 ^ 10) with 1024. assert (0 <= n / 1024 < 1024) by (split; [apply Z.div_pos; lia|apply Z.div_lt_upper_bound; lia]).
  rewrite Z.mod_small by lia. change 0xd800 with (Z.shiftl 54 10). rewrite lor_shiftl_add by (change (2 ^ 10) with 1024; lia). change (Z.shiftl 54 10) with 55296. lia.
Qed.
Lemma surrogate_low : forall n, 0 <= n -> Z.lor 0xdc00 (Z.land n 0x3ff) = 0xDC00 + n mod 0x400.
Proof.
  intros n H. change 0x3ff with (Z.ones 10). rewrite Z.land_ones by lia. change (2 ^ 10) with 1024.
  pose proof (Z.mod_pos_bound n 1024 ltac:(lia)).
  change 0xdc00 with (Z.shiftl 55 10). rewrite lor_shiftl_add by (change (2 ^ 10) with 1024; lia). change (Z.shiftl 55 10) with 56320. lia.
Qed.

Lemma escape_u : forall n s us rest, 0 <= n < 65536 -> string_units s us rest -> string_units (92 :: 117 :: fmt_x 4 n ++ s) (n :: us) rest.
Proof.
  intros n s us rest H K. destruct (fmt_x4 n H) as (a & b & c & d & x & y & z & w & -> & Ha & Hb & Hc & Hd & E). rewrite <- E.
  cbn [app]. apply su_hex; assumption.
Qed.

Definition code_point (c : Z) : Prop := 0 <= c < 0x110000.

Lemma escape_char : forall c s us rest, code_point c -> string_units s us rest -> string_units (json_escape c ++ s) (utf16_units_of c ++ us) rest.
Proof.
  unfold code_point. intros c s us rest H K.
  assert (B : forall k, k < 65536 -> utf16_units_of k = [k]) by (intros k Hk; unfold utf16_units_of; replace (k <? 65536) with true by lia; reflexivity).
  unfold json_escape.
  destruct (c =? 34) eqn:E1; [apply Z.eqb_eq in E1; subst; apply su_short; [cbn; tauto|exact K]|].
  destruct (c =? 92) eqn:E2; [apply Z.eqb_eq in E2; subst; apply su_short; [cbn; tauto|exact K]|].
  destruct ((32 <=? c) && (c <=? 126)) eqn:E3; [cbn [app]; apply su_plain; [lia|lia|lia|exact K]|].
  destruct (c =? 10) eqn:E4; [apply Z.eqb_eq in E4; subst; apply su_short; [cbn; tauto|exact K]|].
  destruct (c =? 13) eqn:E5; [apply Z.eqb_eq in E5; subst; apply su_short; [cbn; tauto|exact K]|].
  destruct (c =? 9) eqn:E6; [apply Z.eqb_eq in E6; subst; apply su_short; [cbn; tauto|exact K]|].
  destruct (c =? 12) eqn:E7; [apply Z.eqb_eq in E7; subst; apply su_short; [cbn; tauto|exact K]|].
  destruct (c =? 8) eqn:E8; [apply Z.eqb_eq in E8; subst; apply su_short; [cbn; tauto|exact K]|].
  destruct (c <? 65536) eqn:E9.
  - rewrite B by lia. cbn [app]. apply escape_u; [lia|exact K].
  - unfold utf16_units_of. rewrite E9. rewrite surrogate_high, surrogate_low by lia. cbn [app]. rewrite <- !app_assoc. cbn [app].
    assert (0 <= (c - 65536) / 1024 < 1024) by (split; [apply Z.div_pos; lia|apply Z.div_lt_upper_bound; lia]).
    pose proof (Z.mod_pos_bound (c - 65536) 1024 ltac:(lia)).
    apply escape_u; [lia|]. apply escape_u; [lia|]. exact K.
Qed.
Lemma string_written : forall t rest, Forall code_point t -> string_units (concat (map json_escape t) ++ [34] ++ rest) (utf16_units t) rest.
Proof.
  intros t rest H. induction H as [|c t Hc _ IH]; [constructor|].
  unfold utf16_units in *. cbn [map concat]. rewrite <- app_assoc. apply escape_char; assumption.
Qed.
Lemma json_string_starts : forall t rest, json_string t ++ rest = 34 :: concat (map json_escape t) ++ [34] ++ rest.
Proof. intros t rest. unfold json_string. cbn [app]. rewrite <- app_assoc. reflexivity. Qed.

Lemma bytes_units : forall b, Forall (fun c => c < 65536) b -> utf16_units b = b.
Proof.
  intros b H. induction H as [|c b Hc _ IH]; [reflexivity|]. unfold utf16_units in *. cbn [map concat]. rewrite IH.
  unfold utf16_units_of. replace (c <? 65536) with true by lia. reflexivity.
Qed.
Lemma bytes_points : forall b, all_bytes b -> Forall code_point b.
Proof. intros b. apply Forall_impl. unfold is_byte, code_point. lia. Qed.
Lemma bytes_small : forall b, all_bytes b -> Forall (fun c => c < 65536) b.
Proof. intros b. apply Forall_impl. unfold is_byte. lia. Qed.

(** ** Integers that are written *)

Lemma decimal_digits : forall l a, fold_left (fun n c => 10 * n + (c - 48)) (map decdigit l) a = fold_left (fun a d => a * 10 + d) l a.
Proof.
  induction l as [|d l IH]; intros a; [reflexivity|]. cbn [map fold_left]. rewrite IH. f_equal. unfold decdigit. lia.
Qed.
Lemma natural_written : forall n, 0 <= n -> natural_text (map decdigit (digits 10 n)) /\ decimal (map decdigit (digits 10 n)) = n.
Proof.
  intros n H. destruct (digits_spec 10 n) as (V & F & N & HD); [lia|lia|]. split.
  - split; [destruct (digits 10 n); [congruence|discriminate]|]. split.
    + apply forallb_forall. intros c I. apply in_map_iff in I as (d & <- & I). rewrite Forall_forall in F. specialize (F d I). apply decdigit_range in F. unfold is_dec. lia.
    + destruct (Z.eq_dec n 0) as [->|NZ]; [reflexivity|]. specialize (HD ltac:(lia)). destruct (digits 10 n) as [|d r]; [congruence|]. cbn in HD |- *. unfold decdigit. intros E. exfalso. apply HD. lia.
  - unfold decimal. rewrite decimal_digits. exact V.
Qed.
Lemma integer_written : forall n, integer_text (fmt_d n) n.
Proof.
  intros n. unfold fmt_d. destruct (n <? 0) eqn:E.
  - destruct (natural_written (- n) ltac:(lia)) as [N V]. pose proof (it_negative _ N) as K. rewrite V in K. replace (- - n) with n in K by lia. exact K.
  - destruct (natural_written n ltac:(lia)) as [N V]. pose proof (it_natural _ N) as K. rewrite V in K. exact K.
Qed.

(** Characters of numbers. *)
Definition ends_number (rest : list Z) : Prop := match rest with c :: _ => number_char c = false | [] => True end.
Lemma span_all : forall t rest, forallb number_char t = true -> ends_number rest -> number_span (t ++ rest) = (t, rest).
Proof.
  intros t rest H E. induction t as [|c t IH]; cbn [app].
  - destruct rest as [|c r]; [reflexivity|]. cbn in E |- *. rewrite E. reflexivity.
  - cbn in H. apply andb_prop in H as [H1 H2]. cbn [number_span]. rewrite H1, (IH H2). reflexivity.
Qed.
Lemma dec_chars : forall t, forallb is_dec t = true -> forallb number_char t = true.
Proof.
  intros t H. apply forallb_forall. intros c I. rewrite forallb_forall in H. unfold number_char. rewrite (H c I). reflexivity.
Qed.
Lemma integer_chars : forall t n, integer_text t n -> forallb number_char t = true.
Proof. intros t n H. inversion H as [u (_ & D & _)|u (_ & D & _)]; subst; cbn; apply dec_chars; exact D. Qed.
Lemma number_chars : forall t v, number_says t v -> forallb number_char t = true.
Proof.
  intros t v H. inversion H as [u n K|u n f e K HF HE HN]; subst.
  - exact (integer_chars _ _ K).
  - rewrite !forallb_app. rewrite (integer_chars _ _ K). cbn [andb]. apply andb_true_intro. split.
    + inversion HF as [|w (_ & D)]; subst; [reflexivity|]. cbn. apply dec_chars. exact D.
    + inversion HE as [|x sign w HX HS (_ & D)]; subst; [reflexivity|]. cbn [forallb]. rewrite forallb_app, (dec_chars w D), andb_true_r.
      apply andb_true_intro. split; [destruct HX as [-> | ->]; reflexivity|destruct HS as [-> |[-> | ->]]; reflexivity].
Qed.
Lemma number_read : forall t v rest, number_says t v -> ends_number rest -> reads (t ++ rest) v rest.
Proof.
  intros t v rest H E. pose proof (span_all t rest (number_chars t v H) E) as S.
  replace rest with (snd (number_span (t ++ rest))) at 2 by (rewrite S; reflexivity). apply rd_number. rewrite S. exact H.
Qed.
(** The first character of a value is no white space. *)
Lemma reads_starts : forall s v r, reads s v r -> skip s = s.
Proof.
  intros s v r H. inversion H; subst; try reflexivity. destruct s as [|c s]; [reflexivity|].
  match goal with K : number_says _ _ |- _ => apply number_starts in K; rename K into N end.
  cbn [skip]. replace (ws c) with false; [reflexivity|]. unfold number_char, is_dec, ws in *. lia.
Qed.

(** ** Sorted keys *)

Lemma text_lt_before : forall a b, text_lt a b = true <-> before a b.
Proof.
  induction a as [|x a IH]; intros [|y b]; cbn; try (split; [discriminate|contradiction]); try tauto.
  destruct (x <? y) eqn:E1; [split; [intros _; left; lia|reflexivity]|]. destruct (y <? x) eqn:E2.
  - split; [discriminate|intros [H|[H _]]; lia].
  - rewrite IH. split; [intros H; right; split; [lia|exact H]|intros [H|[_ H]]; [lia|exact H]].
Qed.
Lemma before_trans : forall a b c, before a b -> before b c -> before a c.
Proof.
  induction a as [|x a IH]; intros [|y b] [|z c]; cbn; try tauto. intros [H|[-> H]] [K|[-> K]]; try (left; lia). right. split; [reflexivity|]. exact (IH _ _ H K).
Qed.
Lemma before_total : forall a b, a <> b -> ~ before a b -> before b a.
Proof.
  induction a as [|x a IH]; intros [|y b] H N; cbn in *; try tauto.
  destruct (Z.lt_total x y) as [L|[->|L]]; [tauto|right; split; [reflexivity|apply IH; [congruence|tauto]]|left; lia].
Qed.
Lemma insert_perm : forall {A} (kv : list Z * A) l, Permutation (kv :: l) (insert_item kv l).
Proof.
  intros A kv l. induction l as [|x l IH]; cbn [insert_item]; [apply Permutation_refl|]. destruct (text_lt (fst x) (fst kv)); [|apply Permutation_refl].
  eapply Permutation_trans; [apply perm_swap|]. apply perm_skip. exact IH.
Qed.
Lemma sort_perm : forall {A} (l : list (list Z * A)), Permutation l (sort_items l).
Proof.
  intros A l. induction l as [|x l IH]; [apply Permutation_refl|]. cbn [sort_items fold_right].
  eapply Permutation_trans; [apply perm_skip; exact IH|]. apply insert_perm.
Qed.
Lemma insert_sorted : forall {A} (kv : list Z * A) l, ~ In (fst kv) (map fst l) -> ascending (map fst l) -> ascending (map fst (insert_item kv l)).
Proof.
  intros A kv l. induction l as [|x l IH]; intros N H; cbn [insert_item map]; [repeat constructor|].
  cbn in H. inversion H as [|? ? S F]; subst. destruct (text_lt (fst x) (fst kv)) eqn:E; cbn [map].
  - apply text_lt_before in E. constructor; [apply IH; [intros I; apply N; right; exact I|exact S]|].
    rewrite Forall_forall in F |- *. intros k I.
    apply (Permutation_in k (Permutation_map fst (Permutation_sym (insert_perm kv l)))) in I. cbn [map] in I. destruct I as [<-|I]; [exact E|apply F; exact I].
  - assert (B : before (fst kv) (fst x)).
    { apply before_total; [intros E'; apply N; left; exact E'|]. intros C. apply text_lt_before in C. congruence. }
    constructor; [exact H|]. constructor; [exact B|]. rewrite Forall_forall in F |- *. intros k I. exact (before_trans _ _ _ B (F k I)).
Qed.
Lemma sort_sorted : forall {A} (l : list (list Z * A)), NoDup (map fst l) -> ascending (map fst (sort_items l)).
Proof.
  intros A l. induction l as [|x l IH]; intros H; [constructor|]. cbn [map] in H. inversion H; subst. cbn [sort_items fold_right]. apply insert_sorted; [|apply IH; assumption].
  intros I. apply (Permutation_in (fst x) (Permutation_map fst (Permutation_sym (sort_perm l)))) in I. contradiction.
Qed.

(** ** Values that are written *)

Section Encoding.
  Variable float_repr : Z -> list Z.
  Hypothesis float_ok : forall bits, finite bits -> exists j, number_says (float_repr bits) j.

  (** The value of what is given to json.dumps. *)
  Inductive means : pyjson -> jvalue -> Prop :=
  | mn_int : forall n, means (JInt n) (JN n)
  | mn_float : forall bits j, finite bits -> number_says (float_repr bits) j -> means (JFloat bits) j
  | mn_str : forall t, means (JStr t) (JS (utf16_units t))
  | mn_bytes : forall b, means (JBytes b) (JS b)
  | mn_list : forall l js, Forall2 means l js -> means (JList l) (JA js)
  | mn_dict : forall d d' ms, Permutation d d' -> Forall2 (fun kv m => fst m = fst kv /\ means (snd kv) (snd m)) d' ms ->
      ascending (map fst ms) -> means (JDict d) (JO ms).

  (** Texts of code points, bytes, finite numbers, keys of small characters and
      no key twice. *)
  Inductive encodable : pyjson -> Prop :=
  | en_int : forall n, encodable (JInt n)
  | en_float : forall bits, finite bits -> encodable (JFloat bits)
  | en_str : forall t, Forall code_point t -> encodable (JStr t)
  | en_bytes : forall b, all_bytes b -> encodable (JBytes b)
  | en_list : forall l, Forall encodable l -> encodable (JList l)
  | en_dict : forall d, Forall (fun kv => all_bytes (fst kv) /\ encodable (snd kv)) d -> NoDup (map fst d) -> encodable (JDict d).

  Fixpoint pyjson_rect' (P : pyjson -> Prop) (Hi : forall n, P (JInt n)) (Hf : forall b, P (JFloat b)) (Hs : forall t, P (JStr t)) (Hb : forall b, P (JBytes b))
      (Hl : forall l, Forall P l -> P (JList l)) (Hd : forall d, Forall (fun kv => P (snd kv)) d -> P (JDict d)) (v : pyjson) {struct v} : P v :=
    match v with
    | JInt n => Hi n
    | JFloat b => Hf b
    | JStr t => Hs t
    | JBytes b => Hb b
    | JList l => Hl l ((fix go (l : list pyjson) : Forall P l :=
        match l with [] => Forall_nil _ | x :: r => Forall_cons _ (pyjson_rect' P Hi Hf Hs Hb Hl Hd x) (go r) end) l)
    | JDict d => Hd d ((fix go (d : list (list Z * pyjson)) : Forall (fun kv => P (snd kv)) d :=
        match d with [] => Forall_nil _ | (k, x) :: r => Forall_cons (k, x) (pyjson_rect' P Hi Hf Hs Hb Hl Hd x) (go r) end) d)
    end.

  Lemma finite_float : forall bits, finite bits -> json_float float_repr bits = float_repr bits.
  Proof.
    intros bits H. unfold json_float, float_exponent. rewrite Z.shiftr_div_pow2 by lia. change 0x7ff with (Z.ones 11). rewrite Z.land_ones by lia.
    unfold finite in H. change (Z.ones 11) with 2047. destruct (Z.eqb_spec ((bits / 2 ^ 52) mod 2 ^ 11) 2047); [contradiction|reflexivity].
  Qed.

  Definition written (v : pyjson) (j : jvalue) : Prop :=
    means v j /\ forall level rest, ends_number rest -> reads (json_encode float_repr level v ++ rest) j rest.

  Lemma skip_indent : forall level s, skip (newline_indent level ++ s) = skip s.
  Proof.
    intros level s. unfold newline_indent. cbn [app skip]. replace (ws 10) with true by reflexivity. unfold repeat_z. induction (Z.to_nat (2 * level)) as [|n IH]; [reflexivity|exact IH].
  Qed.

  (** The items of an array, from one of them on. *)
  Lemma items_written : forall level rest parts js, parts <> [] ->
    Forall2 (fun p j => forall rest, ends_number rest -> reads (p ++ rest) j rest) parts js ->
    reads_items (newline_indent (level + 1) ++ join (44 :: newline_indent (level + 1)) parts ++ newline_indent level ++ [93] ++ rest) js rest.
  Proof.
    intros level rest parts js HN H. induction H as [|p j parts js Hp H IH]; [contradiction|]. destruct parts as [|q parts].
    - inversion H; subst. cbn [join]. assert (R : reads (p ++ newline_indent level ++ [93] ++ rest) j (newline_indent level ++ [93] ++ rest)) by (apply Hp; reflexivity).
      eapply ri_last; [rewrite skip_indent, (reads_starts _ _ _ R); exact R|]. rewrite skip_indent. reflexivity.
    - rewrite join_cons2. rewrite <- !app_assoc. set (tl := join _ (q :: parts) ++ _) in *. change ((44 :: newline_indent (level + 1)) ++ tl) with (44 :: newline_indent (level + 1) ++ tl).
      assert (R : reads (p ++ 44 :: newline_indent (level + 1) ++ tl) j (44 :: newline_indent (level + 1) ++ tl)) by (apply Hp; reflexivity).
      eapply ri_more; [rewrite skip_indent, (reads_starts _ _ _ R); exact R|reflexivity|]. apply IH. discriminate.
  Qed.
  Lemma members_written : forall level rest (items : list (list Z * list Z)) ms, items <> [] -> Forall (fun kt => all_bytes (fst kt)) items ->
    Forall2 (fun kt m => fst m = fst kt /\ forall rest, ends_number rest -> reads (snd kt ++ rest) (snd m) rest) items ms ->
    reads_members (newline_indent (level + 1) ++ join (44 :: newline_indent (level + 1)) (map (fun kt => json_string (fst kt) ++ [58; 32] ++ snd kt) items) ++ newline_indent level ++ [125] ++ rest) ms rest.
  Proof.
    intros level rest items ms HN HB H. induction H as [|[k t] [us v] items ms [E Hp] H IH]; [contradiction|]. inversion HB as [|? ? B1 B2]; subst. cbn [fst snd] in *. subst us.
    pose proof (bytes_units k (bytes_small k B1)) as EU.
    destruct items as [|kt items].
    - inversion H; subst. cbn [map join]. rewrite <- !app_assoc. cbn [fst snd].
      assert (R : reads (t ++ newline_indent level ++ [125] ++ rest) v (newline_indent level ++ [125] ++ rest)) by (apply Hp; reflexivity).
      eapply rm_last with (s1 := [58; 32] ++ t ++ newline_indent level ++ [125] ++ rest).
      + rewrite skip_indent, json_string_starts. cbn [skip]. replace (ws 34) with false by reflexivity. reflexivity.
      + rewrite <- EU at 2. apply string_written. apply bytes_points. exact B1.
      + reflexivity.
      + cbn [skip app]. replace (ws 32) with true by reflexivity. exact (eq_sym (reads_starts _ _ _ R)).
      + exact R.
      + rewrite skip_indent. reflexivity.
    - cbn [map] in *. rewrite join_cons2. rewrite <- !app_assoc. set (tl := join _ (_ :: map _ items) ++ _) in *. cbn [fst snd].
      change ((44 :: newline_indent (level + 1)) ++ tl) with (44 :: newline_indent (level + 1) ++ tl).
      assert (R : reads (t ++ 44 :: newline_indent (level + 1) ++ tl) v (44 :: newline_indent (level + 1) ++ tl)) by (apply Hp; reflexivity).
      eapply rm_more with (s1 := [58; 32] ++ t ++ 44 :: newline_indent (level + 1) ++ tl).
      + rewrite skip_indent, json_string_starts. cbn [skip]. replace (ws 34) with false by reflexivity. reflexivity.
      + rewrite <- EU at 2. apply string_written. apply bytes_points. exact B1.
      + reflexivity.
      + cbn [skip app]. replace (ws 32) with true by reflexivity. exact (eq_sym (reads_starts _ _ _ R)).
      + exact R.
      + reflexivity.
      + apply IH; [discriminate|exact B2].
  Qed.

  Lemma sort_map : forall {A B} (f : A -> B) (l : list (list Z * A)),
    sort_items (map (fun kv => (fst kv, f (snd kv))) l) = map (fun kv => (fst kv, f (snd kv))) (sort_items l).
  Proof.
    intros A B f l. induction l as [|x l IH]; [reflexivity|]. cbn [map sort_items fold_right]. unfold sort_items in IH. rewrite IH. clear IH.
    induction (fold_right insert_item [] l) as [|y r IH]; [reflexivity|]. cbn [map insert_item fst]. destruct (text_lt (fst y) (fst x)); [|reflexivity]. cbn [map]. rewrite IH. reflexivity.
  Qed.

  Theorem encode_written : forall v, encodable v -> exists j, written v j.
  Proof.
    apply (pyjson_rect' (fun v => encodable v -> exists j, written v j)).
    - intros n _. exists (JN n). split; [constructor|]. intros level rest E. cbn [json_encode]. apply number_read; [apply ns_integer, integer_written|exact E].
    - intros bits H. inversion H as [|? F| | | |]; subst. destruct (float_ok bits F) as [j K]. exists j. split; [constructor; assumption|]. intros level rest E. cbn [json_encode].
      rewrite finite_float by exact F. apply number_read; assumption.
    - intros t H. inversion H; subst. exists (JS (utf16_units t)). split; [constructor|]. intros level rest E. cbn [json_encode]. rewrite json_string_starts. apply rd_string, string_written. assumption.
    - intros b H. inversion H; subst. exists (JS b). split; [constructor|]. intros level rest E. cbn [json_encode]. rewrite json_string_starts. apply rd_string.
      rewrite <- (bytes_units b) at 2 by (apply bytes_small; assumption). apply string_written, bytes_points. assumption.
    - intros l IH H. inversion H as [| | | |? F|]; subst.
      assert (W : exists js, Forall2 written l js).
      { clear H. induction IH as [|x l Hx _ IHl]; [exists []; constructor|]. inversion F; subst. destruct (Hx H1) as [j J]. destruct (IHl H2) as [js JS]. exists (j :: js). constructor; assumption. }
      destruct W as [js W]. exists (JA js). split.
      + constructor. clear -W. induction W as [|x j l js [M _] _ IH]; constructor; assumption.
      + intros level rest E. cbn [json_encode]. destruct W as [|x j l js [M R] W].
        * cbn. apply rd_empty_array. reflexivity.
        * cbn [map json_brackets]. cbn [app]. apply rd_array. rewrite <- !app_assoc.
          apply items_written; [discriminate|]. constructor; [intros; apply R; assumption|]. clear -W. induction W as [|y k l js [M R] _ IH]; cbn [map]; constructor; [intros; apply R; assumption|exact IH].
    - intros d IH H. inversion H as [| | | | |? F N]; subst.
      assert (W : exists ms, Forall2 (fun kv m => fst m = fst kv /\ all_bytes (fst kv) /\ written (snd kv) (snd m)) (sort_items d) ms).
      { assert (G : Forall (fun kv => all_bytes (fst kv) /\ exists j, written (snd kv) j) (sort_items d)).
        { apply Forall_forall. intros kv I. apply (Permutation_in kv (Permutation_sym (sort_perm d))) in I.
          rewrite Forall_forall in IH, F. split; [apply (F kv I)|]. apply (IH kv I). apply (F kv I). }
        clear -G. induction G as [|[k x] l [B [j J]] _ [ms IHl]]; [exists []; constructor|]. exists ((k, j) :: ms). constructor; [|exact IHl]. cbn. auto. }
      destruct W as [ms W].
      assert (NM : map fst ms = map fst (sort_items d)) by (clear -W; induction W as [|x m l ms [E _] _ IH]; [reflexivity|cbn; rewrite E, IH; reflexivity]).
      exists (JO ms). split.
      + apply mn_dict with (d' := sort_items d); [apply sort_perm| |rewrite NM; apply sort_sorted; exact N].
        clear -W. induction W as [|x m l ms (E & _ & M & _) _ IH]; constructor; [split; assumption|exact IH].
      + intros level rest E. cbn [json_encode]. rewrite sort_map. destruct W as [|x m l ms (EK & B & M & R) W].
        * cbn. apply rd_empty_object. reflexivity.
        * cbn [map json_brackets]. cbn [app]. apply rd_object. rewrite <- !app_assoc.
          pose proof (members_written level rest (map (fun kv => (fst kv, json_encode float_repr (level + 1) (snd kv))) (x :: l)) (m :: ms)) as MW.
          cbn [map fst snd] in MW. apply MW; [discriminate| |].
          -- constructor; [exact B|]. clear -W. induction W as [|y k l ms (_ & B & _) _ IH]; cbn [map]; constructor; [exact B|exact IH].
          -- constructor; [split; [exact EK|intros; apply R; assumption]|]. clear -W. induction W as [|y k l ms (E & B & M & R) _ IH]; cbn [map]; constructor; [split; [exact E|intros; apply R; assumption]|exact IH].
  Qed.
End Encoding.
