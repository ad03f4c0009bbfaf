(** Specification of the distribution document key stream. *)
From Coq Require Import ZArith List Bool.
From Verif Require Import Base.
Import ListNotations.
Open Scope Z_scope.

(** The linear congruential generator of the C runtime: k-th state and output. *)
Fixpoint lcg_state (seed : Z) (k : nat) : Z :=
  match k with O => seed | S j => (lcg_state seed j * 214013 + 2531011) mod 4294967296 end.
Definition lcg_out (seed : Z) (k : nat) : Z := (lcg_state seed k / 65536) mod 32768.

(** The key stream consists of runs: run j repeats one byte up to 16 times.
    Outputs are taken in pairs: byte, then length. *)
Definition run_key (seed : Z) (j : nat) : Z := lcg_out seed (2 * j + 1) mod 256.
Definition run_len (seed : Z) (j : nat) : Z := lcg_out seed (2 * j + 2) mod 16 + 1.
Fixpoint run_start (seed : Z) (j : nat) : Z :=
  match j with O => 0 | S k => run_start seed k + run_len seed k end.
Definition in_run (seed : Z) (j : nat) (i : Z) : Prop := run_start seed j <= i < run_start seed (S j).

(** The seed is the little-endian number in the first four bytes. *)
Definition seed_of (head : list Z) : Z :=
  match head with d0 :: d1 :: d2 :: d3 :: _ => d0 + 256 * d1 + 65536 * d2 + 16777216 * d3 | _ => 0 end.
