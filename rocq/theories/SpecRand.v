(** Specification vocabulary for the theorems about math/rand. *)
From Coq Require Import List NArith ZArith Lia Arith Bool.
From Coq.Init Require Import Byte.
From Verif Require Import GoSem Bytes Spec MathRand.
Import ListNotations.

(** The states of the generator in a running program: it was seeded, and then any number of words and bytes were drawn. *)
Inductive reachable (cooked : list N) : rng -> Prop :=
  | seeded seed : reachable cooked (rngSeed cooked seed)
  | drawn r : reachable cooked r -> reachable cooked (snd (rngUint64 r))
  | byte_read r : reachable cooked r -> reachable cooked (snd (rngByte r)).

(** 7 bytes of a stream as a 56-bit number, lowest first *)
Definition word56 (s : nat -> byte) (n : nat) : N :=
  fold_right (fun k acc => (b2n (s (7 * n + k)%nat) + 256 * acc)%N) 0%N (seq 0 7).

(** [c] is the coefficient of x in the polynomial of degree 1 with value [y] at [x] and [s] at 0 *)
Definition slope (x y s c : byte) : Prop := gmul x c = gadd y s.

(** number of seeds the generator distinguishes *)
Definition seed_count : Z := 2147483646.
