(** Specification vocabulary for C89: random bytes that are not ideal. *)
From Coq Require Import List NArith ZArith Lia Arith Bool.
From Coq.Init Require Import Byte.
From Verif Require Import GoSem Bytes Spec.
Import ListNotations.
Local Open Scope Z_scope.

(** A source of random bytes: the strings it may deliver, one for each of its equally likely internal states (for a pseudo-random generator:
    one for each seed). A string that is delivered in several states occurs several times. *)
Definition source : Type := list (list byte).

(** How well [test] tells the source from ideal random strings of [M] bytes: the difference of the probabilities that it says yes, multiplied by
    the number of states of the source and by the number of strings, 256^M. *)
Definition advantage (test : list byte -> bool) (src : source) (M : nat) : Z :=
  Z.abs (Z.of_nat (count test src) * 256 ^ Z.of_nat M - Z.of_nat (count test (all_strings M)) * Z.of_nat (length src)).

(** How far the source is from ideal: the sum over all strings of the difference of the probabilities, multiplied by the same numbers (this is
    twice the statistical distance). *)
Definition distance (src : source) (M : nat) : Z :=
  fold_right Z.add 0 (map (fun r => Z.abs (Z.of_nat (count_occ (list_eq_dec byte_eq_dec) src r) * 256 ^ Z.of_nat M - Z.of_nat (length src))) (all_strings M)).

(** The difference of the numbers of states in which an attacker says yes in two worlds *)
Definition gap (left right : list byte -> bool) (src : source) : Z := Z.abs (Z.of_nat (count left src) - Z.of_nat (count right src)).

(** No string is delivered in more than [K] states: for [length src = K * 256^M / 2^d] the source lacks [d] bits of (min-)entropy. *)
Definition at_most (K : nat) (src : source) : Prop := forall r, (count_occ (list_eq_dec byte_eq_dec) src r <= K)%nat.
