(** Vocabulary for statements about the assembler routines: what is mapped in memory, what a routine may change. *)
From Coq Require Import List NArith ZArith Lia Arith Bool.
From Coq.Init Require Import Byte.
From Verif Require Import Bytes.
Import ListNotations.
Local Open Scope N_scope.

(** the [n] bytes from address [a] on are accessible in memory [m] (an address without contents, [None], is not) *)
Definition accessible (m : N -> option byte) (a n : N) : Prop := forall x, a <= x < a + n -> m x <> None.

(** memory [m] holds the bytes [l] at address [a] *)
Definition holds_at (m : N -> option byte) (a : N) (l : list byte) : Prop :=
  forall i, (i < length l)%nat -> m (a + N.of_nat i) = Some (nth i l x00).

(** [m'] is [m], except that byte number [i] of the [n] bytes at [po] is [f x y], where [x] is byte number [i] at [pi] in [m] and [y] what
    was there in [m]. *)
Definition rewritten (f : byte -> byte -> byte) (pi po n : N) (m m' : N -> option byte) : Prop :=
  (forall i, i < n -> exists x y, m (pi + i) = Some x /\ m (po + i) = Some y /\ m' (po + i) = Some (f x y)) /\
  (forall a, a < po \/ po + n <= a -> m' a = m a).

(** the result of looking up the two nibbles of [x] in two tables of 16 bytes *)
Definition nibbles (low high : list byte) (x : byte) : byte :=
  n2b (N.lxor (b2n (nth (N.to_nat (b2n x mod 16)) low x00)) (b2n (nth (N.to_nat (b2n x / 16)) high x00))).

(** in-place and disjoint regions, but not an output that starts strictly inside the input *)
Definition no_forward_overlap (pi po n : N) : Prop := po <= pi \/ pi + n <= po.

(** what the caller of a routine must provide: [n] accessible bytes at [pi] and at [po], not wrapping around the end of the address space,
    and no forward overlap *)
Definition regions (m : N -> option byte) (pi po n : N) : Prop :=
  pi + n < 2 ^ 64 /\ po + n < 2 ^ 64 /\ accessible m pi n /\ accessible m po n /\ no_forward_overlap pi po n.
(** a table of 16 bytes at address [a] *)
Definition table_at (m : N -> option byte) (a : N) (t : list byte) : Prop := holds_at m a t /\ length t = 16%nat /\ a + 16 < 2 ^ 64.
