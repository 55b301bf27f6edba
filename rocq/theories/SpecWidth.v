(** Specification side of C68: what fits into an [int] of [W] bits and into memory. Independent of the model. *)
From Coq Require Import List ZArith.
From Coq.Init Require Import Byte.

(** the largest [int] of [W] bits *)
Definition maxInt (W : Z) : Z := (2 ^ (W - 1) - 1)%Z.

(** the largest array that has an [int] length and can be allocated *)
Definition room (W maxAlloc : Z) : Z := Z.min (maxInt W) maxAlloc.

(** [Split], [SplitWithRandomizer]: the array of all shares, and the growth of each pool buffer that is too small
    ([polB], [trB]: the two buffers of [bPool]; [evBufs i]: the buffer of the other pool used for the i-th share).
    [N] secret bytes, [n] parts, threshold [t]. *)
Definition buffers_fit (W maxAlloc : Z) (growcap : nat -> nat -> nat) (polB trB : list byte) (evBufs : nat -> list byte)
           (N n t : nat) : Prop :=
  (Z.of_nat ((N + 1) * n) <= room W maxAlloc)%Z /\
  (length polB < t * N -> (Z.of_nat (growcap (length polB) (t * N)%nat) <= room W maxAlloc)%Z) /\
  (length trB < t * N -> (Z.of_nat (growcap (length trB) (t * N)%nat) <= room W maxAlloc)%Z) /\
  (forall i, i < n -> length (evBufs i) < N -> (Z.of_nat (growcap (length (evBufs i)) N) <= room W maxAlloc)%Z).

(** [SplitWithRandomizerOld] *)
Definition old_fit (W maxAlloc : Z) (growcap : nat -> nat -> nat) (evBufs : nat -> list byte) (N n : nat) : Prop :=
  (Z.of_nat ((N + 1) * n) <= room W maxAlloc)%Z /\
  (forall i, i < n -> length (evBufs i) < N -> (Z.of_nat (growcap (length (evBufs i)) N) <= room W maxAlloc)%Z).

(** [SplitGeneric]: one share, and the matrix of the coefficients *)
Definition generic_fit (W maxAlloc : Z) (N t : nat) : Prop :=
  (Z.of_nat (N + 1) <= room W maxAlloc)%Z /\ (Z.of_nat (t * N) <= room W maxAlloc)%Z.
