(** Specification side of C88: which slices fit into memory on a machine with [int]s of [W] bits. Independent of the model. *)
From Coq Require Import List ZArith.
From Coq.Init Require Import Byte.
From Verif Require Import SpecWidth.
Import ListNotations.

(** the size of a slice header (pointer, length, capacity), in bytes: 24 on 64 bits, 12 on 32 bits *)
Definition header (W : Z) : Z := (3 * (W / 8))%Z.

(** a slice of [n] slices has an [int] length and can be allocated *)
Definition slices_fit (W maxAlloc n : Z) : Prop := (n <= maxInt W /\ header W * n <= maxAlloc)%Z.

(** the arguments of a call are in memory: the slice of the parts, and every part *)
Definition in_memory (W maxAlloc : Z) (parts : list (list byte)) : Prop :=
  slices_fit W maxAlloc (Z.of_nat (length parts)) /\ forall p, In p parts -> (Z.of_nat (length p) <= room W maxAlloc)%Z.
