(** Model of galois/galois.go. *)
From Coq Require Import List NArith ZArith Lia Arith Bool.
From Coq.Init Require Import Byte.
From Verif Require Import GoSem Bytes GaloisTables.
Import ListNotations.

(** galois/galois.go:4-6 [GalAdd] *)
Definition GalAdd (a b : byte) : byte := bxor a b.

(** galois/galois.go:8-10 [GalSub] *)
Definition GalSub (a b : byte) : byte := bxor a b.

(** galois/galois.go:16-18 [GalMultiply]: [mulTable[a][b]]. The table has type [256][256]uint8 and both
    indices are bytes, so Go never panics here; [nth] never uses its default
    (Lemma [mulTable_dims] in GaloisFacts.v). *)
Definition GalMultiply (a b : byte) : byte := nth (b2i b) (nth (b2i a) mulTable []) x00.

(** lookup in the [256]byte array [logTable] (galois/tables.go:9) by a byte index: always in range *)
Definition logLookup (a : byte) : byte := nth (b2i a) logTable x00.

(** galois/galois.go:22-29 [GalMultiplyLogExp]; [expTable] is a slice, its index is checked. *)
Definition GalMultiplyLogExp (a b : byte) : outcome byte :=
  if beq a x00 || beq b x00 then Ret x00
  else
    let logA := b2i (logLookup a) in
    let logB := b2i (logLookup b) in
    idx expTable (logA + logB).

(** index expression [expTable[i]] for a signed [int] index. (galois/galois.go:51-65) *)
Definition expLookupZ (i : Z) : outcome byte :=
  if (i <? 0)%Z then Panic PIndex
  else if (i <? 510)%Z then idx expTable (Z.to_nat i) else Panic PIndex.

(** galois/galois.go:33-47 [GalDivide] *)
Definition GalDivide (a b : byte) : outcome byte :=
  if beq a x00 then Ret x00
  else if beq b x00 then Panic PDivide
  else
    let logA := b2z (logLookup a) in
    let logB := b2z (logLookup b) in
    let logResult := (logA - logB)%Z in
    let logResult := if (logResult <? 0)%Z then (logResult + 255)%Z else logResult in
    expLookupZ logResult.

(** 64-bit two's complement wrap-around of Go's [int]. (galois/galois.go:51-65) *)
Definition int64 (z : Z) : Z := ((z + 2 ^ 63) mod 2 ^ 64 - 2 ^ 63)%Z.

(** galois/galois.go:61-63: [for logResult >= 255 { logResult -= 255 }]. [fuel] bounds the number of
    iterations; [GalExp] supplies exactly enough (logResult/255). *)
Fixpoint expReduce (fuel : nat) (l : Z) : Z :=
  if (l >=? 255)%Z then
    match fuel with O => l | S f => expReduce f (l - 255)%Z end
  else l.

(** galois/galois.go:51-65 [GalExp]; [n] is a 64-bit int. If the fuel were ever too small the index
    check below would fail, so no wrong value can be returned because of fuel. *)
Definition GalExp (a : byte) (n : Z) : outcome byte :=
  if (n =? 0)%Z then Ret x01
  else if beq a x00 then Ret x00
  else
    let logA := logLookup a in
    let logResult := int64 (b2z logA * n) in
    let logResult := expReduce (Z.to_nat (logResult / 255)) logResult in
    expLookupZ logResult.
