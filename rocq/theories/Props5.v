(** Theorems: the properties of the galois package (C27-C31).
    Generated from Pf5.v by tools/genprops.py: every theorem is proved there as the lemma of the same name with suffix _pf. *)
From Coq Require Import List NArith ZArith Lia Arith Bool Permutation.
From Coq.Init Require Import Byte.
From Verif Require Import GoSem Bytes Spec GaloisTables ShamirTables Galois Vector Polynomial Pf5.
Import ListNotations.

(** C27: GalAdd/GalSub are addition and GalMultiply is multiplication in GF(2)[x] / (x^8+x^4+x^3+x^2+1). *)
Theorem C27_operations : forall a b,
  GalAdd a b = gadd a b /\ GalSub a b = gadd a b /\ GalMultiply a b = gmul a b /\
  b2n (GalMultiply a b) = gf_reduce (clmul (b2n a) (b2n b)).
Proof. exact C27_operations_pf. Qed.
Print Assumptions C27_operations.

(** C27: the laws of a field of characteristic 2. *)
Theorem C27_field :
  (forall a b c, GalAdd a (GalAdd b c) = GalAdd (GalAdd a b) c) /\ (forall a b, GalAdd a b = GalAdd b a) /\
  (forall a, GalAdd x00 a = a) /\ (forall a, GalAdd a a = x00) /\
  (forall a b c, GalMultiply a (GalMultiply b c) = GalMultiply (GalMultiply a b) c) /\ (forall a b, GalMultiply a b = GalMultiply b a) /\
  (forall a, GalMultiply x01 a = a) /\
  (forall a b c, GalMultiply (GalAdd a b) c = GalAdd (GalMultiply a c) (GalMultiply b c)) /\
  (forall a, a <> x00 -> exists b, GalMultiply b a = x01) /\ x01 <> x00.
Proof. exact C27_field_pf. Qed.
Print Assumptions C27_field.

Example C27_case : GalMultiply x53 xca = x8f /\ gmul x53 xca = x8f /\ GalMultiply x80 x02 = x1d /\ GalAdd x53 xca = x99.
Proof. repeat split; vm_compute; reflexivity. Qed.

(** C28: multiplication through logarithms, in both packages *)
Theorem C28_mult : forall a b, GalMultiplyLogExp a b = Ret (gmul a b) /\ mult a b = Ret (gmul a b).
Proof. exact C28_mult_pf. Qed.
Print Assumptions C28_mult.

(** C28: division, in both packages *)
Theorem C28_div : forall a b,
  (b <> x00 -> exists q, GalDivide a b = Ret q /\ div a b = Ret q /\ gmul q b = a) /\
  div a x00 = Panic PDivide /\ GalDivide a x00 = (if beq a x00 then Ret x00 else Panic PDivide).
Proof. exact C28_div_pf. Qed.
Print Assumptions C28_div.

(** C28: the tables of the two packages. *)
Theorem C28_tables : forall a b,
  nth (b2i b) (nth (b2i a) GaloisTables.mulTable []) x00 = gmul a b /\
  nth (b2i b) (nth (b2i a) ShamirTables.mulTable []) x00 = gmul a b /\
  (a <> x00 -> gmul (nth (b2i a) GaloisTables.invTable x00) a = x01) /\ nth (b2i x00) GaloisTables.invTable x01 = x00 /\
  (b2i b < 16 -> nth (b2i b) (nth (b2i a) mulTableLow []) x00 = gmul a b /\
                 nth (b2i b) (nth (b2i a) mulTableHigh []) x00 = gmul a (i2b (16 * b2i b))) /\
  ShamirTables.logTable = GaloisTables.logTable /\ ShamirTables.expTable = GaloisTables.expTable.
Proof. exact C28_tables_pf. Qed.
Print Assumptions C28_tables.

Example C28_cases : GalDivide x8f xca = Ret x53 /\ div x8f xca = Ret x53 /\ mult x53 xca = Ret x8f /\ GalDivide x00 x00 = Ret x00 /\ div x01 x00 = Panic PDivide.
Proof. repeat split; vm_compute; reflexivity. Qed.

(** C29: GalExp is the power, as long as log(a)*n does not overflow. *)
Theorem C29_power : forall a n, (0 <= n)%Z -> (b2z (nth (b2i a) GaloisTables.logTable x00) * n < 2 ^ 63)%Z ->
  GalExp a n = Ret (gpow a (Z.to_nat n)).
Proof. exact C29_power_pf. Qed.
Print Assumptions C29_power.

(** C29: for every a and 0 <= n < 2^55 there is no overflow. *)
Theorem C29_power_small : forall a n, (0 <= n < 2 ^ 55)%Z -> GalExp a n = Ret (gpow a (Z.to_nat n)).
Proof. exact C29_power_small_pf. Qed.
Print Assumptions C29_power_small.

(** C29: negative exponents panic unless a is 0 or 1. *)
Theorem C29_negative : forall a n, (n < 0)%Z -> (- 2 ^ 63 <= b2z (nth (b2i a) GaloisTables.logTable x00) * n)%Z ->
  GalExp a n = if beq a x00 then Ret x00 else if beq a x01 then Ret x01 else Panic PIndex.
Proof. exact C29_negative_pf. Qed.
Print Assumptions C29_negative.

(** C29: the exact result for every 64-bit n, overflow included: the logarithm is multiplied modulo 2^64 (as a signed number [w]). *)
Theorem C29_exact : forall a n, a <> x00 -> n <> 0%Z ->
  exists w, (- 2 ^ 63 <= w < 2 ^ 63)%Z /\ (exists k, w = b2z (nth (b2i a) GaloisTables.logTable x00) * n + k * 2 ^ 64)%Z /\
    GalExp a n = if (w <? 0)%Z then Panic PIndex else Ret (gpow x02 (Z.to_nat (w mod 255))).
Proof. exact C29_exact_pf. Qed.
Print Assumptions C29_exact.

(** C29: on overflow the result can be wrong, or a panic, although the exponent is a positive 64-bit int. *)
Theorem C29_overflow : 
  GalExp x10 (2 ^ 62) = Ret x01 /\ gpow x10 (Z.to_nat (2 ^ 62)) <> x01 /\
  exists a n, (0 < n < 2 ^ 63)%Z /\ GalExp a n = Panic PIndex.
Proof. exact C29_overflow_pf. Qed.
Print Assumptions C29_overflow.

Example C29_cases : GalExp x03 5 = Ret x33 /\ GalExp x02 (-1) = Panic PIndex /\ GalExp x00 0 = Ret x01.
Proof. repeat split; vm_compute; reflexivity. Qed.

(** C30: on equal lengths, AddVector and MulConstVector are elementwise on every build and CPU. *)
Theorem C30_add_vector : forall ar a b, length a = length b ->
  exists r, AddVector ar a b = Ret r /\ length r = length a /\ forall i, i < length a -> nth i r x00 = gadd (nth i a x00) (nth i b x00).
Proof. exact C30_add_vector_pf. Qed.
Print Assumptions C30_add_vector.

Theorem C30_add_vector_batch_generic : forall a b, length a = length b ->
  exists r, AddVectorBatchGeneric a b = Ret r /\ length r = length a /\ forall i, i < length a -> nth i r x00 = gadd (nth i a x00) (nth i b x00).
Proof. exact C30_add_vector_batch_generic_pf. Qed.
Print Assumptions C30_add_vector_batch_generic.

Theorem C30_mul_const_vector : forall ar c a,
  exists r, MulConstVector ar c a = Ret r /\ length r = length a /\ forall i, i < length a -> nth i r x00 = gmul c (nth i a x00).
Proof. exact C30_mul_const_vector_pf. Qed.
Print Assumptions C30_mul_const_vector.

Definition v200 (k : nat) : list byte := map (fun i => i2b (k * i + 1)) (seq 0 200).
Example C30_cases : length (v200 3) = length (v200 5) /\ AddVector (ArchAmd64 true true true) (v200 3) (v200 5) = Ret (xor_bytes (v200 3) (v200 5)) /\
  AddVector ArchArm64 (v200 3) (v200 5) = Ret (xor_bytes (v200 3) (v200 5)) /\
  MulConstVector (ArchAmd64 true true true) x1d (v200 3) = Ret (map (gmul x1d) (v200 3)).
Proof. repeat split; vm_compute; reflexivity. Qed.

(** C31: unequal lengths. The portable build panics. *)
Theorem C31_generic : forall a b, length a <> length b -> AddVector ArchGeneric a b = Panic PLength.
Proof. exact C31_generic_pf. Qed.
Print Assumptions C31_generic.

(** C31: on amd64 and arm64 a shorter first vector silently changes only a prefix of the second. *)
Theorem C31_shorter_first : forall ar a b, ar <> ArchGeneric -> length a <= length b ->
  exists r, AddVector ar a b = Ret r /\ length r = length b /\
    forall i, nth i r x00 = if i <? length a then gadd (nth i a x00) (nth i b x00) else nth i b x00.
Proof. exact C31_shorter_first_pf. Qed.
Print Assumptions C31_shorter_first.

(** C31: ... and a shorter second vector never returns: the call panics or writes outside the vector; if the excess is at least one
    SIMD block it does write outside the vector. *)
Theorem C31_longer_first : forall ar a b, ar = ArchArm64 \/ (exists s3 a2, ar = ArchAmd64 true s3 a2) -> length b < length a ->
  (AddVector ar a b = UB \/ exists p, AddVector ar a b = Panic p) /\
  (length b + 32 <= length a -> AddVector ar a b = UB).
Proof. exact C31_longer_first_pf. Qed.
Print Assumptions C31_longer_first.

Example C31_cases : AddVector ArchArm64 (v200 3) (v200 3 ++ [x00]) <> AddVector ArchGeneric (v200 3) (v200 3 ++ [x00]) /\
  AddVector (ArchAmd64 true true true) (v200 3) (firstn 100 (v200 3)) = UB /\
  AddVector (ArchAmd64 true true true) (v200 3) (firstn 199 (v200 3)) = Panic PSlice.
Proof. split; [vm_compute; discriminate|]. split; vm_compute; reflexivity. Qed.
