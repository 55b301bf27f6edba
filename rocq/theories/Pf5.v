(** Proofs of the properties of the galois package (C27-C31). *)
From Coq Require Import List NArith ZArith Lia Arith Bool Permutation.
From Coq.Init Require Import Byte.
From Verif Require Import GoSem Bytes Spec GaloisTables ShamirTables Galois GF GaloisFacts PolyFacts GoFacts Vector VectorFacts VectorMore Polynomial PolynomialFacts.
Import ListNotations.

(*PROPS
From Coq Require Import List NArith ZArith Lia Arith Bool Permutation.
From Coq.Init Require Import Byte.
From Verif Require Import GoSem Bytes Spec GaloisTables ShamirTables Galois Vector Polynomial Pf5.
Import ListNotations.
*)

(** C27: GalAdd/GalSub are addition and GalMultiply is multiplication in GF(2)[x] / (x^8+x^4+x^3+x^2+1). *)
Lemma C27_operations_pf : forall a b,
  GalAdd a b = gadd a b /\ GalSub a b = gadd a b /\ GalMultiply a b = gmul a b /\
  b2n (GalMultiply a b) = gf_reduce (clmul (b2n a) (b2n b)).
Proof.
  intros a b. split; [symmetry; apply gadd_bxor|]. split; [symmetry; apply gadd_bxor|]. split; [apply GalMultiply_gmul|].
  rewrite GalMultiply_gmul. unfold gmul. apply b2n_n2b_small.
  apply gf_reduce_lt.
Qed.

(** C27: the laws of a field of characteristic 2. *)
Lemma C27_field_pf :
  (forall a b c, GalAdd a (GalAdd b c) = GalAdd (GalAdd a b) c) /\ (forall a b, GalAdd a b = GalAdd b a) /\
  (forall a, GalAdd x00 a = a) /\ (forall a, GalAdd a a = x00) /\
  (forall a b c, GalMultiply a (GalMultiply b c) = GalMultiply (GalMultiply a b) c) /\ (forall a b, GalMultiply a b = GalMultiply b a) /\
  (forall a, GalMultiply x01 a = a) /\
  (forall a b c, GalMultiply (GalAdd a b) c = GalAdd (GalMultiply a c) (GalMultiply b c)) /\
  (forall a, a <> x00 -> exists b, GalMultiply b a = x01) /\ x01 <> x00.
Proof.
  assert (A : forall a b, GalAdd a b = gadd a b) by (intros; symmetry; apply gadd_bxor).
  assert (M : forall a b, GalMultiply a b = gmul a b) by apply GalMultiply_gmul.
  split; [intros; rewrite !A; symmetry; apply gadd_assoc'|]. split; [intros; exact (bxor_comm a b)|].
  split; [intros; rewrite A; apply gadd_0_l|]. split; [intros; rewrite A; apply gadd_self|].
  split; [intros; rewrite !M; apply gmul_assoc|]. split; [intros; rewrite !M; apply gmul_comm|]. split; [intros; rewrite M; apply gmul_1_l|].
  split; [intros; rewrite !A, !M; apply gmul_gadd_l|]. split; [|discriminate].
  intros a Ha. exists (ginv a). rewrite M. apply ginv_l, Ha.
Qed.

(*COPY
Example C27_case : GalMultiply x53 xca = x8f /\ gmul x53 xca = x8f /\ GalMultiply x80 x02 = x1d /\ GalAdd x53 xca = x99.
Proof. repeat split; vm_compute; reflexivity. Qed.
END*)

(** C28: multiplication through logarithms, in both packages *)
Lemma C28_mult_pf : forall a b, GalMultiplyLogExp a b = Ret (gmul a b) /\ mult a b = Ret (gmul a b).
Proof. intros a b. split; [apply GalMultiplyLogExp_gmul|apply mult_gmul]. Qed.

(** C28: division, in both packages *)
Lemma C28_div_pf : forall a b,
  (b <> x00 -> exists q, GalDivide a b = Ret q /\ div a b = Ret q /\ gmul q b = a) /\
  div a x00 = Panic PDivide /\ GalDivide a x00 = (if beq a x00 then Ret x00 else Panic PDivide).
Proof.
  intros a b. split; [|split; [apply div_zero|apply GalDivide_zero]]. intros Hb. exists (gdiv a b).
  split; [apply GalDivide_gdiv, Hb|]. split; [apply div_gdiv, Hb|apply gdiv_mul, Hb].
Qed.

(** C28: the tables of the two packages. *)
Lemma C28_tables_pf : forall a b,
  nth (b2i b) (nth (b2i a) GaloisTables.mulTable []) x00 = gmul a b /\
  nth (b2i b) (nth (b2i a) ShamirTables.mulTable []) x00 = gmul a b /\
  (a <> x00 -> gmul (nth (b2i a) GaloisTables.invTable x00) a = x01) /\ nth (b2i x00) GaloisTables.invTable x01 = x00 /\
  (b2i b < 16 -> nth (b2i b) (nth (b2i a) mulTableLow []) x00 = gmul a b /\
                 nth (b2i b) (nth (b2i a) mulTableHigh []) x00 = gmul a (i2b (16 * b2i b))) /\
  ShamirTables.logTable = GaloisTables.logTable /\ ShamirTables.expTable = GaloisTables.expTable.
Proof.
  intros a b. destruct shamir_tables_equal as (L & E & M). split; [apply GalMultiply_gmul|]. split; [rewrite M; apply GalMultiply_gmul|].
  assert (H1 : forall a, (beq a x00 || beq (gmul (nth (b2i a) GaloisTables.invTable x00) a) x01)%bool = true) by (apply sweep1; vm_compute; reflexivity).
  split.
  { intros Ha. specialize (H1 a). apply beq_false in Ha. rewrite Ha in H1. apply beq_true, H1. }
  split; [reflexivity|]. split; [|split; [exact L|exact E]].
  intros Hb. destruct (nibble_entry a (b2i b) Hb) as [X Y]. rewrite i2b_b2i in X. split; assumption.
Qed.

(*COPY
Example C28_cases : GalDivide x8f xca = Ret x53 /\ div x8f xca = Ret x53 /\ mult x53 xca = Ret x8f /\ GalDivide x00 x00 = Ret x00 /\ div x01 x00 = Panic PDivide.
Proof. repeat split; vm_compute; reflexivity. Qed.
END*)

(** C29: GalExp is the power, as long as log(a)*n does not overflow. *)
Lemma C29_power_pf : forall a n, (0 <= n)%Z -> (b2z (nth (b2i a) GaloisTables.logTable x00) * n < 2 ^ 63)%Z ->
  GalExp a n = Ret (gpow a (Z.to_nat n)).
Proof. exact GalExp_spec. Qed.

(** C29: for every a and 0 <= n < 2^55 there is no overflow. *)
Lemma C29_power_small_pf : forall a n, (0 <= n < 2 ^ 55)%Z -> GalExp a n = Ret (gpow a (Z.to_nat n)).
Proof.
  intros a n Hn. apply GalExp_spec; [lia|]. pose proof (b2i_lt (logLookup a)) as B. rewrite b2z_b2i.
  assert (Z.of_nat (b2i (logLookup a)) * n <= 256 * n)%Z by nia.
  change (2 ^ 63)%Z with (256 * 2 ^ 55)%Z. lia.
Qed.

(** C29: negative exponents panic unless a is 0 or 1. *)
Lemma C29_negative_pf : forall a n, (n < 0)%Z -> (- 2 ^ 63 <= b2z (nth (b2i a) GaloisTables.logTable x00) * n)%Z ->
  GalExp a n = if beq a x00 then Ret x00 else if beq a x01 then Ret x01 else Panic PIndex.
Proof. intros a n Hn Hb. apply GalExp_negative; assumption. Qed.

(** C29: the exact result for every 64-bit n, overflow included: the logarithm is multiplied modulo 2^64 (as a signed number [w]). *)
Lemma C29_exact_pf : forall a n, a <> x00 -> n <> 0%Z ->
  exists w, (- 2 ^ 63 <= w < 2 ^ 63)%Z /\ (exists k, w = b2z (nth (b2i a) GaloisTables.logTable x00) * n + k * 2 ^ 64)%Z /\
    GalExp a n = if (w <? 0)%Z then Panic PIndex else Ret (gpow x02 (Z.to_nat (w mod 255))).
Proof.
  intros a n Ha Hn. set (m := (b2z (nth (b2i a) GaloisTables.logTable x00) * n)%Z). exists (int64 m).
  assert (R : (- 2 ^ 63 <= int64 m < 2 ^ 63)%Z).
  { unfold int64. pose proof (Z.mod_pos_bound (m + 2 ^ 63) (2 ^ 64) ltac:(lia)). lia. }
  split; [exact R|]. split.
  { exists (- ((m + 2 ^ 63) / 2 ^ 64))%Z. unfold int64. rewrite Z.mod_eq by lia. lia. }
  unfold GalExp. destruct (Z.eqb_spec n 0); [contradiction|]. apply beq_false in Ha. rewrite Ha.
  change (b2z (logLookup a) * n)%Z with m. set (w := int64 m) in *.
  destruct (Z.ltb_spec w 0) as [Hw|Hw].
  - assert (Hred : forall f, expReduce f w = w).
    { intros f. destruct f; cbn [expReduce]; rewrite Z.geb_leb; destruct (Z.leb_spec 255 w); (lia || reflexivity). }
    rewrite Hred. unfold expLookupZ. destruct (Z.ltb_spec w 0); [reflexivity|lia].
  - rewrite expReduce_spec by (try apply Z.div_pos; try rewrite Z2Nat.id; try apply Z.div_pos; lia).
    pose proof (Z.mod_pos_bound w 255 ltac:(lia)). rewrite expLookupZ_gexp by lia. f_equal.
    rewrite gpow_log by discriminate. replace (glog x02) with 1 by reflexivity. rewrite Nat.mul_1_l.
    rewrite Nat.mod_small by lia. reflexivity.
Qed.

Lemma GalExp_w a n w : a <> x00 -> n <> 0%Z -> int64 (b2z (logLookup a) * n) = w ->
  GalExp a n = if (w <? 0)%Z then Panic PIndex else Ret (gexp (Z.to_nat (w mod 255))).
Proof.
  intros Ha Hn E. unfold GalExp. destruct (Z.eqb_spec n 0); [contradiction|]. apply beq_false in Ha. rewrite Ha, E.
  destruct (Z.ltb_spec w 0) as [Hw|Hw].
  - assert (Hred : forall f, expReduce f w = w).
    { intros f. destruct f; cbn [expReduce]; rewrite Z.geb_leb; destruct (Z.leb_spec 255 w); (lia || reflexivity). }
    rewrite Hred. unfold expLookupZ. destruct (Z.ltb_spec w 0); [reflexivity|lia].
  - rewrite expReduce_spec by (try apply Z.div_pos; try rewrite Z2Nat.id; try apply Z.div_pos; lia).
    pose proof (Z.mod_pos_bound w 255 ltac:(lia)). rewrite expLookupZ_gexp by lia. reflexivity.
Qed.

(** C29: on overflow the result can be wrong, or a panic, although the exponent is a positive 64-bit int. *)
Lemma C29_overflow_pf : 
  GalExp x10 (2 ^ 62) = Ret x01 /\ gpow x10 (Z.to_nat (2 ^ 62)) <> x01 /\
  exists a n, (0 < n < 2 ^ 63)%Z /\ GalExp a n = Panic PIndex.
Proof.
  split; [rewrite (GalExp_w x10 (2 ^ 62) 0) by (try discriminate; vm_compute; reflexivity); vm_compute; reflexivity|]. split.
  - rewrite gpow_log by discriminate. replace (glog x10) with 4 by reflexivity.
    replace ((4 * Z.to_nat (2 ^ 62)) mod 255) with (Z.to_nat ((4 * 2 ^ 62) mod 255)) by (rewrite Z2Nat.inj_mod, Z2Nat.inj_mul by lia; reflexivity).
    vm_compute. discriminate.
  - exists x04, (2 ^ 62)%Z. split; [lia|]. rewrite (GalExp_w x04 (2 ^ 62) (- 2 ^ 63)) by (try discriminate; vm_compute; reflexivity). reflexivity.
Qed.

(*COPY
Example C29_cases : GalExp x03 5 = Ret x33 /\ GalExp x02 (-1) = Panic PIndex /\ GalExp x00 0 = Ret x01.
Proof. repeat split; vm_compute; reflexivity. Qed.
END*)

(** C30: on equal lengths, AddVector and MulConstVector are elementwise on every build and CPU. *)
Lemma C30_add_vector_pf : forall ar a b, length a = length b ->
  exists r, AddVector ar a b = Ret r /\ length r = length a /\ forall i, i < length a -> nth i r x00 = gadd (nth i a x00) (nth i b x00).
Proof.
  intros ar a b H. exists (xor_bytes a b). split; [apply AddVector_ok, H|]. split; [apply xor_bytes_length, H|]. intros i _. apply nth_xor_bytes, H.
Qed.

Lemma C30_add_vector_batch_generic_pf : forall a b, length a = length b ->
  exists r, AddVectorBatchGeneric a b = Ret r /\ length r = length a /\ forall i, i < length a -> nth i r x00 = gadd (nth i a x00) (nth i b x00).
Proof.
  intros a b H. exists (xor_bytes a b). split; [apply AddVectorBatchGeneric_ok, H|]. split; [apply xor_bytes_length, H|]. intros i _. apply nth_xor_bytes, H.
Qed.

Lemma C30_mul_const_vector_pf : forall ar c a,
  exists r, MulConstVector ar c a = Ret r /\ length r = length a /\ forall i, i < length a -> nth i r x00 = gmul c (nth i a x00).
Proof.
  intros ar c a. exists (map (gmul c) a). split; [apply MulConstVector_ok|]. split; [apply map_length|]. intros i _. apply nth_map_gmul.
Qed.

(*COPY
Definition v200 (k : nat) : list byte := map (fun i => i2b (k * i + 1)) (seq 0 200).
Example C30_cases : length (v200 3) = length (v200 5) /\ AddVector (ArchAmd64 true true true) (v200 3) (v200 5) = Ret (xor_bytes (v200 3) (v200 5)) /\
  AddVector ArchArm64 (v200 3) (v200 5) = Ret (xor_bytes (v200 3) (v200 5)) /\
  MulConstVector (ArchAmd64 true true true) x1d (v200 3) = Ret (map (gmul x1d) (v200 3)).
Proof. repeat split; vm_compute; reflexivity. Qed.
END*)

(** C31: unequal lengths. The portable build panics. *)
Lemma C31_generic_pf : forall a b, length a <> length b -> AddVector ArchGeneric a b = Panic PLength.
Proof. exact AddVectorGeneric_panic. Qed.

(** C31: on amd64 and arm64 a shorter first vector silently changes only a prefix of the second. *)
Lemma C31_shorter_first_pf : forall ar a b, ar <> ArchGeneric -> length a <= length b ->
  exists r, AddVector ar a b = Ret r /\ length r = length b /\
    forall i, nth i r x00 = if i <? length a then gadd (nth i a x00) (nth i b x00) else nth i b x00.
Proof.
  intros ar a b Har H. exists (xor_prefix a b). split.
  - destruct ar as [|s2 s3 a2|]; [congruence|exact (AddVector_amd64_le s2 a b H)|exact (AddVector_arm64_le a b H)].
  - split; [apply xor_prefix_length, H|]. intros i. apply nth_xor_prefix, H.
Qed.

(** C31: ... and a shorter second vector never returns: the call panics or writes outside the vector; if the excess is at least one
    SIMD block it does write outside the vector. *)
Lemma C31_longer_first_pf : forall ar a b, ar = ArchArm64 \/ (exists s3 a2, ar = ArchAmd64 true s3 a2) -> length b < length a ->
  (AddVector ar a b = UB \/ exists p, AddVector ar a b = Panic p) /\
  (length b + 32 <= length a -> AddVector ar a b = UB).
Proof.
  intros ar a b [->|(s3 & a2 & ->)] H.
  - change (AddVector ArchArm64 a b) with (AddVector_arm64 a b).
    destruct (AddVector_arm64_gt a b H) as (D & Y).
    split; [destruct D as [X|X]; [left|right; eexists]; exact X | intros Z; apply Y; lia].
  - change (AddVector (ArchAmd64 true s3 a2) a b) with (AddVector_amd64 true a b).
    destruct (AddVector_amd64_gt a b H) as (D & Y).
    split; [destruct D as [X|X]; [left|right; eexists]; exact X | intros Z; apply Y; lia].
Qed.

(*COPY
Example C31_cases : AddVector ArchArm64 (v200 3) (v200 3 ++ [x00]) <> AddVector ArchGeneric (v200 3) (v200 3 ++ [x00]) /\
  AddVector (ArchAmd64 true true true) (v200 3) (firstn 100 (v200 3)) = UB /\
  AddVector (ArchAmd64 true true true) (v200 3) (firstn 199 (v200 3)) = Panic PSlice.
Proof. split; [vm_compute; discriminate|]. split; vm_compute; reflexivity. Qed.
END*)
