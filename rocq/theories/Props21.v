(** Proofs about the width of [int] (C68).
    Generated from Pf21.v by tools/genprops.py: every theorem is proved there as the lemma of the same name with suffix _pf. *)
From Coq Require Import List NArith ZArith Lia Arith Bool Permutation.
From Coq.Init Require Import Byte.
From Verif Require Import GoSem Bytes Spec Vector Csprng Pool Polynomial Shamir SplitFacts SpecWidth IntWidth ExData Pf21.
Import ListNotations.

(** C68. The [W]-bit arithmetic of the model is two's complement: the result is congruent to the mathematical value modulo [2^W] and lies
    between [-2^(W-1)] and [2^(W-1)-1], and these two facts determine it. *)
Theorem C68_int : forall W z, (16 <= W)%Z ->
  (- 2 ^ (W - 1) <= int W z <= maxInt W)%Z /\ (int W z mod 2 ^ W = z mod 2 ^ W)%Z /\
  (forall y, (- 2 ^ (W - 1) <= y <= maxInt W)%Z -> (y mod 2 ^ W = z mod 2 ^ W)%Z -> y = int W z).
Proof. exact C68_int_pf. Qed.
Print Assumptions C68_int.

(** C68, Split. On a machine whose [int] has [W] bits and whose allocator gives at most [maxAlloc] bytes, [Split] returns exactly what it would
    return with unbounded integers, or panics; it does not panic when all sizes fit; and it always panics when the size of the array of all
    shares is larger than the largest [int], although the computed size may wrap around to a small positive number. *)
Theorem C68_split : forall W maxAlloc ar growcap perm stream polB trB evBufs secret parts threshold,
  (16 <= W)%Z -> (Z.of_nat (length secret) <= maxInt W)%Z ->
  let real := SplitW W maxAlloc ar growcap perm stream polB trB evBufs secret parts threshold in
  let ideal := Split ar growcap perm stream polB trB evBufs secret parts threshold in
  (real = ideal \/ exists p, real = Panic p) /\
  (buffers_fit W maxAlloc growcap polB trB evBufs (length secret) (Z.to_nat parts) (Z.to_nat threshold) -> real = ideal) /\
  (valid_args secret parts threshold -> (maxInt W < (Z.of_nat (length secret) + 1) * parts)%Z -> exists p, real = Panic p).
Proof. exact C68_split_pf. Qed.
Print Assumptions C68_split.

(** C68, SplitWithRandomizer (which may also hang, see C19): the same, and it never returns shares when the size is too large. *)
Theorem C68_splitwithrandomizer : forall W maxAlloc fuel ar growcap ks polB trB evBufs secret parts threshold,
  (16 <= W)%Z -> (Z.of_nat (length secret) <= maxInt W)%Z ->
  let real := SplitWithRandomizerW W maxAlloc fuel ar growcap ks polB trB evBufs secret parts threshold in
  let ideal := SplitWithRandomizer fuel ar growcap ks polB trB evBufs secret parts threshold in
  (real = ideal \/ exists p, real = Panic p) /\
  (buffers_fit W maxAlloc growcap polB trB evBufs (length secret) (Z.to_nat parts) (Z.to_nat threshold) -> real = ideal) /\
  (valid_args secret parts threshold -> (maxInt W < (Z.of_nat (length secret) + 1) * parts)%Z ->
   forall shares, real <> Ret shares).
Proof. exact C68_splitwithrandomizer_pf. Qed.
Print Assumptions C68_splitwithrandomizer.

(** C68, SplitWithRandomizerOld *)
Theorem C68_splitwithrandomizerold : forall W maxAlloc ar growcap ks evBufs secret parts threshold,
  (16 <= W)%Z -> (Z.of_nat (length secret) <= maxInt W)%Z ->
  let real := SplitWithRandomizerOldW W maxAlloc ar growcap ks evBufs secret parts threshold in
  let ideal := SplitWithRandomizerOld ar growcap ks evBufs secret parts threshold in
  (real = ideal \/ exists p, real = Panic p) /\
  (old_fit W maxAlloc growcap evBufs (length secret) (Z.to_nat parts) -> real = ideal) /\
  (valid_args secret parts threshold -> (maxInt W < (Z.of_nat (length secret) + 1) * parts)%Z -> exists p, real = Panic p).
Proof. exact C68_splitwithrandomizerold_pf. Qed.
Print Assumptions C68_splitwithrandomizerold.

(** C68, SplitGeneric: here the product that may be too large is the number of coefficients. *)
Theorem C68_splitgeneric : forall W maxAlloc perm stream secret parts threshold,
  (16 <= W)%Z -> (Z.of_nat (length secret) <= maxInt W)%Z -> Permutation perm (seq 0 255) ->
  let real := SplitGenericW W maxAlloc perm stream secret parts threshold in
  let ideal := SplitGeneric perm stream secret parts threshold in
  (real = ideal \/ exists p, real = Panic p) /\
  (generic_fit W maxAlloc (length secret) (Z.to_nat threshold) -> real = ideal) /\
  (valid_args secret parts threshold -> (maxInt W < threshold * Z.of_nat (length secret))%Z -> exists p, real = Panic p).
Proof. exact C68_splitgeneric_pf. Qed.
Print Assumptions C68_splitgeneric.

(** A 32-bit machine with 1 GB: "hello" splits into 5 shares as in the unbounded model; all sizes fit. *)
Example C68_fits : buffers_fit 32 1000000000 growcap117 ex_stale ex_stale ex_ev 5 5 3.
Proof. unfold buffers_fit, room, maxInt, growcap117, ex_ev. cbn. repeat split; intros; lia. Qed.
Example C68_run : SplitW 32 1000000000 ex_ar growcap117 ex_perm ex_stream ex_stale ex_stale ex_ev ex_secret 5 3
  = Split ex_ar growcap117 ex_perm ex_stream ex_stale ex_stale ex_ev ex_secret 5 3.
Proof. vm_compute. reflexivity. Qed.
Example C68_run_shares : exists s1 s2 s3 s4 s5,
  SplitW 32 1000000000 ex_ar growcap117 ex_perm ex_stream ex_stale ex_stale ex_ev ex_secret 5 3 = Ret [s1; s2; s3; s4; s5].
Proof. vm_compute. repeat eexists. Qed.
Example C68_run_generic : SplitGenericW 32 1000000000 ex_perm ex_stream ex_secret 5 3 = SplitGeneric ex_perm ex_stream ex_secret 5 3.
Proof. vm_compute. reflexivity. Qed.
(** Too little memory for the 30 bytes of the shares: a panic. *)
Example C68_no_memory : SplitW 32 29 ex_ar growcap117 ex_perm ex_stream ex_stale ex_stale ex_ev ex_secret 5 3 = Panic PMakeLen.
Proof. vm_compute. reflexivity. Qed.
(** On a 32-bit machine a secret of 16843009 bytes and 255 parts: the product wraps around to 254, so the allocation succeeds; the call
    panics nevertheless. On a 16-bit machine the same happens with 257 bytes (258 * 255 wraps to 254), and can be computed. *)
Example C68_wraps : int 32 ((16843009 + 1) * 255) = 254%Z /\ int 16 ((257 + 1) * 255) = 254%Z.
Proof. vm_compute. split; reflexivity. Qed.
Example C68_overflow_run : SplitW 16 1000000000 ex_ar growcap117 ex_perm ex_stream ex_stale ex_stale ex_ev (repeat x41 257) 255 3 = Panic PSlice.
Proof. vm_compute. reflexivity. Qed.
Example C68_overflow_hyp : valid_args (repeat x41 257) 255 3 /\ (maxInt 16 < (257 + 1) * 255)%Z /\ (257 <= maxInt 16)%Z.
Proof. split; [repeat split; try discriminate; lia|]. vm_compute. split; [reflexivity|discriminate]. Qed.
