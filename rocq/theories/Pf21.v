(** Proofs about the width of [int] (C68). *)
From Coq Require Import List NArith ZArith Lia Arith Bool Permutation.
From Coq.Init Require Import Byte.
From Verif Require Import GoSem Bytes Spec Vector Csprng Pool Polynomial Shamir SplitFacts CsprngFacts SpecWidth IntWidth IntWidthFacts IntWidthTop.
Import ListNotations.

(*PROPS
From Coq Require Import List NArith ZArith Lia Arith Bool Permutation.
From Coq.Init Require Import Byte.
From Verif Require Import GoSem Bytes Spec Vector Csprng Pool Polynomial Shamir SplitFacts SpecWidth IntWidth ExData Pf21.
Import ListNotations.
*)

Lemma valid_check secret parts threshold : valid_args secret parts threshold -> checkArgs secret parts threshold = None.
Proof. intros (H1 & H2 & H3 & H4). apply checkArgs_None. auto. Qed.

Lemma check_valid secret parts threshold : checkArgs secret parts threshold = None -> valid_args secret parts threshold.
Proof. intros H. apply checkArgs_None in H. destruct H as ((H1 & H2) & H3 & H4). repeat split; assumption. Qed.

(** C68. The [W]-bit arithmetic of the model is two's complement: the result is congruent to the mathematical value modulo [2^W] and lies
    between [-2^(W-1)] and [2^(W-1)-1], and these two facts determine it. *)
Lemma C68_int_pf : forall W z, (16 <= W)%Z ->
  (- 2 ^ (W - 1) <= int W z <= maxInt W)%Z /\ (int W z mod 2 ^ W = z mod 2 ^ W)%Z /\
  (forall y, (- 2 ^ (W - 1) <= y <= maxInt W)%Z -> (y mod 2 ^ W = z mod 2 ^ W)%Z -> y = int W z).
Proof.
  intros W z HW. pose proof (half W HW) as Hh. pose proof (half_big W HW) as Hb.
  destruct (int_decomp W HW z) as [k E].
  assert (M : (int W z mod 2 ^ W = z mod 2 ^ W)%Z).
  { rewrite E. replace (z - k * 2 ^ W)%Z with (z + (- k) * 2 ^ W)%Z by ring. apply Z.mod_add. lia. }
  split; [apply int_range; exact HW|]. split; [exact M|]. intros y Hy My.
  pose proof (Z.div_mod y (2 ^ W) ltac:(lia)) as D. pose proof (Z.div_mod z (2 ^ W) ltac:(lia)) as D2.
  rewrite My in D.
  replace z with (y + (z / 2 ^ W - y / 2 ^ W) * 2 ^ W)%Z by lia.
  rewrite int_add by exact HW. symmetry. apply int_id; assumption.
Qed.

(** C68, Split. On a machine whose [int] has [W] bits and whose allocator gives at most [maxAlloc] bytes, [Split] returns exactly what it would
    return with unbounded integers, or panics; it does not panic when all sizes fit; and it always panics when the size of the array of all
    shares is larger than the largest [int], although the computed size may wrap around to a small positive number. *)
Lemma C68_split_pf : forall W maxAlloc ar growcap perm stream polB trB evBufs secret parts threshold,
  (16 <= W)%Z -> (Z.of_nat (length secret) <= maxInt W)%Z ->
  let real := SplitW W maxAlloc ar growcap perm stream polB trB evBufs secret parts threshold in
  let ideal := Split ar growcap perm stream polB trB evBufs secret parts threshold in
  (real = ideal \/ exists p, real = Panic p) /\
  (buffers_fit W maxAlloc growcap polB trB evBufs (length secret) (Z.to_nat parts) (Z.to_nat threshold) -> real = ideal) /\
  (valid_args secret parts threshold -> (maxInt W < (Z.of_nat (length secret) + 1) * parts)%Z -> exists p, real = Panic p).
Proof.
  intros W maxAlloc ar growcap perm stream polB trB evBufs secret parts threshold HW Hl real ideal.
  assert (Ov : valid_args secret parts threshold -> (maxInt W < (Z.of_nat (length secret) + 1) * parts)%Z -> exists p, real = Panic p).
  { intros V Ho. unfold real, SplitW. rewrite (valid_check _ _ _ V). apply splitBodyW_overflow; try assumption.
    destruct V as (_ & Ht & Hp & _). lia. }
  split; [|split; [|exact Ov]].
  - destruct (checkArgs secret parts threshold) as [e|] eqn:Hc.
    { left. unfold real, ideal, SplitW, Split, SplitBufs. rewrite Hc. reflexivity. }
    destruct (Z_le_gt_dec ((Z.of_nat (length secret) + 1) * parts) (maxInt W)) as [H|H].
    + apply (sim_eq True). apply SplitW_sim; [exact HW| |tauto]. intros _. apply checkArgs_none in Hc. destruct Hc as (Ht & _). lia.
    + right. apply Ov; [|lia]. apply check_valid, Hc.
  - intros F. apply (sim_strict (~ buffers_fit W maxAlloc growcap polB trB evBufs (length secret) (Z.to_nat parts) (Z.to_nat threshold))); [|tauto].
    apply SplitW_sim; [exact HW| |tauto]. intros _. destruct F as (F & _). unfold room in F. lia.
Qed.

(** C68, SplitWithRandomizer (which may also hang, see C19): the same, and it never returns shares when the size is too large. *)
Lemma C68_splitwithrandomizer_pf : forall W maxAlloc fuel ar growcap ks polB trB evBufs secret parts threshold,
  (16 <= W)%Z -> (Z.of_nat (length secret) <= maxInt W)%Z ->
  let real := SplitWithRandomizerW W maxAlloc fuel ar growcap ks polB trB evBufs secret parts threshold in
  let ideal := SplitWithRandomizer fuel ar growcap ks polB trB evBufs secret parts threshold in
  (real = ideal \/ exists p, real = Panic p) /\
  (buffers_fit W maxAlloc growcap polB trB evBufs (length secret) (Z.to_nat parts) (Z.to_nat threshold) -> real = ideal) /\
  (valid_args secret parts threshold -> (maxInt W < (Z.of_nat (length secret) + 1) * parts)%Z ->
   forall shares, real <> Ret shares).
Proof.
  intros W maxAlloc fuel ar growcap ks polB trB evBufs secret parts threshold HW Hl real ideal.
  assert (Ov : valid_args secret parts threshold -> (maxInt W < (Z.of_nat (length secret) + 1) * parts)%Z ->
     (exists p, real = Panic p) \/ (real = ideal /\ forall shares, real <> Ret shares)).
  { intros V Ho. unfold real, ideal, SplitWithRandomizerW, SplitWithRandomizer, SplitWithRandomizerBufs. rewrite (valid_check _ _ _ V).
    destruct (GetUniqueBytes fuel ks (z2b parts)) as [xs|e|p| |] eqn:E; cbn [bind].
    - left. apply splitBodyW_overflow; try assumption. destruct V as (_ & Ht & Hp & _). lia.
    - right. split; [reflexivity|discriminate].
    - right. split; [reflexivity|discriminate].
    - right. split; [reflexivity|discriminate].
    - right. split; [reflexivity|discriminate]. }
  split; [|split].
  - destruct (checkArgs secret parts threshold) as [e|] eqn:Hc.
    { left. unfold real, ideal, SplitWithRandomizerW, SplitWithRandomizer, SplitWithRandomizerBufs. rewrite Hc. reflexivity. }
    destruct (Z_le_gt_dec ((Z.of_nat (length secret) + 1) * parts) (maxInt W)) as [H|H].
    + apply (sim_eq True). apply SplitWithRandomizerW_sim; [exact HW| |tauto]. intros _. apply checkArgs_none in Hc. destruct Hc as (Ht & _). lia.
    + destruct Ov as [O | [O _]]; [apply check_valid, Hc|lia|right; exact O|left; exact O].
  - intros F. apply (sim_strict (~ buffers_fit W maxAlloc growcap polB trB evBufs (length secret) (Z.to_nat parts) (Z.to_nat threshold))); [|tauto].
    apply SplitWithRandomizerW_sim; [exact HW| |tauto]. intros _. destruct F as (F & _). unfold room in F. lia.
  - intros V Ho shares. destruct (Ov V Ho) as [[p E] | [_ E]]; [rewrite E; discriminate|apply E].
Qed.

(** C68, SplitWithRandomizerOld *)
Lemma C68_splitwithrandomizerold_pf : forall W maxAlloc ar growcap ks evBufs secret parts threshold,
  (16 <= W)%Z -> (Z.of_nat (length secret) <= maxInt W)%Z ->
  let real := SplitWithRandomizerOldW W maxAlloc ar growcap ks evBufs secret parts threshold in
  let ideal := SplitWithRandomizerOld ar growcap ks evBufs secret parts threshold in
  (real = ideal \/ exists p, real = Panic p) /\
  (old_fit W maxAlloc growcap evBufs (length secret) (Z.to_nat parts) -> real = ideal) /\
  (valid_args secret parts threshold -> (maxInt W < (Z.of_nat (length secret) + 1) * parts)%Z -> exists p, real = Panic p).
Proof.
  intros W maxAlloc ar growcap ks evBufs secret parts threshold HW Hl real ideal.
  assert (Ov : valid_args secret parts threshold -> (maxInt W < (Z.of_nat (length secret) + 1) * parts)%Z -> exists p, real = Panic p).
  { intros V Ho. destruct (byte_eq_dec (ks 0) xfe) as [Hk|Hk].
    - exists PIndex. unfold real, SplitWithRandomizerOldW. rewrite (valid_check _ _ _ V), Perm255_panic by exact Hk. reflexivity.
    - destruct (Perm255_ok ks Hk) as (xs & E & _).
      apply (SplitWithRandomizerOldW_overflow W maxAlloc HW ar growcap ks evBufs secret parts threshold xs);
        [apply valid_check; exact V|exact E|exact Hl|exact Ho]. }
  split; [|split; [|exact Ov]].
  - destruct (checkArgs secret parts threshold) as [e|] eqn:Hc.
    { left. unfold real, ideal, SplitWithRandomizerOldW, SplitWithRandomizerOld. rewrite Hc. reflexivity. }
    destruct (Z_le_gt_dec ((Z.of_nat (length secret) + 1) * parts) (maxInt W)) as [H|H].
    + apply (sim_eq True). apply SplitWithRandomizerOldW_sim; [exact HW| |tauto]. intros _. apply checkArgs_none in Hc. destruct Hc as (Ht & _). lia.
    + right. apply Ov; [|lia]. apply check_valid, Hc.
  - intros F. apply (sim_strict (~ old_fit W maxAlloc growcap evBufs (length secret) (Z.to_nat parts))); [|tauto].
    apply SplitWithRandomizerOldW_sim; [exact HW| |tauto]. intros _. destruct F as (F & _). unfold room in F. lia.
Qed.

(** C68, SplitGeneric: here the product that may be too large is the number of coefficients. *)
Lemma C68_splitgeneric_pf : forall W maxAlloc perm stream secret parts threshold,
  (16 <= W)%Z -> (Z.of_nat (length secret) <= maxInt W)%Z -> Permutation perm (seq 0 255) ->
  let real := SplitGenericW W maxAlloc perm stream secret parts threshold in
  let ideal := SplitGeneric perm stream secret parts threshold in
  (real = ideal \/ exists p, real = Panic p) /\
  (generic_fit W maxAlloc (length secret) (Z.to_nat threshold) -> real = ideal) /\
  (valid_args secret parts threshold -> (maxInt W < threshold * Z.of_nat (length secret))%Z -> exists p, real = Panic p).
Proof.
  intros W maxAlloc perm stream secret parts threshold HW Hl HP real ideal.
  assert (Lp : length perm = 255) by (rewrite (Permutation_length HP); apply seq_length).
  assert (Ov : valid_args secret parts threshold -> (maxInt W < threshold * Z.of_nat (length secret))%Z -> exists p, real = Panic p).
  { intros V Ho. apply SplitGenericW_overflow; [exact HW|apply valid_check; exact V| |exact Hl|exact Ho].
    rewrite Lp. destruct V as (_ & _ & _ & V). exact V. }
  split; [|split; [|exact Ov]].
  - destruct (checkArgs secret parts threshold) as [e|] eqn:Hc.
    { left. unfold real, ideal, SplitGenericW, SplitGeneric. rewrite Hc. reflexivity. }
    destruct (Z_le_gt_dec (threshold * Z.of_nat (length secret)) (maxInt W)) as [H|H].
    + apply (sim_eq True). apply SplitGenericW_sim; [exact HW| |tauto]. intros _. apply checkArgs_none in Hc. destruct Hc as (Ht & _). lia.
    + right. apply Ov; [|lia]. apply check_valid, Hc.
  - intros F. apply (sim_strict (~ generic_fit W maxAlloc (length secret) (Z.to_nat threshold))); [|tauto].
    apply SplitGenericW_sim; [exact HW| |tauto]. intros _. destruct F as (_ & F). unfold room in F. lia.
Qed.

(*COPY
(** A 32-bit machine with 1 GB: "hello" splits into 5 shares as in the unbounded model; all sizes fit. *)
Example C68_fits : buffers_fit 32 1000000000 growcap117 ex_stale ex_stale ex_ev 5 5 3.
Proof. unfold buffers_fit, room, maxInt, growcap117, ex_ev. cbn. repeat split; intros; lia. Qed.
Example C68_run : SplitW 32 1000000000 ex_ar growcap117 ex_perm ex_stream ex_stale ex_stale ex_ev ex_secret 5 3
  = Split ex_ar growcap117 ex_perm ex_stream ex_stale ex_stale ex_ev ex_secret 5 3.
Proof. vm_compute. reflexivity. Qed.
Example C68_run_shares : exists s1 s2 s3 s4 s5,
  SplitW 32 1000000000 ex_ar growcap117 ex_perm ex_stream ex_stale ex_stale ex_ev ex_secret 5 3 = Ret [s1; s2; s3; s4; s5].
Proof. vm_compute. repeat eexists. Qed.
Example C68_run_generic : SplitGenericW 32 1000000000 ex_perm ex_stream ex_secret 5 3 = SplitGeneric ex_perm ex_stream ex_secret 5 3.
Proof. vm_compute. reflexivity. Qed.
(** Too little memory for the 30 bytes of the shares: a panic. *)
Example C68_no_memory : SplitW 32 29 ex_ar growcap117 ex_perm ex_stream ex_stale ex_stale ex_ev ex_secret 5 3 = Panic PMakeLen.
Proof. vm_compute. reflexivity. Qed.
(** On a 32-bit machine a secret of 16843009 bytes and 255 parts: the product wraps around to 254, so the allocation succeeds; the call
    panics nevertheless. On a 16-bit machine the same happens with 257 bytes (258 * 255 wraps to 254), and can be computed. *)
Example C68_wraps : int 32 ((16843009 + 1) * 255) = 254%Z /\ int 16 ((257 + 1) * 255) = 254%Z.
Proof. vm_compute. split; reflexivity. Qed.
Example C68_overflow_run : SplitW 16 1000000000 ex_ar growcap117 ex_perm ex_stream ex_stale ex_stale ex_ev (repeat x41 257) 255 3 = Panic PSlice.
Proof. vm_compute. reflexivity. Qed.
Example C68_overflow_hyp : valid_args (repeat x41 257) 255 3 /\ (maxInt 16 < (257 + 1) * 255)%Z /\ (257 <= maxInt 16)%Z.
Proof. split; [repeat split; try discriminate; lia|]. vm_compute. split; [reflexivity|discriminate]. Qed.
END*)
