(** Theorems: the properties about shared memory (C46, C47).
    Generated from Pf8.v by tools/genprops.py: every theorem is proved there as the lemma of the same name with suffix _pf. *)
From Coq Require Import List NArith ZArith Lia Arith Bool Permutation.
From Coq.Init Require Import Byte.
From Verif Require Import GoSem Bytes Spec SpecKr Vector Csprng Pool Polynomial Shamir SplitP Libs AES Krawczyk Worker Memory SpecMem ExData Pf8.
Import ListNotations.

(** C46. When Split returns shares, they are adjacent windows of one array: appending to share i (not the last) overwrites the first byte
    of share i+1 and nothing else; appending to the last share, and stores into a share, change no other share. *)
Theorem C46_split_append : forall ar growcap perm stream polB trB evBufs h secret parts threshold shares,
  grow_ok growcap -> Permutation perm (seq 0 255) ->
  Split ar growcap perm stream polB trB evBufs secret parts threshold = Ret shares ->
  exists h' slices, SplitMem ar growcap perm stream polB trB evBufs h secret parts threshold = Ret (h', slices) /\
    append_clobbers h h' slices shares.
Proof. exact C46_split_append_pf. Qed.
Print Assumptions C46_split_append.

Theorem C46_randomizer_append : forall fuel ar growcap ks polB trB evBufs h secret parts threshold shares,
  grow_ok growcap ->
  SplitWithRandomizer fuel ar growcap ks polB trB evBufs secret parts threshold = Ret shares ->
  exists h' slices, SplitWithRandomizerMem fuel ar growcap ks polB trB evBufs h secret parts threshold = Ret (h', slices) /\
    append_clobbers h h' slices shares.
Proof. exact C46_randomizer_append_pf. Qed.
Print Assumptions C46_randomizer_append.

Theorem C46_randomizerold_append : forall ar growcap ks evBufs h secret parts threshold shares,
  grow_ok growcap ->
  SplitWithRandomizerOld ar growcap ks evBufs secret parts threshold = Ret shares ->
  exists h' slices, SplitWithRandomizerOldMem ar growcap ks evBufs h secret parts threshold = Ret (h', slices) /\
    append_clobbers h h' slices shares.
Proof. exact C46_randomizerold_append_pf. Qed.
Print Assumptions C46_randomizerold_append.

(** C46. The shares returned by SplitGeneric, SplitP, krawczyk.Split and krawczyk.SplitWithRandomizer are independent: no sequence of stores
    and appends on one of them changes another. *)
Theorem C46_generic_independent : forall perm stream h secret parts threshold shares,
  SplitGeneric perm stream secret parts threshold = Ret shares ->
  exists h' slices, SplitGenericMem perm stream h secret parts threshold = Ret (h', slices) /\ independent h h' slices shares.
Proof. exact C46_generic_independent_pf. Qed.
Print Assumptions C46_generic_independent.

Theorem C46_splitp_independent : forall perm stream h secret parts threshold sched shares,
  SplitP perm stream secret parts threshold sched (Ret shares) ->
  exists h' slices, SplitPMem perm stream h secret parts threshold sched (Ret (h', slices)) /\ independent h h' slices shares.
Proof. exact C46_splitp_independent_pf. Qed.
Print Assumptions C46_splitp_independent.

Theorem C46_kr_independent : forall E zp ar growcap krand perm stream polB trB evBufs h secret parts threshold shares,
  grow_ok growcap -> Permutation perm (seq 0 255) ->
  krSplit E zp ar growcap krand perm stream polB trB evBufs secret parts threshold = Ret shares ->
  exists h' slices, krSplitMem E zp ar growcap krand perm stream polB trB evBufs h secret parts threshold = Ret (h', slices) /\
    independent h h' slices shares.
Proof. exact C46_kr_independent_pf. Qed.
Print Assumptions C46_kr_independent.

Theorem C46_kr_randomizer_independent : forall fuel E zp ar growcap ks polB trB evBufs h secret parts threshold shares,
  grow_ok growcap ->
  krSplitWithRandomizer fuel E zp ar growcap ks polB trB evBufs secret parts threshold = Ret shares ->
  exists h' slices, krSplitWithRandomizerMem fuel E zp ar growcap ks polB trB evBufs h secret parts threshold = Ret (h', slices) /\
    independent h h' slices shares.
Proof. exact C46_kr_randomizer_independent_pf. Qed.
Print Assumptions C46_kr_randomizer_independent.

(** C46, non-vacuity: five shares of "hello"; appending 0xff to the first one changes the first byte of the second. *)
Example C46_example :
  match SplitMem ex_ar growcap117 ex_perm ex_stream ex_stale ex_stale ex_ev [] ex_secret 5 3 with
  | Ret (h', slices) =>
    length slices = 5 /\
    let before := contents h' (nth 1 slices nilSlice) in
    let after := contents (fst (append1 8 h' (nth 0 slices nilSlice) xff)) (nth 1 slices nilSlice) in
    hd x00 before <> xff /\ after = xff :: tl before
  | _ => False
  end.
Proof. vm_compute. repeat split. discriminate. Qed.
Example C46_example_generic :
  match SplitGenericMem ex_perm ex_stream [] ex_secret 5 3 with
  | Ret (h', slices) => length slices = 5 /\
    contents (fst (append1 8 h' (nth 0 slices nilSlice) xff)) (nth 1 slices nilSlice) = contents h' (nth 1 slices nilSlice)
  | _ => False
  end.
Proof. vm_compute. repeat split. Qed.

(** C47. Fewer than 16 bytes: panic. *)
Theorem C47_short_panics : forall h keyIv, sl_len keyIv < 16 -> NewCSPRNGWithKeyIV h keyIv = Panic PSlice.
Proof. exact C47_short_panics_pf. Qed.
Print Assumptions C47_short_panics.

(** C47. With 32 bytes, every later Read is AES-CTR (block cipher [E]) with key = the first 16 bytes at construction time and initial counter =
    the last 16 bytes of the caller's slice at the time of the Read. *)
Theorem C47_reads_iv_later : forall E h keyIv, wf h keyIv -> sl_len keyIv = 32 ->
  exists r, NewCSPRNGWithKeyIV h keyIv = Ret r /\
    forall h' buff, csprngRead E h' r buff = Ret (Read (ctrStream E (firstn 16 (contents h keyIv)) (skipn 16 (contents h' keyIv))) buff).
Proof. exact C47_reads_iv_later_pf. Qed.
Print Assumptions C47_reads_iv_later.

(** C47. Storing to the key half of the slice after construction changes nothing; storing [v] to byte [16+i] replaces byte [i] of the initial counter
    used by all later Reads. *)
Theorem C47_later_stores : forall E h keyIv r i v h', wf h keyIv -> sl_len keyIv = 32 -> NewCSPRNGWithKeyIV h keyIv = Ret r ->
  store h keyIv i v = Ret h' ->
  (i < 16 -> forall buff, csprngRead E h' r buff = csprngRead E h r buff) /\
  (16 <= i -> forall buff, csprngRead E h' r buff =
    Ret (Read (ctrStream E (firstn 16 (contents h keyIv)) (set (skipn 16 (contents h keyIv)) (i - 16) v)) buff)).
Proof. exact C47_later_stores_pf. Qed.
Print Assumptions C47_later_stores.

(** C47. With AES as the cipher: overwriting a byte of the IV half with a different value always changes what the generator outputs
    (already its first 16 bytes, for every key and IV). *)
Theorem C47_iv_store_changes_output : forall h keyIv r i v h', wf h keyIv -> sl_len keyIv = 32 -> NewCSPRNGWithKeyIV h keyIv = Ret r ->
  16 <= i < 32 -> v <> nth i (contents h keyIv) x00 -> store h keyIv i v = Ret h' ->
  csprngRead AES h' r (zeros 16) <> csprngRead AES h r (zeros 16).
Proof. exact C47_iv_store_changes_output_pf. Qed.
Print Assumptions C47_iv_store_changes_output.

(** C47. That AES-CTR stream, spelled out: byte [k] of its block [i] is byte [k] of the encryption, under the key, of the 16-byte big-endian counter
    IV + i modulo 2^128. *)
Theorem C47_ctr : forall E key iv ctr i k, length iv = 16 -> length ctr = 16 ->
  big_endian ctr = ((big_endian iv + N.of_nat i) mod 2 ^ 128)%N -> k < 16 ->
  ctrStream E key iv (16 * i + k) = nth k (E key ctr) x00.
Proof. exact C47_ctr_pf. Qed.
Print Assumptions C47_ctr.

(** C47. NewCSPRNG, and so a new Worker, is the generator whose key is bytes 0 to 15 and whose IV is bytes 16 to 31 of what math/rand delivers. *)
Theorem C47_new : forall E mr ctr i k, length ctr = 16 ->
  big_endian ctr = ((big_endian (map mr (seq 16 16)) + N.of_nat i) mod 2 ^ 128)%N -> k < 16 ->
  NewCSPRNG E mr (16 * i + k) = nth k (E (map mr (seq 0 16)) ctr) x00 /\ NewWorker E mr (16 * i + k) = nth k (E (map mr (seq 0 16)) ctr) x00.
Proof. exact C47_new_pf. Qed.
Print Assumptions C47_new.

(** a counter that wraps: IV = 2^128 - 1, block 1 *)
Example C47_ctr_case : big_endian (zeros 16) = ((big_endian (repeat xff 16) + N.of_nat 1) mod 2 ^ 128)%N /\
  forall key, ctrStream AES key (repeat xff 16) 17 = nth 1 (AES key (zeros 16)) x00.
Proof. split; [reflexivity|]. intros key. exact (C47_ctr AES key (repeat xff 16) (zeros 16) 1 1 eq_refl eq_refl eq_refl ltac:(lia)). Qed.
(** C47, non-vacuity: a 32-byte slice in the middle of a larger array. *)
Definition ex_heap : heap := [[x01; x02]; map i2b (seq 0 40)].
Definition ex_keyIv : gslice := {| sl_arr := 1; sl_off := 3; sl_len := 32; sl_cap := 37 |}.
Example C47_example : wf ex_heap ex_keyIv /\ sl_len ex_keyIv = 32 /\
  match NewCSPRNGWithKeyIV ex_heap ex_keyIv, store ex_heap ex_keyIv 20 xff with
  | Ret r, Ret h' => nth 20 (contents ex_heap ex_keyIv) x00 <> xff /\ csprngRead AES h' r (zeros 16) <> csprngRead AES ex_heap r (zeros 16)
  | _, _ => False
  end.
Proof. vm_compute. repeat split; try lia; discriminate. Qed.
