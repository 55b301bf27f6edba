(** Theorems: the properties of the randomizers and of the split functions that use them (C18-C26, C49).
    Generated from Pf4.v by tools/genprops.py: every theorem is proved there as the lemma of the same name with suffix _pf. *)
From Coq Require Import List NArith ZArith Lia Arith Bool Permutation.
From Coq.Init Require Import Byte.
From Verif Require Import GoSem Bytes Spec Vector Csprng Randomizer Pool Polynomial Shamir SplitP ExData Pf4.
Import ListNotations.

(** C18: whatever SplitWithRandomizer returns combines to the secret. *)
Theorem C18_randomizer_combine : forall fuel ar growcap ks polB trB evBufs secret parts threshold shares,
  grow_ok growcap ->
  SplitWithRandomizer fuel ar growcap ks polB trB evBufs secret parts threshold = Ret shares ->
  length shares = Z.to_nat parts /\ NoDup (map tag shares) /\
  (forall s, In s shares -> length s = length secret + 1) /\
  forall is, selection (Z.to_nat parts) (Z.to_nat threshold) is -> Combine (pick [] shares is) = Ret secret.
Proof. exact C18_randomizer_combine_pf. Qed.
Print Assumptions C18_randomizer_combine.

Theorem C18_randomizerold_combine : forall ar growcap ks evBufs secret parts threshold shares,
  grow_ok growcap ->
  SplitWithRandomizerOld ar growcap ks evBufs secret parts threshold = Ret shares ->
  length shares = Z.to_nat parts /\ NoDup (map tag shares) /\
  (forall s, In s shares -> length s = length secret + 1) /\
  forall is, selection (Z.to_nat parts) (Z.to_nat threshold) is -> Combine (pick [] shares is) = Ret secret.
Proof. exact C18_randomizerold_combine_pf. Qed.
Print Assumptions C18_randomizerold_combine.

Example C18_run : exists shares,
  SplitWithRandomizer 3 ex_ar growcap117 ex_stream ex_stale ex_stale ex_ev ex_secret 5 3 = Ret shares /\
  Combine (pick [] shares [4; 0; 2]) = Ret ex_secret.
Proof. eexists. split; vm_compute; reflexivity. Qed.
Example C18_run_large : exists shares,
  SplitWithRandomizer 0 ex_ar growcap117 ex_stream ex_stale ex_stale ex_ev ex_secret 30 3 = Ret shares /\
  Combine (pick [] shares [29; 0; 2]) = Ret ex_secret.
Proof. eexists. split; vm_compute; reflexivity. Qed.
Example C18_run_old : exists shares,
  SplitWithRandomizerOld ex_ar growcap117 ex_stream ex_ev ex_secret 5 3 = Ret shares /\
  Combine (pick [] shares [4; 0; 2]) = Ret ex_secret.
Proof. eexists. split; vm_compute; reflexivity. Qed.

(** C19: with 20 or more parts, SplitWithRandomizer panics exactly when the first key stream byte is 254, and returns otherwise. *)
Theorem C19_large : forall fuel ar growcap ks polB trB evBufs secret parts threshold,
  grow_ok growcap -> valid_args secret parts threshold -> (20 <= parts)%Z ->
  (ks 0 = xfe -> SplitWithRandomizer fuel ar growcap ks polB trB evBufs secret parts threshold = Panic PIndex) /\
  (ks 0 <> xfe -> exists shares, SplitWithRandomizer fuel ar growcap ks polB trB evBufs secret parts threshold = Ret shares).
Proof. exact C19_large_pf. Qed.
Print Assumptions C19_large.

Theorem C19_old : forall ar growcap ks evBufs secret parts threshold,
  grow_ok growcap -> valid_args secret parts threshold ->
  (ks 0 = xfe -> SplitWithRandomizerOld ar growcap ks evBufs secret parts threshold = Panic PIndex) /\
  (ks 0 <> xfe -> exists shares, SplitWithRandomizerOld ar growcap ks evBufs secret parts threshold = Ret shares).
Proof. exact C19_old_pf. Qed.
Print Assumptions C19_old.

(** C19: with fewer than 20 parts, SplitWithRandomizer never panics. It returns (the fuel does not matter: one extra read per byte is
    enough) exactly when [parts] bytes can be picked from the key stream by the rule [picks]; otherwise it loops forever, which
    happens exactly when at some index [i] both candidates are already taken. *)
Theorem C19_small : forall ar growcap ks polB trB evBufs secret parts threshold,
  grow_ok growcap -> valid_args secret parts threshold -> (parts < 20)%Z ->
  let call fuel := SplitWithRandomizer fuel ar growcap ks polB trB evBufs secret parts threshold in
  let stuck := exists i out, i < Z.to_nat parts /\ picks ks i out /\ In (ks i) out /\ In (gadd (ks i) (ks 0)) out in
  ((exists shares, forall fuel, 1 <= fuel -> call fuel = Ret shares) <-> exists out, picks ks (Z.to_nat parts) out) /\
  ((forall fuel, call fuel = Diverge) <-> stuck) /\
  ((exists out, picks ks (Z.to_nat parts) out) \/ stuck) /\
  ~ ((exists out, picks ks (Z.to_nat parts) out) /\ stuck) /\
  (forall fuel p, call fuel <> Panic p) /\
  (NoDup (map ks (seq 0 (Z.to_nat parts))) -> picks ks (Z.to_nat parts) (map ks (seq 0 (Z.to_nat parts)))).
Proof. exact C19_small_pf. Qed.
Print Assumptions C19_small.

(** C19: three equal leading key stream bytes make it loop forever. *)
Theorem C19_three_equal_hang : forall fuel ar growcap ks polB trB evBufs secret parts threshold,
  grow_ok growcap -> valid_args secret parts threshold -> (3 <= parts < 20)%Z -> ks 1 = ks 0 -> ks 2 = ks 0 ->
  SplitWithRandomizer fuel ar growcap ks polB trB evBufs secret parts threshold = Diverge.
Proof. exact C19_three_equal_hang_pf. Qed.
Print Assumptions C19_three_equal_hang.

Example C19_cases :
  SplitWithRandomizer 5 ex_ar growcap117 (fun _ => xfe) ex_stale ex_stale ex_ev ex_secret 30 3 = Panic PIndex /\
  SplitWithRandomizer 100 ex_ar growcap117 (fun _ => x17) ex_stale ex_stale ex_ev ex_secret 5 3 = Diverge /\
  NoDup (map ex_stream (seq 0 19)).
Proof.
  split; [vm_compute; reflexivity|]. split; [vm_compute; reflexivity|].
  vm_compute. repeat (constructor; [cbn; intuition discriminate|]). constructor.
Qed.

(** C20: with fewer than 20 parts, share [i] has tag 0 exactly when the byte picked at index [i] is 255, and then its data is the
    plaintext secret. *)
Theorem C20_zero_tag_small : forall fuel ar growcap ks polB trB evBufs secret parts threshold shares i,
  grow_ok growcap -> (parts < 20)%Z ->
  SplitWithRandomizer fuel ar growcap ks polB trB evBufs secret parts threshold = Ret shares -> i < Z.to_nat parts ->
  (tag (nth i shares []) = x00 <-> exists out, picks ks (Z.to_nat parts) out /\ nth i out x00 = xff) /\
  (tag (nth i shares []) = x00 -> data (nth i shares []) = secret).
Proof. exact C20_zero_tag_small_pf. Qed.
Print Assumptions C20_zero_tag_small.

Theorem C20_no_zero_tag_large : forall fuel ar growcap ks polB trB evBufs secret parts threshold shares,
  grow_ok growcap -> (20 <= parts)%Z ->
  SplitWithRandomizer fuel ar growcap ks polB trB evBufs secret parts threshold = Ret shares -> ~ In x00 (map tag shares).
Proof. exact C20_no_zero_tag_large_pf. Qed.
Print Assumptions C20_no_zero_tag_large.

Theorem C20_no_zero_tag_old : forall ar growcap ks evBufs secret parts threshold shares,
  grow_ok growcap ->
  SplitWithRandomizerOld ar growcap ks evBufs secret parts threshold = Ret shares -> ~ In x00 (map tag shares).
Proof. exact C20_no_zero_tag_old_pf. Qed.
Print Assumptions C20_no_zero_tag_old.

(** the event occurs: a key stream that starts with 255 publishes the secret in share 0 *)
Example C20_run : exists shares,
  SplitWithRandomizer 3 ex_ar growcap117 (fun i => i2b (255 + i)) ex_stale ex_stale ex_ev ex_secret 5 3 = Ret shares /\
  nth 0 shares [] = ex_secret ++ [x00].
Proof. eexists. split; vm_compute; reflexivity. Qed.

(** C21: on a fresh pool, with distinct leading key stream bytes, the threshold-1 shares number t*p+1 .. t*p+t-1 determine secret byte
    [p] by the formula [leakByte] (for p = 0: shares 1 .. t-1). *)
Theorem C21_leak : forall fuel ar growcap ks trB evBufs secret parts threshold shares p,
  grow_ok growcap -> (parts < 20)%Z -> NoDup (map ks (seq 0 (Z.to_nat parts))) ->
  SplitWithRandomizer fuel ar growcap ks [] trB evBufs secret parts threshold = Ret shares ->
  let t := Z.to_nat threshold in
  t * p + t <= Z.to_nat parts -> p < length secret ->
  coalition (Z.to_nat parts) t (seq (t * p + 1) (t - 1)) /\
  leakByte t p (pick [] shares (seq (t * p + 1) (t - 1))) = nth p secret x00.
Proof. exact C21_leak_pf. Qed.
Print Assumptions C21_leak.

(** C21: hence secrecy fails: two secrets with different first bytes never show the same shares 1 .. t-1, whatever the two key
    streams (with distinct leading bytes). *)
Theorem C21_secrecy_fails : forall fuel ar growcap ks ks' trB trB' evBufs evBufs' s s' parts threshold shares shares',
  grow_ok growcap -> (parts < 20)%Z ->
  NoDup (map ks (seq 0 (Z.to_nat parts))) -> NoDup (map ks' (seq 0 (Z.to_nat parts))) ->
  SplitWithRandomizer fuel ar growcap ks [] trB evBufs s parts threshold = Ret shares ->
  SplitWithRandomizer fuel ar growcap ks' [] trB' evBufs' s' parts threshold = Ret shares' ->
  nth 0 s x00 <> nth 0 s' x00 ->
  pick [] shares (seq 1 (Z.to_nat threshold - 1)) <> pick [] shares' (seq 1 (Z.to_nat threshold - 1)).
Proof. exact C21_secrecy_fails_pf. Qed.
Print Assumptions C21_secrecy_fails.

(** with threshold 2 and 19 parts a single share gives away one byte: share 1 byte 0, share 3 byte 1, ... *)
Example C21_run : exists shares,
  SplitWithRandomizer 3 ex_ar growcap117 ex_stream [] ex_stale ex_ev ex_secret 19 2 = Ret shares /\
  leakByte 2 0 [nth 1 shares []] = x68 /\ leakByte 2 1 [nth 3 shares []] = x65 /\ leakByte 2 4 [nth 9 shares []] = x6f.
Proof. eexists. split; [vm_compute; reflexivity|]. repeat split; vm_compute; reflexivity. Qed.

(** C22: CSPRNG.Read always XORs the same key stream prefix into the buffer; reading twice restores the buffer. *)
Theorem C22_read : forall ks buff,
  length (Read ks buff) = length buff /\
  (forall i, i < length buff -> nth i (Read ks buff) x00 = gadd (nth i buff x00) (ks i)) /\
  Read ks (Read ks buff) = buff /\
  (forall n, Read ks (zeros n) = map ks (seq 0 n)).
Proof. exact C22_read_pf. Qed.
Print Assumptions C22_read.

(** C22: two secrets split with the same randomizer: share [i] of one XOR share [i] of the other is the XOR of the secrets. *)
Theorem C22_reuse_old : forall ar ar' growcap growcap' ks evBufs evBufs' s s' parts threshold shares shares' i,
  grow_ok growcap -> grow_ok growcap' -> length s = length s' -> i < Z.to_nat parts ->
  SplitWithRandomizerOld ar growcap ks evBufs s parts threshold = Ret shares ->
  SplitWithRandomizerOld ar' growcap' ks evBufs' s' parts threshold = Ret shares' ->
  xor_bytes (data (nth i shares [])) (data (nth i shares' [])) = xor_bytes s s' /\ tag (nth i shares []) = tag (nth i shares' []).
Proof. exact C22_reuse_old_pf. Qed.
Print Assumptions C22_reuse_old.

Theorem C22_reuse : forall fuel ar ar' growcap ks polB trB trB' evBufs evBufs' s s' parts threshold shares shares' i,
  grow_ok growcap -> length s = length s' -> i < Z.to_nat parts ->
  SplitWithRandomizer fuel ar growcap ks polB trB evBufs s parts threshold = Ret shares ->
  SplitWithRandomizer fuel ar' growcap ks polB trB' evBufs' s' parts threshold = Ret shares' ->
  xor_bytes (data (nth i shares [])) (data (nth i shares' [])) = xor_bytes s s' /\ tag (nth i shares []) = tag (nth i shares' []).
Proof. exact C22_reuse_pf. Qed.
Print Assumptions C22_reuse.

Example C22_run : exists sh sh',
  SplitWithRandomizerOld ex_ar growcap117 ex_stream ex_ev ex_secret 5 3 = Ret sh /\
  SplitWithRandomizerOld ex_ar growcap117 ex_stream ex_ev [x00; x00; x00; x00; x00] 5 3 = Ret sh' /\
  xor_bytes (data (nth 2 sh [])) (data (nth 2 sh' [])) = ex_secret.
Proof. eexists _, _. split; [vm_compute; reflexivity|]. split; [vm_compute; reflexivity|vm_compute; reflexivity]. Qed.

(** C23: CSPRNG.Perm *)
Theorem C23_perm : forall ks n,
  ((exists p, Perm ks n = Panic p) <-> b2i n <= 1 \/ (3 <= b2i n /\ b2i (ks 0) mod b2i n = b2i n - 1)) /\
  (forall e, Perm ks n <> Fail e) /\
  (~ (b2i n <= 1 \/ (3 <= b2i n /\ b2i (ks 0) mod b2i n = b2i n - 1)) ->
     exists p, Perm ks n = Ret p /\ Permutation (map i2b (seq 0 (b2i n))) p /\ (3 <= b2i n -> nth 0 p x00 <> x00)).
Proof. exact C23_perm_pf. Qed.
Print Assumptions C23_perm.

Example C23_cases : Perm (fun _ => xfe) xff = Panic PIndex /\ Perm ex_stream x05 = Ret [x04; x03; x01; x02; x00].
Proof. split; vm_compute; reflexivity. Qed.

(** C24: CSPRNG.GetUniqueBytes *)
Theorem C24_unique : forall fuel ks n out, GetUniqueBytes fuel ks n = Ret out -> length out = b2i n /\ NoDup out.
Proof. exact C24_unique_pf. Qed.
Print Assumptions C24_unique.

Theorem C24_small : forall ks n, b2i n < 20 ->
  let stuck := exists i out, i < b2i n /\ picks ks i out /\ In (ks i) out /\ In (gadd (ks i) (ks 0)) out in
  (forall fuel out, GetUniqueBytes fuel ks n = Ret out -> picks ks (b2i n) out) /\
  (~ stuck -> exists out, forall fuel, 1 <= fuel -> GetUniqueBytes fuel ks n = Ret out) /\
  (stuck <-> forall fuel, GetUniqueBytes fuel ks n = Diverge) /\
  (NoDup (map ks (seq 0 (b2i n))) -> forall fuel, 1 <= fuel -> GetUniqueBytes fuel ks n = Ret (map ks (seq 0 (b2i n)))).
Proof. exact C24_small_pf. Qed.
Print Assumptions C24_small.

Theorem C24_large : forall fuel ks n, 20 <= b2i n ->
  (ks 0 = xfe -> GetUniqueBytes fuel ks n = Panic PIndex) /\
  (ks 0 <> xfe -> exists out, GetUniqueBytes fuel ks n = Ret out /\ ~ In xff out).
Proof. exact C24_large_pf. Qed.
Print Assumptions C24_large.

Example C24_cases : GetUniqueBytes 1 (stream_of [x05; x07; x05; x09]) x04 = Ret [x05; x07; x00; x09] /\
  GetUniqueBytes 100 (stream_of [x05; x05; x05]) x03 = Diverge.
Proof. split; vm_compute; reflexivity. Qed.

(** C25: randomizer.Randomizer.Perm never returns a permutation for n >= 2. *)
Theorem C25_not_a_permutation : forall r n, 2 <= b2i n ->
  exists buff r', rzPerm r n = Ret (buff, r') /\ length buff = b2i n /\ nth 0 buff x00 = x00 /\ nth 1 buff x00 = x00 /\
    (forall i, i < b2i n -> b2i (nth i buff x00) < b2i n) /\ ~ NoDup buff /\ ~ Permutation (map i2b (seq 0 (b2i n))) buff.
Proof. exact C25_not_a_permutation_pf. Qed.
Print Assumptions C25_not_a_permutation.

Theorem C25_small : forall r, (exists r', rzPerm r x01 = Ret ([x00], r')) /\ rzPerm r x00 = Panic PIndex.
Proof. exact C25_small_pf. Qed.
Print Assumptions C25_small.

Example C25_run : match rzPerm {| rz_ks := ex_stream; rz_pos := 4 |} x05 with
  | Ret (b, _) => b = [x00; x00; x01; x02; x03] | _ => False end.
Proof. vm_compute. reflexivity. Qed.

(** C26: randomizer.Randomizer.Read continues the stream. *)
Theorem C26_read : forall r a b,
  (let (ab, r2) := rzRead r (a ++ b) in let (a', r1) := rzRead r a in let (b', r2') := rzRead r1 b in ab = a' ++ b' /\ r2 = r2') /\
  (forall i, i < length a -> nth i (fst (rzRead r a)) x00 = gadd (nth i a x00) (rz_ks r (rz_pos r + i))).
Proof. exact C26_read_pf. Qed.
Print Assumptions C26_read.

(** reading 2 and then 3 bytes from position 4 delivers bytes 4, 5 and 6, 7, 8 of the key stream *)
Example C26_run : let (a, r1) := rzRead {| rz_ks := ex_stream; rz_pos := 4 |} [x00; x00] in let (b, r2) := rzRead r1 [x00; x00; xff] in
  a = [ex_stream 4; ex_stream 5] /\ b = [ex_stream 6; ex_stream 7; gadd xff (ex_stream 8)] /\ rz_pos r2 = 9.
Proof. vm_compute. repeat split. Qed.

(** C49: all five variants return sharings in the same format. *)
Theorem C49_split : forall ar growcap perm stream polB trB evBufs secret parts threshold shares,
  grow_ok growcap -> Permutation perm (seq 0 255) ->
  Split ar growcap perm stream polB trB evBufs secret parts threshold = Ret shares ->
  exists polys, is_sharing secret (Z.to_nat threshold) polys (map tag shares) shares.
Proof. exact C49_split_pf. Qed.
Print Assumptions C49_split.

Theorem C49_generic : forall perm stream secret parts threshold shares,
  Permutation perm (seq 0 255) -> SplitGeneric perm stream secret parts threshold = Ret shares ->
  exists polys, is_sharing secret (Z.to_nat threshold) polys (map tag shares) shares.
Proof. exact C49_generic_pf. Qed.
Print Assumptions C49_generic.

Theorem C49_splitp : forall perm stream secret parts threshold sched shares,
  Permutation perm (seq 0 255) -> (N.of_nat (length secret) < 4294967296)%N ->
  SplitP perm stream secret parts threshold sched (Ret shares) ->
  exists polys, is_sharing secret (Z.to_nat threshold) polys (map tag shares) shares.
Proof. exact C49_splitp_pf. Qed.
Print Assumptions C49_splitp.

Theorem C49_randomizer : forall fuel ar growcap ks polB trB evBufs secret parts threshold shares,
  grow_ok growcap -> SplitWithRandomizer fuel ar growcap ks polB trB evBufs secret parts threshold = Ret shares ->
  exists polys, is_sharing secret (Z.to_nat threshold) polys (map tag shares) shares.
Proof. exact C49_randomizer_pf. Qed.
Print Assumptions C49_randomizer.

Theorem C49_randomizerold : forall ar growcap ks evBufs secret parts threshold shares,
  grow_ok growcap -> SplitWithRandomizerOld ar growcap ks evBufs secret parts threshold = Ret shares ->
  exists polys, is_sharing secret (Z.to_nat threshold) polys (map tag shares) shares.
Proof. exact C49_randomizerold_pf. Qed.
Print Assumptions C49_randomizerold.

(** C49: ... and this format is all that Combine (and, by C14_mix_combines, Regenerate) needs. *)
Theorem C49_format_combines : forall secret t polys tags shares is, 2 <= t -> secret <> [] ->
  is_sharing secret t polys tags shares -> selection (length shares) t is -> Combine (pick [] shares is) = Ret secret.
Proof. exact C49_format_combines_pf. Qed.
Print Assumptions C49_format_combines.

(** a sharing with threshold 2 of a 1-byte secret, written down by hand *)
Example C49_case : is_sharing [x04] 2 [[x04; x01]] [x01; x02; x07] [[x05; x01]; [x06; x02]; [x03; x07]] /\ selection 3 2 [2; 0] /\
  Combine (pick [] [[x05; x01]; [x06; x02]; [x03; x07]] [2; 0]) = Ret [x04].
Proof.
  split; [|split; [|vm_compute; reflexivity]].
  - split; [reflexivity|]. split; [repeat constructor|]. split; [repeat constructor; cbn; intuition discriminate|vm_compute; reflexivity].
  - split; [repeat constructor; cbn; intuition lia|]. split; [cbn; intuition lia|cbn; lia].
Qed.
