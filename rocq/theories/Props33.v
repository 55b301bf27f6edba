(** Proofs about what the tags drawn by Perm(255) give away (C80), and further ones about corrupted parts (C08).
    Generated from Pf33.v by tools/genprops.py: every theorem is proved there as the lemma of the same name with suffix _pf. *)
From Coq Require Import List NArith ZArith Lia Arith Bool Permutation.
From Coq.Init Require Import Byte.
From Verif Require Import GoSem Bytes Spec SpecKr SpecPerm Galois Csprng Pool Vector Polynomial Shamir Libs AES Krawczyk ExData Pf33.
Import ListNotations.

(** C80: SplitWithRandomizerOld: when the elements t*p+1 .. t*p+t-1 of the shuffle are undisturbed, the threshold-1 shares with these
    numbers determine secret byte [p] by the formula [leakByte2]. *)
Theorem C80_leak_old : forall ar growcap ks evBufs secret parts threshold shares p,
  grow_ok growcap ->
  SplitWithRandomizerOld ar growcap ks evBufs secret parts threshold = Ret shares ->
  let t := Z.to_nat threshold in
  t * p + t <= Z.to_nat parts -> p < length secret ->
  (forall m, t * p < m < t * p + t -> undisturbed ks m) ->
  coalition (Z.to_nat parts) t (seq (t * p + 1) (t - 1)) /\
  leakByte2 t p (pick [] shares (seq (t * p + 1) (t - 1))) = nth p secret x00.
Proof. exact C80_leak_old_pf. Qed.
Print Assumptions C80_leak_old.

(** C80: the same for SplitWithRandomizer with 20 or more parts, on a fresh pool. *)
Theorem C80_leak_large : forall fuel ar growcap ks trB evBufs secret parts threshold shares p,
  grow_ok growcap -> (20 <= parts)%Z ->
  SplitWithRandomizer fuel ar growcap ks [] trB evBufs secret parts threshold = Ret shares ->
  let t := Z.to_nat threshold in
  t * p + t <= Z.to_nat parts -> p < length secret ->
  (forall m, t * p < m < t * p + t -> undisturbed ks m) ->
  coalition (Z.to_nat parts) t (seq (t * p + 1) (t - 1)) /\
  leakByte2 t p (pick [] shares (seq (t * p + 1) (t - 1))) = nth p secret x00.
Proof. exact C80_leak_large_pf. Qed.
Print Assumptions C80_leak_large.

(** threshold 2, five parts: share 3 alone shows byte 1 of "hello" *)
Definition ex_quiet (i : nat) : byte := if i =? 3 then x32 else x00.
Example C80_run : undisturbed ex_quiet 3 /\ exists shares,
  SplitWithRandomizerOld ex_ar growcap117 ex_quiet ex_ev ex_secret 5 2 = Ret shares /\
  leakByte2 2 1 [nth 3 shares []] = nth 1 ex_secret x00 /\ nth 1 ex_secret x00 = x65.
Proof.
  split; [|eexists; split; [vm_compute; reflexivity|split; vm_compute; reflexivity]].
  assert (H : forall i, i <> 3 -> i < 253 -> partner ex_quiet i = 1).
  { intros i Hi Hn. unfold partner, ex_quiet. destruct (Nat.eqb_spec i 3); [lia|]. change (b2i x00) with 0. rewrite Nat.mod_0_l by lia. reflexivity. }
  split; [vm_compute; lia|]. split; [|split; [|vm_compute; lia]].
  - intros i Hi. rewrite H by lia. vm_compute. discriminate.
  - intros i Hi Hn. rewrite H by lia. discriminate.
Qed.

(** C80: SplitWithRandomizerOld is not threshold-secret, at any threshold up to 85: there is a key stream such that threshold-1 of the
    shares it produces fix the first byte of the secret, whatever secret, key stream, pool and machine they may have come from. *)
Theorem C80_secrecy_fails_old : forall ar growcap evBufs secret parts threshold,
  grow_ok growcap -> valid_args secret parts threshold -> (2 * threshold - 1 <= parts)%Z -> (3 * threshold <= 257)%Z ->
  exists ks shares is,
    coalition (Z.to_nat parts) (Z.to_nat threshold) is /\
    SplitWithRandomizerOld ar growcap ks evBufs secret parts threshold = Ret shares /\
    forall ar' growcap' ks' evBufs' secret' shares', grow_ok growcap' ->
      SplitWithRandomizerOld ar' growcap' ks' evBufs' secret' parts threshold = Ret shares' ->
      pick [] shares' is = pick [] shares is -> nth 0 secret' x00 = nth 0 secret x00.
Proof. exact C80_secrecy_fails_old_pf. Qed.
Print Assumptions C80_secrecy_fails_old.

(** C80: nor is SplitWithRandomizer with 20 or more parts (on a fresh pool). *)
Theorem C80_secrecy_fails_large : forall fuel ar growcap trB evBufs secret parts threshold,
  grow_ok growcap -> valid_args secret parts threshold -> (20 <= parts)%Z -> (2 * threshold - 1 <= parts)%Z -> (3 * threshold <= 257)%Z ->
  exists ks shares is,
    coalition (Z.to_nat parts) (Z.to_nat threshold) is /\
    SplitWithRandomizer fuel ar growcap ks [] trB evBufs secret parts threshold = Ret shares /\
    forall fuel' ar' growcap' ks' trB' evBufs' secret' shares', grow_ok growcap' ->
      SplitWithRandomizer fuel' ar' growcap' ks' [] trB' evBufs' secret' parts threshold = Ret shares' ->
      pick [] shares' is = pick [] shares is -> nth 0 secret' x00 = nth 0 secret x00.
Proof. exact C80_secrecy_fails_large_pf. Qed.
Print Assumptions C80_secrecy_fails_large.

(** C80: krawczyk.SplitWithRandomizer with 20 or more parts: the tag of metadata share 0 shows AES key byte 0 (up to 0 versus 255), and
    key byte [i] is the tag of metadata share [i] minus 2 wherever the shuffle leaves element [i] undisturbed. *)
Theorem C80_key : forall fuel E zp ar growcap ks polB trB evBufs secret parts threshold shares,
  grow_ok growcap -> (20 <= parts)%Z ->
  krSplitWithRandomizer fuel E zp ar growcap ks polB trB evBufs secret parts threshold = Ret shares ->
  exists key ciphertext, length key = 16 /\ ofb_cipher E key secret ciphertext /\
    (forall i, i < Z.to_nat threshold -> kr_piece (nth i shares []) = padded_piece (Z.to_nat threshold) i ciphertext) /\
    b2i (tag (kr_meta (nth 0 shares []))) = 2 + b2i (nth 0 key x00) mod 255 /\
    forall i, 0 < i < 16 -> undisturbed ks i -> nth i key x00 = bsub (tag (kr_meta (nth i shares []))) x02.
Proof. exact C80_key_pf. Qed.
Print Assumptions C80_key.

(** C08: one part replaced by any other data under the same tag: the result changes exactly where the data differ. *)
Theorem C08_one_part : forall parts r i p',
  Combine parts = Ret r -> ~ In x00 (map tag parts) -> i < length parts ->
  length p' = length (nth i parts []) -> tag p' = tag (nth i parts []) ->
  exists r', Combine (replace parts i p') = Ret r' /\ length r' = length r /\
    forall k, k < length r -> (nth k r' x00 = nth k r x00 <-> nth k p' x00 = nth k (nth i parts []) x00).
Proof. exact C08_one_part_pf. Qed.
Print Assumptions C08_one_part.

(** C08: a part tagged 0 is the exception: Combine then returns that part's own data, whatever the other parts hold. *)
Theorem C08_zero_tag : forall parts r p,
  Combine parts = Ret r -> In p parts -> tag p = x00 -> r = firstn (length r) p /\ length p = S (length r).
Proof. exact C08_zero_tag_pf. Qed.
Print Assumptions C08_zero_tag.

Example C08_one_part_case : exists v, v <> x04 /\ Combine [[x05; x09; x01]; [x06; x09; x02]] = Ret [x04; x09] /\
  Combine (replace [[x05; x09; x01]; [x06; x09; x02]] 1 [x07; x09; x02]) = Ret [v; x09].
Proof. eexists. split; [|split; vm_compute; reflexivity]. discriminate. Qed.
Example C08_zero_case : Combine [[x05; x09; x01]; [x06; x08; x00]] = Ret [x06; x08].
Proof. vm_compute. reflexivity. Qed.
(** five parts, threshold 3: the hypotheses of the secrecy failure are met *)
Example C80_hyp : valid_args ex_secret 5 3 /\ (2 * 3 - 1 <= 5)%Z /\ (3 * 3 <= 257)%Z /\ valid_args ex_secret 20 3.
Proof. repeat split; try discriminate; lia. Qed.
