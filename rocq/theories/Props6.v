(** Theorems: the properties of the krawczyk package (C32-C41).
    Generated from Pf6.v by tools/genprops.py: every theorem is proved there as the lemma of the same name with suffix _pf. *)
From Coq Require Import List NArith ZArith Lia Arith Bool Permutation.
From Coq.Init Require Import Byte.
From Verif Require Import GoSem Bytes Spec SpecKr Vector Csprng Pool Polynomial Shamir Libs AES Krawczyk ExData Pf6.
Import ListNotations.

(** C32: krawczyk.Split followed by krawczyk.Combine on a list that contains at least [threshold] distinct shares, in any order
    and with any number of nils between them. *)
Theorem C32_split_combine : forall E zp rd ar growcap krand perm stream polB trB evBufs secret parts threshold,
  (forall i, 0 < rd i) -> grow_ok growcap -> Permutation perm (seq 0 255) -> kr_valid_args zp secret parts threshold ->
  exists shares,
    krSplit E zp ar growcap krand perm stream polB trB evBufs secret parts threshold = Ret shares /\
    length shares = Z.to_nat parts /\
    forall ss is, selection (Z.to_nat parts) (Z.to_nat threshold) is -> somes ss = pick [] shares is ->
      krCombine E zp rd ss parts threshold = Ret secret.
Proof. exact C32_split_combine_pf. Qed.
Print Assumptions C32_split_combine.

Definition ex_long : list byte := map (fun i => i2b (3 * i + 1)) (seq 0 41).
Example C32_valid : kr_valid_args true ex_long 5 3 /\ kr_valid_args false ex_long 5 3.
Proof. split; (split; [discriminate|]; cbn; repeat split; try lia; auto). Qed.
(** a run with AES: 41 bytes, 3 of 5, shares 4, 0, 2 given with two nils *)
Example C32_run :
  match krSplit AES true ex_ar growcap117 (fun i => i2b (5 * i + 9)) ex_perm ex_stream ex_stale ex_stale ex_ev ex_long 5 3 with
  | Ret sh => krCombine AES true (fun _ => 512) [None; Some (nth 4 sh []); Some (nth 0 sh []); None; Some (nth 2 sh [])] 5 3 = Ret ex_long /\
              nth 0 sh [] <> nth 1 sh []
  | _ => False
  end.
Proof. vm_compute. split; [reflexivity|discriminate]. Qed.

(** C33: what a krawczyk share is made of. *)
Theorem C33_shape : forall E zp ar growcap krand perm stream polB trB evBufs secret parts threshold shares,
  grow_ok growcap -> Permutation perm (seq 0 255) ->
  krSplit E zp ar growcap krand perm stream polB trB evBufs secret parts threshold = Ret shares ->
  let n := Z.to_nat parts in let t := Z.to_nat threshold in let len := ceil_div (length secret) t in
  let key := map krand (seq 0 16) in
  length shares = n /\
  (forall i, i < n -> length (nth i shares []) = len + 22 /\ tag (nth i shares []) = i2b i) /\
  (exists polys, is_sharing (key ++ le32 (N.of_nat (length secret))) t polys (map (fun s => tag (kr_meta s)) shares) (map kr_meta shares)) /\
  rs_codeword t n len (fun i => kr_piece (nth i shares [])) /\
  exists c, ofb_cipher E key secret c /\
    concat (map kr_piece (firstn t shares)) = c ++ repeat x00 (t * len - length secret).
Proof. exact C33_shape_pf. Qed.
Print Assumptions C33_shape.

Example C33_run : match krSplit AES true ex_ar growcap117 (fun i => i2b (5 * i + 9)) ex_perm ex_stream ex_stale ex_stale ex_ev ex_long 5 3 with
  | Ret sh => map (@length byte) sh = [36; 36; 36; 36; 36]
  | _ => False end.
Proof. vm_compute. reflexivity. Qed.

(** C34: krawczyk.Split succeeds exactly on valid arguments, and otherwise returns exactly the specified error. *)
Theorem C34_contract : forall E zp ar growcap krand perm stream polB trB evBufs secret parts threshold,
  grow_ok growcap -> Permutation perm (seq 0 255) ->
  let call := krSplit E zp ar growcap krand perm stream polB trB evBufs secret parts threshold in
  ((exists shares, call = Ret shares) <-> kr_valid_args zp secret parts threshold) /\
  (forall e, call = Fail e <-> kr_arg_error zp secret parts threshold e) /\
  ((exists shares, call = Ret shares) \/ (exists e, call = Fail e)).
Proof. exact C34_contract_pf. Qed.
Print Assumptions C34_contract.

Example C34_cases : kr_arg_error true ex_long 5 1 EThresholdSmall /\ kr_arg_error true [] 5 3 ERSShortData /\
  kr_arg_error true ex_long (-1) (-2) ERSInvShardNum /\ kr_arg_error false ex_long 5 5 ERSInvShardNum.
Proof. unfold kr_arg_error. cbn. intuition (try discriminate; try lia). Qed.

(** C35: given fewer than [threshold] distinct shares (and nils), krawczyk.Combine never returns data but always the same error. *)
Theorem C35_too_few : forall E zp rd ar growcap krand perm stream polB trB evBufs secret parts threshold shares ss is,
  (forall i, 0 < rd i) -> grow_ok growcap -> Permutation perm (seq 0 255) ->
  krSplit E zp ar growcap krand perm stream polB trB evBufs secret parts threshold = Ret shares ->
  ss <> [] -> coalition (Z.to_nat parts) (Z.to_nat threshold) is -> somes ss = pick [] shares is ->
  krCombine E zp rd ss parts threshold = Fail (if length is <? 2 then ETooFewParts else ERSTooFewShards).
Proof. exact C35_too_few_pf. Qed.
Print Assumptions C35_too_few.

Example C35_case : match krSplit AES true ex_ar growcap117 (fun i => i2b (5 * i + 9)) ex_perm ex_stream ex_stale ex_stale ex_ev ex_long 5 3 with
  | Ret sh => krCombine AES true (fun _ => 512) [None; Some (nth 4 sh []); Some (nth 0 sh [])] 5 3 = Fail ERSTooFewShards
  | _ => False end /\ coalition 5 3 [4; 0].
Proof. split; [vm_compute; reflexivity|]. split; [repeat constructor; cbn; intuition lia|split; [cbn; intuition lia|cbn; lia]]. Qed.

(** C36: exactly when krawczyk.Combine panics, for arbitrary shares (with arbitrary spare capacity) and parameters. *)
Theorem C36_panics : forall E zp rd ss parts threshold,
  (forall i, 0 < rd i) ->
  let first_length := match ss with Some (s, _) :: _ => length s | _ => 0 end in
  let call := krCombineCap E zp rd ss parts threshold in
  ((exists p, call = Panic p) <->
     ss = [] \/
     (kr_params first_length parts threshold /\
      ((parts < 0)%Z \/
       exists pre s spare post, somes ss = pre ++ (s, spare) :: post /\ Forall (fun x => kr_acceptable parts (fst x)) pre /\
         ~ kr_acceptable parts s /\ kr_panicking parts s spare))) /\
  ((exists p, call = Panic p) \/ (exists e, call = Fail e) \/ (exists secret, call = Ret secret)).
Proof. exact C36_panics_pf. Qed.
Print Assumptions C36_panics.

Example C36_cases : kr_panicking 5 [x01; x02] [] /\ ~ kr_acceptable 5 [x01; x02] /\ kr_params 2 5 3 /\
  krCombine AES true (fun _ => 512) [Some [x01; x02]] 5 3 = Panic PSlice /\
  krCombine AES true (fun _ => 512) [Some (repeat x05 30)] 5 3 = Panic PIndex /\
  krCombine AES true (fun _ => 512) [Some (repeat x06 30)] 5 3 = Fail EWrongPartId /\
  krCombineCap AES true (fun _ => 512) [Some ([x09], repeat x00 20)] 5 3 = Fail EWrongPartId.
Proof.
  split; [left; cbn; lia|]. split; [intros (X & _); cbn in X; lia|]. split; [unfold kr_params; lia|].
  repeat split; vm_compute; reflexivity.
Qed.

(** C37: the metadata of fewer than [threshold] shares is distributed independently of the key, of the secret and of its length. *)
Theorem C37_metadata : forall E zp ar growcap perm polB trB evBufs krand krand' s s' parts threshold is view,
  grow_ok growcap -> Permutation perm (seq 0 255) -> kr_valid_args zp s parts threshold -> kr_valid_args zp s' parts threshold ->
  coalition (Z.to_nat parts) (Z.to_nat threshold) is ->
  let metadata_seen o := match o with Ret sh => shares_eqb (map kr_meta (pick [] sh is)) view | _ => false end in
  let buffers := all_strings (Z.to_nat threshold * 20) in
  count (fun r => metadata_seen (krSplit E zp ar growcap krand perm (stream_of r) polB trB evBufs s parts threshold)) buffers =
  count (fun r => metadata_seen (krSplit E zp ar growcap krand' perm (stream_of r) polB trB evBufs s' parts threshold)) buffers.
Proof. exact C37_metadata_pf. Qed.
Print Assumptions C37_metadata.

Example C37_case : coalition 5 3 [4; 1] /\ kr_valid_args true ex_long 5 3 /\ kr_valid_args true ex_secret 5 3.
Proof.
  split; [split; [repeat constructor; cbn; lia|split; [cbn; intros; lia|cbn; lia]]|].
  split; (split; [discriminate|cbn; repeat split; try lia; auto]).
Qed.

(** C37, whole shares: fewer than [threshold] shares reveal nothing about key and secret beyond the pieces of the ciphertext they
    carry: two (key, secret) pairs for which the coalition holds the same pieces produce every view equally often. *)
Theorem C37_whole_view : forall E zp ar growcap perm polB trB evBufs krand krand' s s' parts threshold is view stream sh sh',
  grow_ok growcap -> Permutation perm (seq 0 255) ->
  coalition (Z.to_nat parts) (Z.to_nat threshold) is ->
  krSplit E zp ar growcap krand perm stream polB trB evBufs s parts threshold = Ret sh ->
  krSplit E zp ar growcap krand' perm stream polB trB evBufs s' parts threshold = Ret sh' ->
  map kr_piece (pick [] sh is) = map kr_piece (pick [] sh' is) ->
  let buffers := all_strings (Z.to_nat threshold * 20) in
  count (fun r => observes (krSplit E zp ar growcap krand perm (stream_of r) polB trB evBufs s parts threshold) is view) buffers =
  count (fun r => observes (krSplit E zp ar growcap krand' perm (stream_of r) polB trB evBufs s' parts threshold) is view) buffers.
Proof. exact C37_whole_view_pf. Qed.
Print Assumptions C37_whole_view.

(** C40: whatever krawczyk.SplitWithRandomizer returns combines to the secret. *)
Theorem C40_randomizer_combine : forall fuel E zp rd ar growcap ks polB trB evBufs secret parts threshold shares,
  (forall i, 0 < rd i) -> grow_ok growcap ->
  krSplitWithRandomizer fuel E zp ar growcap ks polB trB evBufs secret parts threshold = Ret shares ->
  length shares = Z.to_nat parts /\
  forall ss is, selection (Z.to_nat parts) (Z.to_nat threshold) is -> somes ss = pick [] shares is ->
    krCombine E zp rd ss parts threshold = Ret secret.
Proof. exact C40_randomizer_combine_pf. Qed.
Print Assumptions C40_randomizer_combine.

(** C40: the error contract of krawczyk.SplitWithRandomizer is the same as that of krawczyk.Split. *)
Theorem C40_errors : forall fuel E zp ar growcap ks polB trB evBufs secret parts threshold e,
  grow_ok growcap ->
  (krSplitWithRandomizer fuel E zp ar growcap ks polB trB evBufs secret parts threshold = Fail e <-> kr_arg_error zp secret parts threshold e).
Proof. exact C40_errors_pf. Qed.
Print Assumptions C40_errors.

(** C40: the shares of krawczyk.SplitWithRandomizer have the same layout as those of krawczyk.Split, the key being the first 16
    bytes of the key stream. *)
Theorem C40_shape : forall fuel E zp ar growcap ks polB trB evBufs secret parts threshold shares,
  grow_ok growcap ->
  krSplitWithRandomizer fuel E zp ar growcap ks polB trB evBufs secret parts threshold = Ret shares ->
  let n := Z.to_nat parts in let t := Z.to_nat threshold in let len := ceil_div (length secret) t in
  let key := map ks (seq 0 16) in
  length shares = n /\
  (forall i, i < n -> length (nth i shares []) = len + 22 /\ tag (nth i shares []) = i2b i) /\
  (exists polys, is_sharing (key ++ le32 (N.of_nat (length secret))) t polys (map (fun s => tag (kr_meta s)) shares) (map kr_meta shares)) /\
  rs_codeword t n len (fun i => kr_piece (nth i shares [])) /\
  exists c, ofb_cipher E key secret c /\
    concat (map kr_piece (firstn t shares)) = c ++ repeat x00 (t * len - length secret).
Proof. exact C40_shape_pf. Qed.
Print Assumptions C40_shape.

(** a run with AES and a randomizer: 41 bytes, 3 of 5, shares 4, 0, 2 given with a nil *)
Example C40_run :
  match krSplitWithRandomizer 3 AES true ex_ar growcap117 ex_stream ex_stale ex_stale ex_ev ex_long 5 3 with
  | Ret sh => krCombine AES true (fun _ => 512) [Some (nth 4 sh []); Some (nth 0 sh []); None; Some (nth 2 sh [])] 5 3 = Ret ex_long
  | _ => False
  end.
Proof. vm_compute. reflexivity. Qed.

(** C38: with fewer than 20 parts and distinct leading key stream bytes, byte [i] of the AES key is the tag of metadata share [i]
    minus one. *)
Theorem C38_key_published : forall fuel E zp ar growcap ks polB trB evBufs secret parts threshold shares,
  grow_ok growcap -> (parts < 20)%Z -> NoDup (map ks (seq 0 (Z.to_nat parts))) ->
  krSplitWithRandomizer fuel E zp ar growcap ks polB trB evBufs secret parts threshold = Ret shares ->
  exists key ciphertext, length key = 16 /\ ofb_cipher E key secret ciphertext /\
    (forall i, i < Z.to_nat threshold -> kr_piece (nth i shares []) = padded_piece (Z.to_nat threshold) i ciphertext) /\
    forall i, i < Z.to_nat parts -> i < 16 -> nth i key x00 = bsub (tag (kr_meta (nth i shares []))) x01.
Proof. exact C38_key_published_pf. Qed.
Print Assumptions C38_key_published.

(** C38: 16 shares, though fewer than [threshold], decrypt the part of the secret they carry. *)
Theorem C38_sixteen_decrypt : forall fuel E zp rd ar growcap ks polB trB evBufs secret parts threshold shares,
  (forall i, 0 < rd i) -> grow_ok growcap -> (parts < 20)%Z -> (16 < threshold)%Z -> NoDup (map ks (seq 0 (Z.to_nat parts))) ->
  krSplitWithRandomizer fuel E zp ar growcap ks polB trB evBufs secret parts threshold = Ret shares ->
  let coalition16 := firstn 16 shares in
  let key := map (fun s => bsub (tag (kr_meta s)) x01) coalition16 in
  length coalition16 = 16 /\
  exists plain, decrypt E rd (concat (map kr_piece coalition16)) key = Ret plain /\
    firstn (length secret) plain = firstn (16 * ceil_div (length secret) (Z.to_nat threshold)) secret.
Proof. exact C38_sixteen_decrypt_pf. Qed.
Print Assumptions C38_sixteen_decrypt.

(** 16 of 19 shares with threshold 18, AES: all of the secret's pieces carried by shares 0..15 are recovered *)
Example C38_run :
  NoDup (map ex_stream (seq 0 19)) /\
  match krSplitWithRandomizer 3 AES true ex_ar growcap117 ex_stream ex_stale ex_stale ex_ev ex_long 19 18 with
  | Ret sh => match decrypt AES (fun _ => 512) (concat (map kr_piece (firstn 16 sh))) (map (fun s => bsub (tag (kr_meta s)) x01) (firstn 16 sh)) with
              | Ret plain => firstn 41 plain = ex_long
              | _ => False end
  | _ => False
  end.
Proof. split; [|vm_compute; reflexivity]. assert (H : map ex_stream (seq 0 19) = nodup byte_eq_dec (map ex_stream (seq 0 19))) by (vm_compute; reflexivity). rewrite H. apply NoDup_nodup. Qed.

(** C39: two secrets of equal length split with the same randomizer: the XOR of the data parts is the XOR of the pieces. *)
Theorem C39_two_time_pad : forall fuel fuel' E zp ar ar' growcap growcap' ks polB polB' trB trB' evBufs evBufs' s s' parts parts' threshold shares shares' i,
  grow_ok growcap -> grow_ok growcap' -> length s = length s' -> i < Z.to_nat threshold ->
  krSplitWithRandomizer fuel E zp ar growcap ks polB trB evBufs s parts threshold = Ret shares ->
  krSplitWithRandomizer fuel' E zp ar' growcap' ks polB' trB' evBufs' s' parts' threshold = Ret shares' ->
  xor_bytes (kr_piece (nth i shares [])) (kr_piece (nth i shares' [])) =
  xor_bytes (padded_piece (Z.to_nat threshold) i s) (padded_piece (Z.to_nat threshold) i s').
Proof. exact C39_two_time_pad_pf. Qed.
Print Assumptions C39_two_time_pad.

Example C39_run :
  match krSplitWithRandomizer 3 AES true ex_ar growcap117 ex_stream [] ex_stale ex_ev ex_long 5 3,
        krSplitWithRandomizer 3 AES true ex_ar growcap117 ex_stream ex_stale [] ex_ev (repeat x00 41) 5 3 with
  | Ret sh, Ret sh' => xor_bytes (kr_piece (nth 1 sh [])) (kr_piece (nth 1 sh' [])) = padded_piece 3 1 ex_long
  | _, _ => False
  end.
Proof. vm_compute. reflexivity. Qed.

(** C41: encrypt and decrypt are inverse, for every block function and every read size. *)
Theorem C41_encrypt_decrypt : forall E rd m key, (forall i, 0 < rd i) ->
  (length key = 16 \/ length key = 24 \/ length key = 32 ->
     exists c, encrypt E m key = Ret c /\ length c = length m /\ decrypt E rd c key = Ret m) /\
  (~ (length key = 16 \/ length key = 24 \/ length key = 32) ->
     encrypt E m key = Fail EKeySize /\ decrypt E rd m key = Fail EKeySize).
Proof. exact C41_encrypt_decrypt_pf. Qed.
Print Assumptions C41_encrypt_decrypt.

(** C41: what encrypt computes: OFB with an all-zero IV. *)
Theorem C41_ofb : forall E m key c, length key = 16 \/ length key = 24 \/ length key = 32 ->
  (encrypt E m key = Ret c <-> ofb_cipher E key m c).
Proof. exact C41_ofb_pf. Qed.
Print Assumptions C41_ofb.

(** C41: encryption acts on prefixes, and is linear: same key, same mask. *)
Theorem C41_prefix : forall E m m' key c c', encrypt E m key = Ret c -> encrypt E m' key = Ret c' ->
  (forall n, encrypt E (firstn n m) key = Ret (firstn n c)) /\
  (length m = length m' -> xor_bytes c c' = xor_bytes m m').
Proof. exact C41_prefix_pf. Qed.
Print Assumptions C41_prefix.

Example C41_run : exists c,
  encrypt AES (repeat x00 20) (repeat x01 16) = Ret c /\ decrypt AES (fun i => S i) c (repeat x01 16) = Ret (repeat x00 20) /\ c <> repeat x00 20 /\
  encrypt AES [x00] (repeat x01 15) = Fail EKeySize.
Proof. eexists. split; [vm_compute; reflexivity|]. split; [vm_compute; reflexivity|]. split; [discriminate|reflexivity]. Qed.
