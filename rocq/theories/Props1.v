(** Theorems: the properties of Split, SplitGeneric and Combine (C01-C11, C48).
    Generated from Pf1.v by tools/genprops.py: every theorem is proved there as the lemma of the same name with suffix _pf. *)
From Coq Require Import List NArith ZArith Lia Arith Bool Permutation.
From Coq.Init Require Import Byte.
From Verif Require Import GoSem Bytes Spec Vector Csprng Pool Polynomial Shamir SplitP ExData Pf1.
Import ListNotations.

(** C01: Split followed by Combine on at least [threshold] of the shares, in any order, gives back the secret; for every
    architecture, every allocation policy, every random permutation and stream, and all stale pool buffers. *)
Theorem C01_split_combine : forall ar growcap perm stream polB trB evBufs secret parts threshold,
  grow_ok growcap -> Permutation perm (seq 0 255) -> valid_args secret parts threshold ->
  exists shares,
    Split ar growcap perm stream polB trB evBufs secret parts threshold = Ret shares /\
    length shares = Z.to_nat parts /\
    forall is, selection (Z.to_nat parts) (Z.to_nat threshold) is -> Combine (pick [] shares is) = Ret secret.
Proof. exact C01_split_combine_pf. Qed.
Print Assumptions C01_split_combine.

(** a run: shares 4, 0, 2 of a 3-of-5 split of "hello" *)
Example C01_run : exists shares,
  Split ex_ar growcap117 ex_perm ex_stream ex_stale ex_stale ex_ev ex_secret 5 3 = Ret shares /\
  selection 5 3 [4; 0; 2] /\ Combine (pick [] shares [4; 0; 2]) = Ret ex_secret /\
  Combine (pick [] shares [4; 0]) <> Ret ex_secret.
Proof.
  eexists. split; [vm_compute; reflexivity|]. split.
  - split; [repeat constructor; cbn; intuition lia|]. split; [cbn; intuition lia|cbn; lia].
  - split; [vm_compute; reflexivity|vm_compute; discriminate].
Qed.

(** C02: the shape of Split's shares, and which random byte every coefficient is. *)
Theorem C02_split_shape : forall ar growcap perm stream polB trB evBufs secret parts threshold shares,
  grow_ok growcap -> Permutation perm (seq 0 255) ->
  Split ar growcap perm stream polB trB evBufs secret parts threshold = Ret shares ->
  length shares = Z.to_nat parts /\
  (forall s, In s shares -> length s = length secret + 1) /\
  NoDup (map tag shares) /\ ~ In x00 (map tag shares) /\
  (forall i, i < Z.to_nat parts -> b2i (tag (nth i shares [])) = nth i perm 0 + 1) /\
  exists polys, is_sharing secret (Z.to_nat threshold) polys (map tag shares) shares /\
    forall p c, p < length secret -> 1 <= c < Z.to_nat threshold ->
      nth c (nth p polys []) x00 = stream (Z.to_nat threshold * p + c).
Proof. exact C02_split_shape_pf. Qed.
Print Assumptions C02_split_shape.

(** the shape of a 3-of-5 split of "hello": 5 shares of 6 bytes, tags 1..5 (the permutation is the identity); byte 0 of share 3 is the value at 4 of
    0x68 + s1*x + s2*x^2, where s1, s2 are bytes 1 and 2 of the stream *)
Example C02_case : exists shares,
  Split ex_ar growcap117 ex_perm ex_stream ex_stale ex_stale ex_ev ex_secret 5 3 = Ret shares /\
  map tag shares = [x01; x02; x03; x04; x05] /\ map (@length byte) shares = [6; 6; 6; 6; 6] /\
  nth 0 (nth 3 shares []) x00 = peval [x68; ex_stream 1; ex_stream 2] x04.
Proof. eexists. split; [vm_compute; reflexivity|]. repeat split; vm_compute; reflexivity. Qed.

(** C03: each split function reports exactly the documented argument errors. *)
Theorem C03_split_errors : forall ar growcap perm stream polB trB evBufs secret parts threshold e,
  grow_ok growcap -> Permutation perm (seq 0 255) ->
  (Split ar growcap perm stream polB trB evBufs secret parts threshold = Fail e <-> arg_error secret parts threshold e).
Proof. exact C03_split_errors_pf. Qed.
Print Assumptions C03_split_errors.

Theorem C03_splitgeneric_errors : forall perm stream secret parts threshold e,
  Permutation perm (seq 0 255) ->
  (SplitGeneric perm stream secret parts threshold = Fail e <-> arg_error secret parts threshold e).
Proof. exact C03_splitgeneric_errors_pf. Qed.
Print Assumptions C03_splitgeneric_errors.

Theorem C03_splitp_errors : forall perm stream secret parts threshold e,
  Permutation perm (seq 0 255) ->
  (arg_error secret parts threshold e <-> exists sched, SplitP perm stream secret parts threshold sched (Fail e)) /\
  (arg_error secret parts threshold e -> forall sched o, SplitP perm stream secret parts threshold sched o -> o = Fail e).
Proof. exact C03_splitp_errors_pf. Qed.
Print Assumptions C03_splitp_errors.

Theorem C03_splitwithrandomizer_errors : forall fuel ar growcap ks polB trB evBufs secret parts threshold e,
  grow_ok growcap ->
  (SplitWithRandomizer fuel ar growcap ks polB trB evBufs secret parts threshold = Fail e <-> arg_error secret parts threshold e).
Proof. exact C03_splitwithrandomizer_errors_pf. Qed.
Print Assumptions C03_splitwithrandomizer_errors.

Theorem C03_splitwithrandomizerold_errors : forall ar growcap ks evBufs secret parts threshold e,
  grow_ok growcap ->
  (SplitWithRandomizerOld ar growcap ks evBufs secret parts threshold = Fail e <-> arg_error secret parts threshold e).
Proof. exact C03_splitwithrandomizerold_errors_pf. Qed.
Print Assumptions C03_splitwithrandomizerold_errors.

(** C03: the arguments are in error exactly when they are not valid. *)
Theorem C03_errors_iff_invalid : forall secret parts threshold,
  (exists e, arg_error secret parts threshold e) <-> ~ valid_args secret parts threshold.
Proof. exact C03_errors_iff_invalid_pf. Qed.
Print Assumptions C03_errors_iff_invalid.

Example C03_errors : arg_error [] 5 3 EEmptySecret /\ arg_error [x01] 2 3 EPartsLtThreshold /\ arg_error [x01] 256 3 EPartsTooMany /\ arg_error [x01] 3 1 EThresholdSmall.
Proof. unfold arg_error. intuition lia. Qed.

(** C04: perfect secrecy of Split. For every coalition of fewer than [threshold] shares and every possible [view], the number of
    coefficient buffers (out of all of them) that make these shares look like [view] is the same for any two secrets of the same length. *)
Theorem C04_secrecy : forall ar growcap perm polB trB evBufs s s' parts threshold is view,
  grow_ok growcap -> Permutation perm (seq 0 255) -> valid_args s parts threshold -> length s = length s' ->
  coalition (Z.to_nat parts) (Z.to_nat threshold) is ->
  let buffers := all_strings (Z.to_nat threshold * length s) in
  count (fun r => observes (Split ar growcap perm (stream_of r) polB trB evBufs s parts threshold) is view) buffers =
  count (fun r => observes (Split ar growcap perm (stream_of r) polB trB evBufs s' parts threshold) is view) buffers.
Proof. exact C04_secrecy_pf. Qed.
Print Assumptions C04_secrecy.

(** C04, exact form: a view with the right tags and lengths is shown by exactly 256^((t-k)*N) of the 256^(t*N) buffers,
    whatever the secret; any other view by none. *)
Theorem C04_exact : forall ar growcap perm polB trB evBufs s parts threshold is view,
  grow_ok growcap -> Permutation perm (seq 0 255) -> valid_args s parts threshold ->
  coalition (Z.to_nat parts) (Z.to_nat threshold) is ->
  let hits := count (fun r => observes (Split ar growcap perm (stream_of r) polB trB evBufs s parts threshold) is view)
                    (all_strings (Z.to_nat threshold * length s)) in
  (is_view (length s) (map (fun i => i2b (nth i perm 0 + 1)) is) view ->
     hits = 256 ^ ((Z.to_nat threshold - length is) * length s)) /\
  (~ is_view (length s) (map (fun i => i2b (nth i perm 0 + 1)) is) view -> hits = 0).
Proof. exact C04_exact_pf. Qed.
Print Assumptions C04_exact.

Example C04_case : coalition 5 3 [4; 1] /\
  is_view (length ex_secret) (map (fun i => i2b (nth i ex_perm 0 + 1)) [4; 1])
    [[x01; x02; x03; x04; x05; x05]; [x00; x00; x00; x00; x00; x02]].
Proof.
  split; [split; [repeat constructor; cbn; intuition lia|split; [cbn; intuition lia|cbn; lia]]|].
  split; [reflexivity|]. intros [|[|i]] Hi; cbn in *; [split; reflexivity|split; reflexivity|lia].
Qed.

(** C05: Combine is total and its error contract is exact. *)
Theorem C05_combine_contract : forall parts,
  (Combine parts = Fail ETooFewParts <-> length parts < 2) /\
  (Combine parts = Fail EPartsTooShort <-> 2 <= length parts /\ length (nth 0 parts []) < 2) /\
  (Combine parts = Fail EPartsLength <->
     2 <= length parts /\ 2 <= length (nth 0 parts []) /\ exists p, In p parts /\ length p <> length (nth 0 parts [])) /\
  (Combine parts = Fail EDuplicatePart <->
     2 <= length parts /\ 2 <= length (nth 0 parts []) /\ (forall p, In p parts -> length p = length (nth 0 parts [])) /\ ~ NoDup (map tag parts)) /\
  ((exists r, Combine parts = Ret r /\ length r = length (nth 0 parts []) - 1) <-> acceptable parts) /\
  ((exists e, Combine parts = Fail e) \/ (exists r, Combine parts = Ret r)).
Proof. exact C05_combine_contract_pf. Qed.
Print Assumptions C05_combine_contract.

Example C05_cases : acceptable [[x05; x01]; [x06; x02]] /\ Combine [[x05; x01]; [x06; x02]] = Ret [x04] /\
  Combine [[x05; x01]; [x06; x01]] = Fail EDuplicatePart /\ Combine [[x05; x01]; [x01]] = Fail EPartsLength /\
  Combine [[x01]; [x01]] = Fail EPartsTooShort.
Proof.
  split; [|repeat split; vm_compute; reflexivity]. split; [cbn; lia|]. split; [cbn; lia|]. split; [intros p [<-|[<-|[]]]; reflexivity|].
  repeat constructor; cbn; intuition discriminate.
Qed.

(** C06: the order of the parts does not matter. *)
Theorem C06_combine_order : forall parts parts', Permutation parts parts' ->
  (forall r, Combine parts = Ret r -> Combine parts' = Ret r) /\
  (forall e, Combine parts = Fail e -> exists e', Combine parts' = Fail e').
Proof. exact C06_combine_order_pf. Qed.
Print Assumptions C06_combine_order.

Example C06_case : Permutation [[x05; x01]; [x06; x02]; [x11; x07]] [[x11; x07]; [x05; x01]; [x06; x02]] /\
  exists r, Combine [[x05; x01]; [x06; x02]; [x11; x07]] = Ret r /\ Combine [[x11; x07]; [x05; x01]; [x06; x02]] = Ret r.
Proof.
  split; [|eexists; split; vm_compute; reflexivity].
  apply Permutation_trans with ([[x05; x01]; [x11; x07]; [x06; x02]]); [apply perm_skip, perm_swap|apply perm_swap].
Qed.
(** which error is reported does depend on the order *)
Example C06_error_differs : Combine [[x05; x01]; [x06]] = Fail EPartsLength /\ Combine [[x06]; [x05; x01]] = Fail EPartsTooShort.
Proof. split; vm_compute; reflexivity. Qed.

(** C07: Combine interpolates: byte [i] of the result is the value at 0 of the only polynomial with k coefficients through the
    points (tag, byte i) of the k parts. *)
Theorem C07_combine_interpolates : forall parts r i, Combine parts = Ret r -> i < length r ->
  exists f, length f = length parts /\ (forall p, In p parts -> peval f (tag p) = nth i p x00) /\
    nth i r x00 = peval f x00 /\
    forall g, length g = length parts -> (forall p, In p parts -> peval g (tag p) = nth i p x00) -> g = f.
Proof. exact C07_combine_interpolates_pf. Qed.
Print Assumptions C07_combine_interpolates.

(** the polynomial 4 + x goes through (1,5) and (2,6) *)
Example C07_case : Combine [[x05; x01]; [x06; x02]] = Ret [x04] /\ 0 < length [x04] /\
  peval [x04; x01] (tag [x05; x01]) = nth 0 [x05; x01] x00 /\ peval [x04; x01] (tag [x06; x02]) = nth 0 [x06; x02] x00 /\
  peval [x04; x01] x00 = x04.
Proof. repeat split; vm_compute; reflexivity. Qed.

(** C08: one changed data byte of one part changes the result exactly at that position. *)
Theorem C08_corruption_visible : forall parts r i j v,
  Combine parts = Ret r -> ~ In x00 (map tag parts) -> i < length parts -> j < length r ->
  v <> nth j (nth i parts []) x00 ->
  exists r', Combine (replace parts i (replace (nth i parts []) j v)) = Ret r' /\
    nth j r' x00 <> nth j r x00 /\ length r' = length r /\
    forall k, k <> j -> nth k r' x00 = nth k r x00.
Proof. exact C08_corruption_visible_pf. Qed.
Print Assumptions C08_corruption_visible.

Example C08_case : exists r, Combine [[x05; x09; x01]; [x06; x09; x02]] = Ret r /\ 1 < length r /\ x10 <> nth 1 (nth 0 [[x05; x09; x01]; [x06; x09; x02]] []) x00 /\
  ~ In x00 (map tag [[x05; x09; x01]; [x06; x09; x02]]).
Proof. eexists. split; [vm_compute; reflexivity|]. repeat split; [cbn; lia|cbn; discriminate|cbn; intuition discriminate]. Qed.

(** C09: Combine is linear. *)
Theorem C09_combine_linear : forall a b ra rb, map tag a = map tag b -> Combine a = Ret ra -> Combine b = Ret rb ->
  length ra = length rb -> Combine (xor_shares a b) = Ret (xor_bytes ra rb).
Proof. exact C09_combine_linear_pf. Qed.
Print Assumptions C09_combine_linear.

Example C09_case : Combine [[x05; x01]; [x06; x02]] = Ret [x04] /\ Combine [[x15; x01]; [x07; x02]] = Ret [x1b] /\
  Combine (xor_shares [[x05; x01]; [x06; x02]] [[x15; x01]; [x07; x02]]) = Ret [x1f].
Proof. repeat split; vm_compute; reflexivity. Qed.

(** C10: too few shares: Combine returns no error, and its result has the same distribution for every secret. *)
Theorem C10_too_few_shares : forall ar growcap perm polB trB evBufs s s' parts threshold is,
  grow_ok growcap -> Permutation perm (seq 0 255) -> valid_args s parts threshold -> length s = length s' ->
  coalition (Z.to_nat parts) (Z.to_nat threshold) is -> 2 <= length is ->
  (forall stream, exists shares v, Split ar growcap perm stream polB trB evBufs s parts threshold = Ret shares /\
     Combine (pick [] shares is) = Ret v /\ length v = length s) /\
  forall v, let combines_to o := match o with
                | Ret shares => match Combine (pick [] shares is) with Ret w => shares_eqb [w] [v] | _ => false end
                | _ => false end in
    let buffers := all_strings (Z.to_nat threshold * length s) in
    count (fun r => combines_to (Split ar growcap perm (stream_of r) polB trB evBufs s parts threshold)) buffers =
    count (fun r => combines_to (Split ar growcap perm (stream_of r) polB trB evBufs s' parts threshold)) buffers.
Proof. exact C10_too_few_shares_pf. Qed.
Print Assumptions C10_too_few_shares.

(** two shares of a 3-of-5 split of "hello" combine, without error, to something else *)
Example C10_case : coalition 5 3 [4; 1] /\ 2 <= length [4; 1] /\ exists shares v,
  Split ex_ar growcap117 ex_perm ex_stream ex_stale ex_stale ex_ev ex_secret 5 3 = Ret shares /\
  Combine (pick [] shares [4; 1]) = Ret v /\ length v = 5 /\ v <> ex_secret.
Proof.
  split; [split; [repeat constructor; cbn; intuition lia|split; [cbn; intuition lia|cbn; lia]]|]. split; [cbn; lia|].
  eexists _, _. split; [vm_compute; reflexivity|]. split; [vm_compute; reflexivity|]. split; [reflexivity|vm_compute; discriminate].
Qed.

(** C11: SplitGeneric: round trip, agreement with Split on every architecture, secrecy. *)
Theorem C11_generic_combine : forall perm stream secret parts threshold,
  Permutation perm (seq 0 255) -> valid_args secret parts threshold ->
  exists shares,
    SplitGeneric perm stream secret parts threshold = Ret shares /\
    length shares = Z.to_nat parts /\
    forall is, selection (Z.to_nat parts) (Z.to_nat threshold) is -> Combine (pick [] shares is) = Ret secret.
Proof. exact C11_generic_combine_pf. Qed.
Print Assumptions C11_generic_combine.

Theorem C11_generic_agrees : forall ar growcap perm streamS streamG polB trB evBufs secret parts threshold,
  grow_ok growcap -> Permutation perm (seq 0 255) -> valid_args secret parts threshold ->
  (forall p c, p < length secret -> 1 <= c < Z.to_nat threshold ->
     streamS (Z.to_nat threshold * p + c) = streamG ((Z.to_nat threshold - 1) * p + (c - 1))) ->
  Split ar growcap perm streamS polB trB evBufs secret parts threshold = SplitGeneric perm streamG secret parts threshold.
Proof. exact C11_generic_agrees_pf. Qed.
Print Assumptions C11_generic_agrees.

Theorem C11_generic_secrecy : forall perm s s' parts threshold is view,
  Permutation perm (seq 0 255) -> valid_args s parts threshold -> length s = length s' ->
  coalition (Z.to_nat parts) (Z.to_nat threshold) is ->
  let buffers := all_strings ((Z.to_nat threshold - 1) * length s) in
  count (fun r => observes (SplitGeneric perm (stream_of r) s parts threshold) is view) buffers =
  count (fun r => observes (SplitGeneric perm (stream_of r) s' parts threshold) is view) buffers.
Proof. exact C11_generic_secrecy_pf. Qed.
Print Assumptions C11_generic_secrecy.

(** the same split with both functions: SplitGeneric draws two bytes per polynomial, Split three, of which it ignores the first *)
Example C11_case : exists shares,
  SplitGeneric ex_perm (fun i => ex_stream (3 * (i / 2) + i mod 2 + 1)) ex_secret 5 3 = Ret shares /\
  Split ex_ar growcap117 ex_perm ex_stream ex_stale ex_stale ex_ev ex_secret 5 3 = Ret shares /\
  Combine (pick [] shares [4; 0; 2]) = Ret ex_secret.
Proof. eexists. split; [vm_compute; reflexivity|]. split; vm_compute; reflexivity. Qed.

(** C48: the two transposition helpers transpose. *)
Theorem C48_transpose_buffer : forall dest source rowLen colLen, 0 < rowLen ->
  length source = rowLen * colLen -> length dest = length source ->
  exists o, transposeMatrixBuffer dest source rowLen = Ret o /\ length o = length source /\
    (forall i j, i < rowLen -> j < colLen -> nth (colLen * i + j) o x00 = nth (rowLen * j + i) source x00) /\
    (0 < colLen -> forall dest', length dest' = length source -> transposeMatrixBuffer dest' o colLen = Ret source).
Proof. exact C48_transpose_buffer_pf. Qed.
Print Assumptions C48_transpose_buffer.

Theorem C48_transpose : forall m xl, m <> [] -> (forall j, j < length m -> length (nth j m []) = xl) ->
  exists r, transpose m = Ret r /\ length r = xl /\
    (forall i, i < xl -> length (nth i r []) = length m /\ forall j, j < length m -> nth j (nth i r []) x00 = nth i (nth j m []) x00) /\
    (0 < xl -> transpose r = Ret m).
Proof. exact C48_transpose_pf. Qed.
Print Assumptions C48_transpose.

Example C48_case : transposeMatrixBuffer [x00; x00; x00; x00; x00; x00] [x01; x02; x03; x04; x05; x06] 3 = Ret [x01; x04; x02; x05; x03; x06].
Proof. vm_compute. reflexivity. Qed.
