(** Proofs of the properties of Split, SplitGeneric and Combine (C01-C11, C48). *)
From Coq Require Import List NArith ZArith Lia Arith Bool Permutation.
From Coq.Init Require Import Byte.
From Verif Require Import GoSem Bytes Spec Galois GF PolyFacts GoFacts VectorFacts Vector Csprng Pool Polynomial PolynomialFacts Shamir SplitFacts
  CombineFacts Secrecy CsprngFacts Derived CountFacts RegenFacts RandomizerFacts SplitP SplitPTop.
Import ListNotations.

(*PROPS
From Coq Require Import List NArith ZArith Lia Arith Bool Permutation.
From Coq.Init Require Import Byte.
From Verif Require Import GoSem Bytes Spec Vector Csprng Pool Polynomial Shamir SplitP ExData Pf1.
Import ListNotations.
*)

(** C01: Split followed by Combine on at least [threshold] of the shares, in any order, gives back the secret; for every
    architecture, every allocation policy, every random permutation and stream, and all stale pool buffers. *)
Lemma C01_split_combine_pf : forall ar growcap perm stream polB trB evBufs secret parts threshold,
  grow_ok growcap -> Permutation perm (seq 0 255) -> valid_args secret parts threshold ->
  exists shares,
    Split ar growcap perm stream polB trB evBufs secret parts threshold = Ret shares /\
    length shares = Z.to_nat parts /\
    forall is, selection (Z.to_nat parts) (Z.to_nat threshold) is -> Combine (pick [] shares is) = Ret secret.
Proof.
  intros ar growcap perm stream polB trB evBufs secret parts threshold G P V.
  destruct (Split_sharing ar growcap perm stream polB trB evBufs secret parts threshold G P V) as (shares & polys & tags & E & S & L & _).
  exists shares. split; [exact E|]. split; [exact L|]. intros is Hs. destruct V as (Hn & H2 & _).
  apply (Combine_is_sharing secret (Z.to_nat threshold) polys tags); [lia|exact Hn|exact S|rewrite L; exact Hs].
Qed.

(*COPY
(** a run: shares 4, 0, 2 of a 3-of-5 split of "hello" *)
Example C01_run : exists shares,
  Split ex_ar growcap117 ex_perm ex_stream ex_stale ex_stale ex_ev ex_secret 5 3 = Ret shares /\
  selection 5 3 [4; 0; 2] /\ Combine (pick [] shares [4; 0; 2]) = Ret ex_secret /\
  Combine (pick [] shares [4; 0]) <> Ret ex_secret.
Proof.
  eexists. split; [vm_compute; reflexivity|]. split.
  - split; [repeat constructor; cbn; intuition lia|]. split; [cbn; intuition lia|cbn; lia].
  - split; [vm_compute; reflexivity|vm_compute; discriminate].
Qed.
END*)

(** C02: the shape of Split's shares, and which random byte every coefficient is. *)
Lemma C02_split_shape_pf : forall ar growcap perm stream polB trB evBufs secret parts threshold shares,
  grow_ok growcap -> Permutation perm (seq 0 255) ->
  Split ar growcap perm stream polB trB evBufs secret parts threshold = Ret shares ->
  length shares = Z.to_nat parts /\
  (forall s, In s shares -> length s = length secret + 1) /\
  NoDup (map tag shares) /\ ~ In x00 (map tag shares) /\
  (forall i, i < Z.to_nat parts -> b2i (tag (nth i shares [])) = nth i perm 0 + 1) /\
  exists polys, is_sharing secret (Z.to_nat threshold) polys (map tag shares) shares /\
    forall p c, p < length secret -> 1 <= c < Z.to_nat threshold ->
      nth c (nth p polys []) x00 = stream (Z.to_nat threshold * p + c).
Proof.
  intros ar growcap perm stream polB trB evBufs secret parts threshold shares G P E.
  assert (V : valid_args secret parts threshold).
  { apply valid_checkArgs. unfold Split, SplitBufs in E. destruct (checkArgs secret parts threshold); [discriminate|reflexivity]. }
  destruct (Split_sharing ar growcap perm stream polB trB evBufs secret parts threshold G P V) as (sh & polys & tags & E' & S & L & Z0 & Lt & T & C).
  rewrite E in E'. injection E' as <-. destruct S as (S1 & S2 & S3 & S4).
  assert (Mt : map tag shares = tags) by (rewrite S4; apply map_tag_shares).
  assert (Lp : length polys = length secret) by (rewrite <- S1, map_length; reflexivity).
  rewrite Mt. split; [exact L|]. split.
  { intros s Hs. rewrite S4 in Hs. apply in_map_iff in Hs as (x & <- & _). rewrite share_at_length, Lp. reflexivity. }
  split; [exact S3|]. split; [exact Z0|]. split.
  - intros i Hi. rewrite S4. rewrite (nth_map' (share_at polys) tags i [] x00) by lia. rewrite tag_share_at, T by exact Hi. lia.
  - exists polys. split; [repeat split; assumption|exact C].
Qed.

(*COPY
(** the shape of a 3-of-5 split of "hello": 5 shares of 6 bytes, tags 1..5 (the permutation is the identity); byte 0 of share 3 is the value at 4 of
    0x68 + s1*x + s2*x^2, where s1, s2 are bytes 1 and 2 of the stream *)
Example C02_case : exists shares,
  Split ex_ar growcap117 ex_perm ex_stream ex_stale ex_stale ex_ev ex_secret 5 3 = Ret shares /\
  map tag shares = [x01; x02; x03; x04; x05] /\ map (@length byte) shares = [6; 6; 6; 6; 6] /\
  nth 0 (nth 3 shares []) x00 = peval [x68; ex_stream 1; ex_stream 2] x04.
Proof. eexists. split; [vm_compute; reflexivity|]. repeat split; vm_compute; reflexivity. Qed.
END*)

(** C03: each split function reports exactly the documented argument errors. *)
Lemma C03_split_errors_pf : forall ar growcap perm stream polB trB evBufs secret parts threshold e,
  grow_ok growcap -> Permutation perm (seq 0 255) ->
  (Split ar growcap perm stream polB trB evBufs secret parts threshold = Fail e <-> arg_error secret parts threshold e).
Proof.
  intros ar growcap perm stream polB trB evBufs secret parts threshold e G P. split.
  - intros E. destruct (checkArgs secret parts threshold) as [e'|] eqn:Ec.
    + unfold Split, SplitBufs in E. rewrite Ec in E. cbn in E. injection E as <-. apply checkArgs_Some. exact Ec.
    + apply valid_checkArgs in Ec. destruct (Split_sharing ar growcap perm stream polB trB evBufs secret parts threshold G P Ec) as (sh & _ & _ & E' & _).
      congruence.
  - intros A. apply checkArgs_Some in A. unfold Split, SplitBufs. rewrite A. reflexivity.
Qed.

Lemma C03_splitgeneric_errors_pf : forall perm stream secret parts threshold e,
  Permutation perm (seq 0 255) ->
  (SplitGeneric perm stream secret parts threshold = Fail e <-> arg_error secret parts threshold e).
Proof.
  intros perm stream secret parts threshold e P. split.
  - intros E. destruct (checkArgs secret parts threshold) as [e'|] eqn:Ec.
    + unfold SplitGeneric in E. rewrite Ec in E. injection E as <-. apply checkArgs_Some. exact Ec.
    + apply valid_checkArgs in Ec. destruct (SplitGeneric_sharing perm stream secret parts threshold P Ec) as (sh & _ & _ & E' & _). congruence.
  - intros A. apply checkArgs_Some in A. unfold SplitGeneric. rewrite A. reflexivity.
Qed.

Lemma C03_splitp_errors_pf : forall perm stream secret parts threshold e,
  Permutation perm (seq 0 255) ->
  (arg_error secret parts threshold e <-> exists sched, SplitP perm stream secret parts threshold sched (Fail e)) /\
  (arg_error secret parts threshold e -> forall sched o, SplitP perm stream secret parts threshold sched o -> o = Fail e).
Proof.
  intros perm stream secret parts threshold e P. split; [split|].
  - intros A. exists []. constructor. apply checkArgs_Some. exact A.
  - intros (sched & H). inversion H; subst. apply checkArgs_Some. assumption.
  - intros A sched o H. apply checkArgs_Some in A. inversion H; subst; congruence.
Qed.

Lemma GetUniqueBytes_nofail fuel ks n e : GetUniqueBytes fuel ks n <> Fail e.
Proof.
  unfold GetUniqueBytes. destruct (20 <=? b2n n)%N eqn:E.
  - assert (Hn : 20 <= b2i n) by (apply N.leb_le in E; unfold b2i; lia).
    destruct (byte_eq_dec (ks 0) xfe) as [F|F]; [rewrite Perm255_panic by exact F; discriminate|].
    destruct (Perm255_ok ks F) as (p & -> & Lp & _). cbn [bind]. rewrite slice_ok; [discriminate|lia|]. rewrite Lp. pose proof (b2n_lt n). unfold b2i. lia.
  - assert (U : forall f seen b e', uniqueAt f ks seen b <> Fail e').
    { induction f as [|f IH]; intros seen b e'; cbn [uniqueAt]; destruct (mem b seen); try discriminate.
      destruct (Read ks [b]); [discriminate|apply IH]. }
    assert (FE : forall l st, foreach l (uniqStep fuel ks) st <> Fail e).
    { induction l as [|i l IH]; intros st; cbn [foreach]; [discriminate|]. unfold uniqStep at 1. destruct st as [buff seen].
      unfold idx. destruct (nth_error buff i); cbn [bind]; [|discriminate]. specialize (U fuel seen b).
      destruct (uniqueAt fuel ks seen b); cbn [bind]; try discriminate; [|intros F; injection F as ->; exact (U e eq_refl)].
      unfold upd. destruct (i <? length buff); cbn [bind]; [apply IH|discriminate]. }
    specialize (FE (seq 0 (b2i n)) (Read ks (zeros (b2i n)), [])). unfold uniqStep in FE.
    destruct (foreach _ _ _) as [[b s]| | | |]; cbn [bind]; congruence.
Qed.

Lemma C03_splitwithrandomizer_errors_pf : forall fuel ar growcap ks polB trB evBufs secret parts threshold e,
  grow_ok growcap ->
  (SplitWithRandomizer fuel ar growcap ks polB trB evBufs secret parts threshold = Fail e <-> arg_error secret parts threshold e).
Proof.
  intros fuel ar growcap ks polB trB evBufs secret parts threshold e G. split.
  - intros E. destruct (checkArgs secret parts threshold) as [e'|] eqn:Ec.
    + unfold SplitWithRandomizer, SplitWithRandomizerBufs in E. rewrite Ec in E. cbn in E. injection E as <-. apply checkArgs_Some. exact Ec.
    + exfalso. apply valid_checkArgs in Ec as V.
      destruct (SWR_notret fuel ar growcap ks polB trB evBufs secret parts threshold V) as (N1 & N2).
      destruct (GetUniqueBytes fuel ks (z2b parts)) as [xs|e'|p| |] eqn:Eg.
      * rewrite (SWR_ok fuel ar growcap ks polB trB evBufs secret parts threshold xs G V Eg) in E. discriminate.
      * exact (GetUniqueBytes_nofail _ _ _ _ Eg).
      * rewrite (N2 p eq_refl) in E. discriminate.
      * unfold SplitWithRandomizer, SplitWithRandomizerBufs in E. rewrite Ec, Eg in E. discriminate.
      * rewrite (N1 eq_refl) in E. discriminate.
  - intros A. apply checkArgs_Some in A. unfold SplitWithRandomizer, SplitWithRandomizerBufs. rewrite A. reflexivity.
Qed.

Lemma ret_not_fail {A} (o : outcome A) a e : o = Ret a -> o = Fail e -> False.
Proof. intros -> H. discriminate. Qed.

Lemma C03_splitwithrandomizerold_errors_pf : forall ar growcap ks evBufs secret parts threshold e,
  grow_ok growcap ->
  (SplitWithRandomizerOld ar growcap ks evBufs secret parts threshold = Fail e <-> arg_error secret parts threshold e).
Proof.
  intros ar growcap ks evBufs secret parts threshold e G. split.
  - intros E. destruct (checkArgs secret parts threshold) as [e'|] eqn:Ec.
    + unfold SplitWithRandomizerOld in E. rewrite Ec in E. injection E as <-. apply checkArgs_Some. exact Ec.
    + exfalso. apply valid_checkArgs in Ec as V. destruct (byte_eq_dec (ks 0) xfe) as [F|F].
      * rewrite SWROld_panic in E by assumption. discriminate.
      * destruct (Perm255_ok ks F) as (p & Ep & Lp & _). pose proof (SWROld_ok ar growcap ks evBufs secret parts threshold p G V Ep Lp) as E2. exact (ret_not_fail _ _ _ E2 E).
  - intros A. apply checkArgs_Some in A. unfold SplitWithRandomizerOld. rewrite A. reflexivity.
Qed.

(** C03: the arguments are in error exactly when they are not valid. *)
Lemma C03_errors_iff_invalid_pf : forall secret parts threshold,
  (exists e, arg_error secret parts threshold e) <-> ~ valid_args secret parts threshold.
Proof.
  intros secret parts threshold. split.
  - intros (e & A) V. apply checkArgs_Some in A. apply valid_checkArgs in V. congruence.
  - intros V. destruct (checkArgs secret parts threshold) as [e|] eqn:E; [exists e; apply checkArgs_Some; exact E|].
    exfalso. apply V, valid_checkArgs, E.
Qed.

(*COPY
Example C03_errors : arg_error [] 5 3 EEmptySecret /\ arg_error [x01] 2 3 EPartsLtThreshold /\ arg_error [x01] 256 3 EPartsTooMany /\ arg_error [x01] 3 1 EThresholdSmall.
Proof. unfold arg_error. intuition lia. Qed.
END*)

(** C04: perfect secrecy of Split. For every coalition of fewer than [threshold] shares and every possible [view], the number of
    coefficient buffers (out of all of them) that make these shares look like [view] is the same for any two secrets of the same length. *)
Lemma C04_secrecy_pf : forall ar growcap perm polB trB evBufs s s' parts threshold is view,
  grow_ok growcap -> Permutation perm (seq 0 255) -> valid_args s parts threshold -> length s = length s' ->
  coalition (Z.to_nat parts) (Z.to_nat threshold) is ->
  let buffers := all_strings (Z.to_nat threshold * length s) in
  count (fun r => observes (Split ar growcap perm (stream_of r) polB trB evBufs s parts threshold) is view) buffers =
  count (fun r => observes (Split ar growcap perm (stream_of r) polB trB evBufs s' parts threshold) is view) buffers.
Proof.
  intros ar growcap perm polB trB evBufs s s' parts threshold is view G P V Hl C.
  exact (Split_secrecy_test ar growcap perm polB trB evBufs s s' parts threshold is (fun v => shares_eqb v view) G P V Hl C).
Qed.

(** C04, exact form: a view with the right tags and lengths is shown by exactly 256^((t-k)*N) of the 256^(t*N) buffers,
    whatever the secret; any other view by none. *)
Lemma C04_exact_pf : forall ar growcap perm polB trB evBufs s parts threshold is view,
  grow_ok growcap -> Permutation perm (seq 0 255) -> valid_args s parts threshold ->
  coalition (Z.to_nat parts) (Z.to_nat threshold) is ->
  let hits := count (fun r => observes (Split ar growcap perm (stream_of r) polB trB evBufs s parts threshold) is view)
                    (all_strings (Z.to_nat threshold * length s)) in
  (is_view (length s) (map (fun i => i2b (nth i perm 0 + 1)) is) view ->
     hits = 256 ^ ((Z.to_nat threshold - length is) * length s)) /\
  (~ is_view (length s) (map (fun i => i2b (nth i perm 0 + 1)) is) view -> hits = 0).
Proof.
  intros ar growcap perm polB trB evBufs s parts threshold is view G P V (C1 & C2 & C3) hits.
  destruct (V) as (Hs & H2 & H3 & H4). destruct (perm_coords perm P) as (ND & NF & L255).
  destruct (pick_tags_facts (Z.to_nat parts) (map i2b perm) is) as (N1 & N2); try assumption; [lia|].
  set (xs := pick x00 (tagsOf (Z.to_nat parts) (map i2b perm)) is) in *.
  assert (Ex : map (fun i => i2b (nth i perm 0 + 1)) is = xs).
  { unfold xs, pick. apply map_ext_in. intros i Hi. specialize (C2 i Hi). rewrite nth_tagsOf by lia. rewrite map_length in L255.
    rewrite (nth_map' i2b perm i x00 0) by lia. apply b2n_inj. unfold badd, i2b. rewrite !b2n_n2b. change (b2n x01) with 1%N.
    rewrite N.add_mod_idemp_l by discriminate. f_equal. lia. }
  rewrite Ex. assert (Lx : length xs = length is) by apply pick_length.
  assert (Eh : hits = count (fun r => shares_eqb (map (share_at (polysOf (Z.to_nat threshold) s r)) xs) view) (all_strings (Z.to_nat threshold * length s))).
  { apply count_ext. intros r Hr. apply all_strings_in in Hr.
    exact (Split_test ar growcap perm polB trB evBufs s parts threshold is (fun v => shares_eqb v view) G P V C2 r Hr). }
  rewrite Eh. split.
  - intros Hv. rewrite (exact_count (polysOf (Z.to_nat threshold)) (Z.to_nat threshold * length s) (length s) (Z.to_nat threshold) xs s view); try assumption.
    + rewrite Lx, <- Nat.mul_sub_distr_r. reflexivity.
    + apply shiftable_polysOf. lia.
    + lia.
    + reflexivity.
    + rewrite Lx. apply Nat.mul_le_mono_r. lia.
  - intros Hv. apply count_0. intros r Hr. destruct (shares_eqb _ _) eqn:E; [|reflexivity]. apply shares_eqb_true in E. exfalso. apply Hv.
    rewrite <- E. apply share_view. apply polysOf_length.
Qed.

(*COPY
Example C04_case : coalition 5 3 [4; 1] /\
  is_view (length ex_secret) (map (fun i => i2b (nth i ex_perm 0 + 1)) [4; 1])
    [[x01; x02; x03; x04; x05; x05]; [x00; x00; x00; x00; x00; x02]].
Proof.
  split; [split; [repeat constructor; cbn; intuition lia|split; [cbn; intuition lia|cbn; lia]]|].
  split; [reflexivity|]. intros [|[|i]] Hi; cbn in *; [split; reflexivity|split; reflexivity|lia].
Qed.
END*)

(** C05: Combine is total and its error contract is exact. *)
Lemma C05_combine_contract_pf : forall parts,
  (Combine parts = Fail ETooFewParts <-> length parts < 2) /\
  (Combine parts = Fail EPartsTooShort <-> 2 <= length parts /\ length (nth 0 parts []) < 2) /\
  (Combine parts = Fail EPartsLength <->
     2 <= length parts /\ 2 <= length (nth 0 parts []) /\ exists p, In p parts /\ length p <> length (nth 0 parts [])) /\
  (Combine parts = Fail EDuplicatePart <->
     2 <= length parts /\ 2 <= length (nth 0 parts []) /\ (forall p, In p parts -> length p = length (nth 0 parts [])) /\ ~ NoDup (map tag parts)) /\
  ((exists r, Combine parts = Ret r /\ length r = length (nth 0 parts []) - 1) <-> acceptable parts) /\
  ((exists e, Combine parts = Fail e) \/ (exists r, Combine parts = Ret r)).
Proof.
  intros parts. unfold acceptable.
  destruct (Combine_cases parts) as [(A & E)|[(A & B & E)|[(A & B & (p & Hp & C) & E)|[((A & B & C) & D & E)|((A & B & C) & D & E)]]]]; rewrite E;
  (split; [split; [intros H; try discriminate H|intros H]|
   split; [split; [intros H; try discriminate H|intros (H & H')]|
   split; [split; [intros H; try discriminate H|intros (H & H' & q & Hq & H1)]|
   split; [split; [intros H; try discriminate H|intros (H & H' & H1 & H2)]|
   split; [split; [intros (r & H & H'); try discriminate H|intros (H & H' & H1 & H2)]|]]]]]);
  try reflexivity; try lia; try (split; assumption);
  try (left; eexists; reflexivity); try (right; eexists; reflexivity);
  try (exfalso; apply H1, C, Hq); try (exfalso; apply C, H1, Hp); try (exfalso; exact (H2 D)); try (exfalso; exact (D H2));
  try (split; [exact A|]; split; [exact B|]; split; [exact C|exact D]).
  - split; [exact A|]. split; [exact B|]. exists p. split; assumption.
  - eexists. split; [reflexivity|]. apply interpAt_length.
Qed.

(*COPY
Example C05_cases : acceptable [[x05; x01]; [x06; x02]] /\ Combine [[x05; x01]; [x06; x02]] = Ret [x04] /\
  Combine [[x05; x01]; [x06; x01]] = Fail EDuplicatePart /\ Combine [[x05; x01]; [x01]] = Fail EPartsLength /\
  Combine [[x01]; [x01]] = Fail EPartsTooShort.
Proof.
  split; [|repeat split; vm_compute; reflexivity]. split; [cbn; lia|]. split; [cbn; lia|]. split; [intros p [<-|[<-|[]]]; reflexivity|].
  repeat constructor; cbn; intuition discriminate.
Qed.
END*)

(** C06: the order of the parts does not matter. *)
Lemma C06_combine_order_pf : forall parts parts', Permutation parts parts' ->
  (forall r, Combine parts = Ret r -> Combine parts' = Ret r) /\
  (forall e, Combine parts = Fail e -> exists e', Combine parts' = Fail e').
Proof.
  intros parts parts' P. split.
  - intros r. apply Combine_perm. exact P.
  - intros e E. destruct (C05_combine_contract_pf parts') as (_ & _ & _ & _ & _ & [T|(r & T)]); [exact T|].
    apply (Combine_perm parts' parts) in T; [congruence|]. apply Permutation_sym. exact P.
Qed.

(*COPY
Example C06_case : Permutation [[x05; x01]; [x06; x02]; [x11; x07]] [[x11; x07]; [x05; x01]; [x06; x02]] /\
  exists r, Combine [[x05; x01]; [x06; x02]; [x11; x07]] = Ret r /\ Combine [[x11; x07]; [x05; x01]; [x06; x02]] = Ret r.
Proof.
  split; [|eexists; split; vm_compute; reflexivity].
  apply Permutation_trans with ([[x05; x01]; [x11; x07]; [x06; x02]]); [apply perm_skip, perm_swap|apply perm_swap].
Qed.
(** which error is reported does depend on the order *)
Example C06_error_differs : Combine [[x05; x01]; [x06]] = Fail EPartsLength /\ Combine [[x06]; [x05; x01]] = Fail EPartsTooShort.
Proof. split; vm_compute; reflexivity. Qed.
END*)

(** C07: Combine interpolates: byte [i] of the result is the value at 0 of the only polynomial with k coefficients through the
    points (tag, byte i) of the k parts. *)
Lemma C07_combine_interpolates_pf : forall parts r i, Combine parts = Ret r -> i < length r ->
  exists f, length f = length parts /\ (forall p, In p parts -> peval f (tag p) = nth i p x00) /\
    nth i r x00 = peval f x00 /\
    forall g, length g = length parts -> (forall p, In p parts -> peval g (tag p) = nth i p x00) -> g = f.
Proof.
  intros parts r i E Hi. destruct (Combine_inv parts r E) as (L & H2 & HL & HpL & ND & -> & _). rewrite interpAt_length in Hi.
  set (xs := map tag parts) in *. assert (Lx : length xs = length parts) by (apply map_length).
  destruct (lagrange_polyfun xs (ycol parts i)) as (f & Lf & Ef).
  assert (Lf' : length f <= length parts) by lia.
  set (f' := f ++ repeat x00 (length parts - length f)).
  assert (Lf2 : length f' = length parts) by (unfold f'; rewrite app_length, repeat_length; lia).
  assert (Ef2 : forall x, heval f' x = lagrange xs (ycol parts i) x) by (intros x; unfold f'; rewrite heval_app_zeros; apply Ef).
  assert (Hp : forall p, In p parts -> heval f' (tag p) = nth i p x00) by (intros p Hp; rewrite Ef2; apply interp_at_part; assumption).
  exists f'. split; [exact Lf2|]. split; [intros p Hin; rewrite peval_heval; apply Hp, Hin|]. split.
  - rewrite peval_heval, Ef2. apply nth_interpAt. exact Hi.
  - intros g Lg Hg. apply (poly_unique g f' xs); [lia|lia|exact ND|].
    intros x Hx. unfold xs in Hx. apply in_map_iff in Hx as (p & <- & Hin). rewrite Hp by exact Hin. rewrite <- peval_heval. apply Hg, Hin.
Qed.

(*COPY
(** the polynomial 4 + x goes through (1,5) and (2,6) *)
Example C07_case : Combine [[x05; x01]; [x06; x02]] = Ret [x04] /\ 0 < length [x04] /\
  peval [x04; x01] (tag [x05; x01]) = nth 0 [x05; x01] x00 /\ peval [x04; x01] (tag [x06; x02]) = nth 0 [x06; x02] x00 /\
  peval [x04; x01] x00 = x04.
Proof. repeat split; vm_compute; reflexivity. Qed.
END*)

(** C08: one changed data byte of one part changes the result exactly at that position. *)
Lemma C08_corruption_visible_pf : forall parts r i j v,
  Combine parts = Ret r -> ~ In x00 (map tag parts) -> i < length parts -> j < length r ->
  v <> nth j (nth i parts []) x00 ->
  exists r', Combine (replace parts i (replace (nth i parts []) j v)) = Ret r' /\
    nth j r' x00 <> nth j r x00 /\ length r' = length r /\
    forall k, k <> j -> nth k r' x00 = nth k r x00.
Proof. exact Combine_corrupt. Qed.

(*COPY
Example C08_case : exists r, Combine [[x05; x09; x01]; [x06; x09; x02]] = Ret r /\ 1 < length r /\ x10 <> nth 1 (nth 0 [[x05; x09; x01]; [x06; x09; x02]] []) x00 /\
  ~ In x00 (map tag [[x05; x09; x01]; [x06; x09; x02]]).
Proof. eexists. split; [vm_compute; reflexivity|]. repeat split; [cbn; lia|cbn; discriminate|cbn; intuition discriminate]. Qed.
END*)

(** C09: Combine is linear. *)
Lemma C09_combine_linear_pf : forall a b ra rb, map tag a = map tag b -> Combine a = Ret ra -> Combine b = Ret rb ->
  length ra = length rb -> Combine (xor_shares a b) = Ret (xor_bytes ra rb).
Proof. exact Combine_xor. Qed.

(*COPY
Example C09_case : Combine [[x05; x01]; [x06; x02]] = Ret [x04] /\ Combine [[x15; x01]; [x07; x02]] = Ret [x1b] /\
  Combine (xor_shares [[x05; x01]; [x06; x02]] [[x15; x01]; [x07; x02]]) = Ret [x1f].
Proof. repeat split; vm_compute; reflexivity. Qed.
END*)

(** C10: too few shares: Combine returns no error, and its result has the same distribution for every secret. *)
Lemma C10_too_few_shares_pf : forall ar growcap perm polB trB evBufs s s' parts threshold is,
  grow_ok growcap -> Permutation perm (seq 0 255) -> valid_args s parts threshold -> length s = length s' ->
  coalition (Z.to_nat parts) (Z.to_nat threshold) is -> 2 <= length is ->
  (forall stream, exists shares v, Split ar growcap perm stream polB trB evBufs s parts threshold = Ret shares /\
     Combine (pick [] shares is) = Ret v /\ length v = length s) /\
  forall v, let combines_to o := match o with
                | Ret shares => match Combine (pick [] shares is) with Ret w => shares_eqb [w] [v] | _ => false end
                | _ => false end in
    let buffers := all_strings (Z.to_nat threshold * length s) in
    count (fun r => combines_to (Split ar growcap perm (stream_of r) polB trB evBufs s parts threshold)) buffers =
    count (fun r => combines_to (Split ar growcap perm (stream_of r) polB trB evBufs s' parts threshold)) buffers.
Proof.
  intros ar growcap perm polB trB evBufs s s' parts threshold is G P V Hl C H2. split.
  - intros stream. destruct (Split_sharing ar growcap perm stream polB trB evBufs s parts threshold G P V) as (shares & polys & tags & E & S & L & _ & Lt & _).
    destruct S as (S1 & S2 & S3 & S4). destruct C as (C1 & C2 & C3).
    assert (Lp : length polys = length s) by (rewrite <- S1, map_length; reflexivity).
    assert (Hs : s <> []) by apply V. assert (0 < length s) by (destruct s; [congruence|cbn; lia]).
    exists shares. set (xs := pick x00 tags is).
    assert (Ep : pick [] shares is = map (share_at polys) xs) by (rewrite S4; apply pick_map; rewrite Lt; exact C2).
    assert (ND : NoDup xs) by (apply pick_NoDup; [exact S3|exact C1|rewrite Lt; exact C2]).
    eexists. split; [exact E|]. split.
    + rewrite Ep. apply (Combine_accept _ (length s + 1)); [rewrite map_length; unfold xs; rewrite pick_length; exact H2|lia| |rewrite map_tag_shares; exact ND].
      intros p Hp. apply in_map_iff in Hp as (x & <- & _). rewrite share_at_length, Lp. reflexivity.
    + rewrite interpAt_length. lia.
  - intros v. exact (Split_secrecy_test ar growcap perm polB trB evBufs s s' parts threshold is
      (fun view => match Combine view with Ret w => shares_eqb [w] [v] | _ => false end) G P V Hl C).
Qed.

(*COPY
(** two shares of a 3-of-5 split of "hello" combine, without error, to something else *)
Example C10_case : coalition 5 3 [4; 1] /\ 2 <= length [4; 1] /\ exists shares v,
  Split ex_ar growcap117 ex_perm ex_stream ex_stale ex_stale ex_ev ex_secret 5 3 = Ret shares /\
  Combine (pick [] shares [4; 1]) = Ret v /\ length v = 5 /\ v <> ex_secret.
Proof.
  split; [split; [repeat constructor; cbn; intuition lia|split; [cbn; intuition lia|cbn; lia]]|]. split; [cbn; lia|].
  eexists _, _. split; [vm_compute; reflexivity|]. split; [vm_compute; reflexivity|]. split; [reflexivity|vm_compute; discriminate].
Qed.
END*)

(** C11: SplitGeneric: round trip, agreement with Split on every architecture, secrecy. *)
Lemma C11_generic_combine_pf : forall perm stream secret parts threshold,
  Permutation perm (seq 0 255) -> valid_args secret parts threshold ->
  exists shares,
    SplitGeneric perm stream secret parts threshold = Ret shares /\
    length shares = Z.to_nat parts /\
    forall is, selection (Z.to_nat parts) (Z.to_nat threshold) is -> Combine (pick [] shares is) = Ret secret.
Proof.
  intros perm stream secret parts threshold P V.
  destruct (SplitGeneric_sharing perm stream secret parts threshold P V) as (shares & polys & tags & E & S & L & _).
  exists shares. split; [exact E|]. split; [exact L|]. intros is Hs. destruct V as (Hn & H2 & _).
  apply (Combine_is_sharing secret (Z.to_nat threshold) polys tags); [lia|exact Hn|exact S|rewrite L; exact Hs].
Qed.

Lemma C11_generic_agrees_pf : forall ar growcap perm streamS streamG polB trB evBufs secret parts threshold,
  grow_ok growcap -> Permutation perm (seq 0 255) -> valid_args secret parts threshold ->
  (forall p c, p < length secret -> 1 <= c < Z.to_nat threshold ->
     streamS (Z.to_nat threshold * p + c) = streamG ((Z.to_nat threshold - 1) * p + (c - 1))) ->
  Split ar growcap perm streamS polB trB evBufs secret parts threshold = SplitGeneric perm streamG secret parts threshold.
Proof.
  intros ar growcap perm sS sG polB trB evBufs secret parts threshold G P V H. pose proof V as (Hs & H2 & H3 & H4).
  destruct (perm_coords perm P) as (_ & _ & L255). rewrite map_length in L255. apply valid_checkArgs in V.
  rewrite (Split_ok ar growcap perm sS polB trB evBufs secret parts threshold G V) by lia.
  rewrite (SplitGeneric_ok perm sG secret parts threshold V) by lia.
  rewrite (polysOf_polysGen (Z.to_nat threshold) secret _ (take_stream sG ((Z.to_nat threshold - 1) * length secret)));
    [reflexivity|lia|apply take_stream_length|apply take_stream_length|].
  intros p c Hp Hc. rewrite !nth_take_stream by nia. apply H; assumption.
Qed.

Lemma SplitGeneric_test perm secret parts threshold is (test : list (list byte) -> bool) :
  Permutation perm (seq 0 255) -> valid_args secret parts threshold ->
  (forall i, In i is -> i < Z.to_nat parts) ->
  forall r, length r = (Z.to_nat threshold - 1) * length secret ->
  match SplitGeneric perm (stream_of r) secret parts threshold with
  | Ret shares => test (pick [] shares is) | _ => false end
  = test (map (share_at (polysGen (Z.to_nat threshold) secret r)) (pick x00 (tagsOf (Z.to_nat parts) (map i2b perm)) is)).
Proof.
  intros P V Hi r Hr. pose proof V as (Hs & H2 & H3 & H4). apply valid_checkArgs in V.
  destruct (perm_coords perm P) as (ND & NF & L255). rewrite map_length in L255.
  rewrite (SplitGeneric_ok perm _ secret parts threshold V) by lia.
  rewrite take_stream_of by exact Hr. f_equal. apply pick_map. rewrite tagsOf_length by (rewrite map_length; lia). exact Hi.
Qed.

Lemma C11_generic_secrecy_pf : forall perm s s' parts threshold is view,
  Permutation perm (seq 0 255) -> valid_args s parts threshold -> length s = length s' ->
  coalition (Z.to_nat parts) (Z.to_nat threshold) is ->
  let buffers := all_strings ((Z.to_nat threshold - 1) * length s) in
  count (fun r => observes (SplitGeneric perm (stream_of r) s parts threshold) is view) buffers =
  count (fun r => observes (SplitGeneric perm (stream_of r) s' parts threshold) is view) buffers.
Proof.
  intros perm s s' parts threshold is view P V Hl (C1 & C2 & C3) buffers. destruct (V) as (Hs & H2 & H3 & H4).
  assert (V' : valid_args s' parts threshold) by (split; [intros ->; destruct s; [congruence|discriminate]|auto]).
  destruct (perm_coords perm P) as (ND & NF & L255).
  destruct (pick_tags_facts (Z.to_nat parts) (map i2b perm) is) as (N1 & N2); try assumption; [lia|].
  set (xs := pick x00 (tagsOf (Z.to_nat parts) (map i2b perm)) is) in *. set (t := Z.to_nat threshold) in *.
  rewrite (count_ext _ (fun r => shares_eqb (map (share_at (polysGen t s r)) xs) view))
    by (intros r Hr; apply all_strings_in in Hr; exact (SplitGeneric_test perm s parts threshold is (fun v => shares_eqb v view) P V C2 r Hr)).
  symmetry.
  rewrite (count_ext _ (fun r => shares_eqb (map (share_at (polysGen t s' r)) xs) view))
    by (intros r Hr; apply all_strings_in in Hr; rewrite Hl in Hr; exact (SplitGeneric_test perm s' parts threshold is (fun v => shares_eqb v view) P V' C2 r Hr)).
  symmetry. apply (secrecy_count (polysGen t) _ (length s) t xs s s' (fun v => shares_eqb v view)); try assumption; try lia.
  - apply shiftable_polysGen. unfold t. lia.
  - unfold xs. rewrite pick_length. exact C3.
Qed.

(*COPY
(** the same split with both functions: SplitGeneric draws two bytes per polynomial, Split three, of which it ignores the first *)
Example C11_case : exists shares,
  SplitGeneric ex_perm (fun i => ex_stream (3 * (i / 2) + i mod 2 + 1)) ex_secret 5 3 = Ret shares /\
  Split ex_ar growcap117 ex_perm ex_stream ex_stale ex_stale ex_ev ex_secret 5 3 = Ret shares /\
  Combine (pick [] shares [4; 0; 2]) = Ret ex_secret.
Proof. eexists. split; [vm_compute; reflexivity|]. split; vm_compute; reflexivity. Qed.
END*)

(** C48: the two transposition helpers transpose. *)
Lemma C48_transpose_buffer_pf : forall dest source rowLen colLen, 0 < rowLen ->
  length source = rowLen * colLen -> length dest = length source ->
  exists o, transposeMatrixBuffer dest source rowLen = Ret o /\ length o = length source /\
    (forall i j, i < rowLen -> j < colLen -> nth (colLen * i + j) o x00 = nth (rowLen * j + i) source x00) /\
    (0 < colLen -> forall dest', length dest' = length source -> transposeMatrixBuffer dest' o colLen = Ret source).
Proof.
  intros dest source rowLen colLen Hr Hs Hd. destruct (transposeMatrixBuffer_ok dest source rowLen colLen Hr Hs Hd) as (o & E & L & H).
  exists o. split; [exact E|]. split; [exact L|]. split; [exact H|]. intros Hc dest' Hd'.
  destruct (transposeMatrixBuffer_ok dest' o colLen rowLen Hc ltac:(lia) ltac:(lia)) as (o2 & E2 & L2 & H2). rewrite E2. f_equal.
  apply nth_ext with (d := x00) (d' := x00); [lia|]. intros k Hk.
  pose proof (Nat.div_mod k rowLen ltac:(lia)) as Dk. pose proof (Nat.mod_upper_bound k rowLen ltac:(lia)) as Mk.
  assert (Hq : k / rowLen < colLen) by (apply Nat.div_lt_upper_bound; lia).
  rewrite Dk. rewrite H2 by lia. apply H; lia.
Qed.

Lemma C48_transpose_pf : forall m xl, m <> [] -> (forall j, j < length m -> length (nth j m []) = xl) ->
  exists r, transpose m = Ret r /\ length r = xl /\
    (forall i, i < xl -> length (nth i r []) = length m /\ forall j, j < length m -> nth j (nth i r []) x00 = nth i (nth j m []) x00) /\
    (0 < xl -> transpose r = Ret m).
Proof.
  intros m xl Hm Hl. destruct (transpose_ok m xl Hm Hl) as (r & E & L & H). exists r. split; [exact E|]. split; [exact L|]. split; [exact H|].
  intros Hx. assert (Hr : r <> []) by (intros ->; cbn in L; lia).
  destruct (transpose_ok r (length m) Hr) as (m2 & E2 & L2 & H2); [intros j Hj; apply H; lia|]. rewrite E2. f_equal.
  apply nth_ext with (d := []) (d' := []); [exact L2|]. intros i Hi. rewrite L2 in Hi. destruct (H2 i Hi) as (L3 & H3).
  apply nth_ext with (d := x00) (d' := x00); [rewrite L3, L, Hl by exact Hi; reflexivity|]. intros j Hj. rewrite L3, L in Hj.
  rewrite H3 by lia. apply H; assumption.
Qed.

(*COPY
Example C48_case : transposeMatrixBuffer [x00; x00; x00; x00; x00; x00] [x01; x02; x03; x04; x05; x06] 3 = Ret [x01; x04; x02; x05; x03; x06].
Proof. vm_compute. reflexivity. Qed.
END*)
