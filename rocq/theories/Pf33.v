(** Proofs about what the tags drawn by Perm(255) give away (C80), and further ones about corrupted parts (C08). *)
(*PROPS
From Coq Require Import List NArith ZArith Lia Arith Bool Permutation.
From Coq.Init Require Import Byte.
From Verif Require Import GoSem Bytes Spec SpecKr SpecPerm Galois Csprng Pool Vector Polynomial Shamir Libs AES Krawczyk ExData Pf33.
Import ListNotations.
*)
From Coq Require Import List NArith ZArith Lia Arith Bool Permutation.
From Coq.Init Require Import Byte.
From Verif Require Import GoSem Bytes Spec SpecKr SpecPerm Galois GF PolyFacts GoFacts VectorFacts Csprng Pool Vector Polynomial PolynomialFacts Shamir SplitFacts CombineFacts
  CsprngFacts RandomizerFacts Derived PermFacts Libs Krawczyk KrawczykFacts KrawczykCombine Pf6 ExData.
Import ListNotations.

Lemma undisturbed_small ks m : 0 < m < 255 -> undisturbed ks m -> m < 253 /\ b2i (ks m) < 254.
Proof.
  intros Hm (U1 & _ & _ & U4). unfold partner in U1. rewrite Nat.mod_small in U1 by exact U4. lia.
Qed.

(** from 20 elements on, GetUniqueBytes returns the beginning of Perm(255) *)
Lemma GUB_large_inv fuel ks n xs : 20 <= b2i n -> GetUniqueBytes fuel ks n = Ret xs ->
  exists p, Perm ks xff = Ret p /\ length p = 255 /\ xs = firstn (b2i n) p.
Proof.
  intros Hn H. destruct (byte_eq_dec (ks 0) xfe) as [E|E].
  - rewrite GetUniqueBytes_panic in H by assumption. discriminate.
  - destruct (Perm255_ok ks E) as (p & Ep & L & _). exists p. split; [exact Ep|]. split; [exact L|]. unfold GetUniqueBytes in H.
    assert (E20 : (20 <=? b2n n)%N = true) by (apply N.leb_le; unfold b2i in Hn; lia). rewrite E20, Ep in H. cbn [bind] in H.
    rewrite slice_ok in H by (pose proof (b2i_lt n); lia). injection H as H. rewrite Nat.sub_0_r in H. cbn [skipn] in H. congruence.
Qed.

(** what SplitWithRandomizer returns on a fresh pool, from 20 parts on *)
Lemma SWR_large_inv fuel ar growcap ks trB evBufs secret parts threshold shares :
  grow_ok growcap -> (20 <= parts)%Z -> SplitWithRandomizer fuel ar growcap ks [] trB evBufs secret parts threshold = Ret shares ->
  valid_args secret parts threshold /\ exists xs, Perm ks xff = Ret xs /\ length xs = 255 /\
   shares = map (share_at (polysOf (Z.to_nat threshold) secret (take_stream ks (Z.to_nat threshold * length secret)))) (tagsOf (Z.to_nat parts) (firstn (Z.to_nat parts) xs)).
Proof.
  intros G Hp E. destruct (SWR_inv _ _ _ _ _ _ _ _ _ _ _ G E) as (V & xs & Ex & Es). pose proof V as (Hs & H2 & H3 & H4).
  split; [exact V|]. assert (Hb : b2i (z2b parts) = Z.to_nat parts) by (apply b2i_z2b; lia).
  destruct (GUB_large_inv _ _ _ _ ltac:(rewrite Hb; lia) Ex) as (p & Ep & L & ->). rewrite Hb in Es. exists p. split; [exact Ep|]. split; [exact L|].
  assert (0 < length secret) by (destruct secret; [congruence|cbn [length]; lia]).
  rewrite Es, swrBuf_fresh by (try exact G; nia). reflexivity.
Qed.

Lemma tagsOf_firstn n xs : n <= length xs -> tagsOf n (firstn n xs) = tagsOf n xs.
Proof.
  intros H. apply (nth_ext _ _ x00 x00).
  - rewrite !tagsOf_length; [reflexivity|exact H|rewrite firstn_length; lia].
  - intros i Hi. rewrite tagsOf_length in Hi by (rewrite firstn_length; lia). rewrite !nth_tagsOf by (rewrite ?firstn_length; lia).
    rewrite nth_firstn by exact Hi. reflexivity.
Qed.

Lemma coalition_seq n t a : a + (t - 1) <= n -> 2 <= t -> coalition n t (seq a (t - 1)).
Proof. intros H H2. split; [apply seq_NoDup|]. split; [intros i Hi; apply in_seq in Hi; lia|rewrite seq_length; lia]. Qed.

Lemma leak_core t n secret ks xs p : Perm ks xff = Ret xs -> length xs = 255 -> 2 <= t -> n <= 255 -> t * p + t <= n -> p < length secret ->
  (forall m, t * p < m < t * p + t -> undisturbed ks m) ->
  leakByte2 t p (pick [] (map (share_at (polysOf t secret (take_stream ks (t * length secret)))) (tagsOf n xs)) (seq (t * p + 1) (t - 1)))
  = nth p secret x00.
Proof.
  intros E L H2 Hn Ht Hp U. apply leakByte2_ok; [exact H2|exact Ht|lia|exact Hp|]. intros m Hm.
  destruct (undisturbed_small ks m ltac:(lia) (U m Hm)) as (A & B). split; [|exact B]. apply Perm_undisturbed; [exact E|exact A|apply U, Hm].
Qed.

(** C80: SplitWithRandomizerOld: when the elements t*p+1 .. t*p+t-1 of the shuffle are undisturbed, the threshold-1 shares with these
    numbers determine secret byte [p] by the formula [leakByte2]. *)
Lemma C80_leak_old_pf : forall ar growcap ks evBufs secret parts threshold shares p,
  grow_ok growcap ->
  SplitWithRandomizerOld ar growcap ks evBufs secret parts threshold = Ret shares ->
  let t := Z.to_nat threshold in
  t * p + t <= Z.to_nat parts -> p < length secret ->
  (forall m, t * p < m < t * p + t -> undisturbed ks m) ->
  coalition (Z.to_nat parts) t (seq (t * p + 1) (t - 1)) /\
  leakByte2 t p (pick [] shares (seq (t * p + 1) (t - 1))) = nth p secret x00.
Proof.
  intros ar growcap ks evBufs secret parts threshold shares p G E t Ht Hp U.
  destruct (SWROld_inv _ _ _ _ _ _ _ _ G E) as (V & _ & xs & Ex & L & _ & _ & ->). pose proof V as (Hs & H2 & H3 & H4).
  assert (T2 : 2 <= t) by (unfold t; lia).
  split; [apply coalition_seq; lia|]. apply leak_core; [exact Ex|exact L|exact T2|lia|exact Ht|exact Hp|exact U].
Qed.

(** C80: the same for SplitWithRandomizer with 20 or more parts, on a fresh pool. *)
Lemma C80_leak_large_pf : forall fuel ar growcap ks trB evBufs secret parts threshold shares p,
  grow_ok growcap -> (20 <= parts)%Z ->
  SplitWithRandomizer fuel ar growcap ks [] trB evBufs secret parts threshold = Ret shares ->
  let t := Z.to_nat threshold in
  t * p + t <= Z.to_nat parts -> p < length secret ->
  (forall m, t * p < m < t * p + t -> undisturbed ks m) ->
  coalition (Z.to_nat parts) t (seq (t * p + 1) (t - 1)) /\
  leakByte2 t p (pick [] shares (seq (t * p + 1) (t - 1))) = nth p secret x00.
Proof.
  intros fuel ar growcap ks trB evBufs secret parts threshold shares p G H20 E t Ht Hp U.
  destruct (SWR_large_inv _ _ _ _ _ _ _ _ _ _ G H20 E) as (V & xs & Ex & L & ->). pose proof V as (Hs & H2 & H3 & H4).
  assert (T2 : 2 <= t) by (unfold t; lia).
  split; [apply coalition_seq; lia|]. rewrite tagsOf_firstn by lia.
  apply leak_core; [exact Ex|exact L|exact T2|lia|exact Ht|exact Hp|exact U].
Qed.

(*COPY
(** threshold 2, five parts: share 3 alone shows byte 1 of "hello" *)
Definition ex_quiet (i : nat) : byte := if i =? 3 then x32 else x00.
Example C80_run : undisturbed ex_quiet 3 /\ exists shares,
  SplitWithRandomizerOld ex_ar growcap117 ex_quiet ex_ev ex_secret 5 2 = Ret shares /\
  leakByte2 2 1 [nth 3 shares []] = nth 1 ex_secret x00 /\ nth 1 ex_secret x00 = x65.
Proof.
  split; [|eexists; split; [vm_compute; reflexivity|split; vm_compute; reflexivity]].
  assert (H : forall i, i <> 3 -> i < 253 -> partner ex_quiet i = 1).
  { intros i Hi Hn. unfold partner, ex_quiet. destruct (Nat.eqb_spec i 3); [lia|]. change (b2i x00) with 0. rewrite Nat.mod_0_l by lia. reflexivity. }
  split; [vm_compute; lia|]. split; [|split; [|vm_compute; lia]].
  - intros i Hi. rewrite H by lia. vm_compute. discriminate.
  - intros i Hi Hn. rewrite H by lia. discriminate.
Qed.
END*)

(** ** secrecy *)
Lemma tell_core t n secret secret' ks ks' xs xs' : 2 <= t -> 3 * t <= 257 -> 2 * t - 1 <= n -> n <= 255 -> length xs = 255 -> length xs' = 255 ->
  secret <> [] -> secret' <> [] -> Perm ks xff = Ret xs -> Perm ks' xff = Ret xs' -> ks = tellKs t ->
  pick [] (map (share_at (polysOf t secret' (take_stream ks' (t * length secret')))) (tagsOf n xs')) (seq t (t - 1)) =
  pick [] (map (share_at (polysOf t secret (take_stream ks (t * length secret)))) (tagsOf n xs)) (seq t (t - 1)) ->
  nth 0 secret' x00 = nth 0 secret x00.
Proof.
  intros H2 H3 Hn Hn' L L' Hs Hs' E E' Ek Ev.
  assert (N1 : 0 < length secret) by (destruct secret; [congruence|cbn; lia]).
  assert (N2 : 0 < length secret') by (destruct secret'; [congruence|cbn; lia]).
  set (P := polysOf t secret (take_stream ks (t * length secret))) in *. set (P' := polysOf t secret' (take_stream ks' (t * length secret'))) in *.
  assert (Sh : forall c, 1 <= c < t -> share_at P' (nth (t - 1 + c) (tagsOf n xs') x00) = share_at P (nth (t - 1 + c) (tagsOf n xs) x00)).
  { intros c Hc. apply (f_equal (fun l => nth (c - 1) l [])) in Ev.
    rewrite (pick_map (share_at P') (tagsOf n xs') _ [] x00) in Ev by (intros i Hi; apply in_seq in Hi; rewrite tagsOf_length; lia).
    rewrite (pick_map (share_at P) (tagsOf n xs) _ [] x00) in Ev by (intros i Hi; apply in_seq in Hi; rewrite tagsOf_length; lia).
    rewrite !(nth_map' (share_at _) _ (c - 1) [] x00) in Ev by (rewrite pick_length, seq_length; lia).
    unfold pick in Ev. rewrite !(nth_map' _ (seq t (t - 1)) (c - 1) x00 0) in Ev by (rewrite seq_length; lia).
    rewrite seq_nth in Ev by lia. replace (t + (c - 1)) with (t - 1 + c) in Ev by lia. exact Ev. }
  assert (Tg : forall c, 1 <= c < t -> nth (t - 1 + c) xs' x00 = i2b (255 - c)).
  { intros c Hc. pose proof (Sh c Hc) as S. apply (f_equal tag) in S. rewrite !tag_share_at in S. rewrite !nth_tagsOf in S by lia.
    apply badd_inj in S. rewrite S. subst ks. apply tellKs_ends; assumption. }
  assert (K : forall c, 1 <= c < t -> ks' c = ks c).
  { intros c Hc. rewrite (ends_tell ks' xs' t (fun c => t - 1 + c) E' H3) by (exact Hc || (intros d Hd; split; [lia|apply Tg; exact Hd])).
    rewrite (ends_tell ks xs t (fun c => t - 1 + c) E H3) by (exact Hc || (intros d Hd; split; [lia|subst ks; apply tellKs_ends; assumption])). reflexivity. }
  pose proof (Sh 1 ltac:(lia)) as S1. pose proof (f_equal tag S1) as S2. rewrite !tag_share_at in S2. rewrite S2 in S1.
  set (x := nth (t - 1 + 1) (tagsOf n xs) x00) in *. apply (f_equal (fun l => nth 0 l x00)) in S1.
  rewrite !nth_share_at in S1 by (unfold P, P'; rewrite polysOf_length; assumption).
  unfold P, P' in S1. rewrite !nth_polysOf in S1 by assumption. unfold polyOf in S1. rewrite !heval_cons_sum in S1.
  assert (B : forall (k : nat -> byte) (N : nat), 0 < N -> skipn 1 (row t (take_stream k (t * N)) 0) = map k (seq 1 (t - 1))).
  { intros k N HN. apply (nth_ext _ _ x00 x00).
    - rewrite skipn_length, row_length, map_length, seq_length; [reflexivity|rewrite take_stream_length; nia].
    - intros i Hi. rewrite skipn_length, row_length in Hi by (rewrite take_stream_length; nia). rewrite nth_skipn, nth_row by lia.
      rewrite nth_take_stream by nia. rewrite Nat.mul_0_r. cbn [Nat.add]. rewrite (nth_map' k (seq 1 (t - 1)) i x00 0) by (rewrite seq_length; lia).
      rewrite seq_nth by lia. reflexivity. }
  rewrite !B in S1 by assumption. 
  assert (M : map ks' (seq 1 (t - 1)) = map ks (seq 1 (t - 1))).
  { apply map_ext_in. intros c Hc. apply in_seq in Hc. apply K. lia. }
  rewrite M in S1. apply (f_equal (fun b => gadd b (gsum (map (fun i => gmul (nth (i - 1) (map ks (seq 1 (t - 1))) x00) (gpow x i)) (seq 1 (length (map ks (seq 1 (t - 1))))))))) in S1.
  rewrite !gadd_assoc', !gadd_self, !gadd_0_r in S1. exact S1.
Qed.

Lemma tellKs_0 t : 2 <= t -> tellKs t 0 <> xfe.
Proof. intros H. unfold tellKs. destruct (Nat.leb_spec 1 0); [lia|]. destruct (Nat.leb_spec t 0); [lia|]. cbn [andb]. discriminate. Qed.

(** C80: SplitWithRandomizerOld is not threshold-secret, at any threshold up to 85: there is a key stream such that threshold-1 of the
    shares it produces fix the first byte of the secret, whatever secret, key stream, pool and machine they may have come from. *)
Lemma C80_secrecy_fails_old_pf : forall ar growcap evBufs secret parts threshold,
  grow_ok growcap -> valid_args secret parts threshold -> (2 * threshold - 1 <= parts)%Z -> (3 * threshold <= 257)%Z ->
  exists ks shares is,
    coalition (Z.to_nat parts) (Z.to_nat threshold) is /\
    SplitWithRandomizerOld ar growcap ks evBufs secret parts threshold = Ret shares /\
    forall ar' growcap' ks' evBufs' secret' shares', grow_ok growcap' ->
      SplitWithRandomizerOld ar' growcap' ks' evBufs' secret' parts threshold = Ret shares' ->
      pick [] shares' is = pick [] shares is -> nth 0 secret' x00 = nth 0 secret x00.
Proof.
  intros ar growcap evBufs secret parts threshold G V Hp Ht. pose proof V as (Hs & H2 & H3 & H4). set (t := Z.to_nat threshold).
  assert (T2 : 2 <= t) by (unfold t; lia). destruct (Perm255_ok (tellKs t) (tellKs_0 t T2)) as (xs & Ex & L & _).
  exists (tellKs t). eexists. exists (seq t (t - 1)). split; [apply coalition_seq; lia|]. split; [apply (SWROld_ok _ _ _ _ _ _ _ xs G V Ex L)|].
  intros ar' growcap' ks' evBufs' secret' shares' G' E' Ev.
  destruct (SWROld_inv _ _ _ _ _ _ _ _ G' E') as ((Hs' & _) & _ & xs' & Ex' & L' & _ & _ & ->).
  apply (tell_core t (Z.to_nat parts) secret secret' (tellKs t) ks' xs xs'); try assumption; try lia. reflexivity.
Qed.

(** C80: nor is SplitWithRandomizer with 20 or more parts (on a fresh pool). *)
Lemma C80_secrecy_fails_large_pf : forall fuel ar growcap trB evBufs secret parts threshold,
  grow_ok growcap -> valid_args secret parts threshold -> (20 <= parts)%Z -> (2 * threshold - 1 <= parts)%Z -> (3 * threshold <= 257)%Z ->
  exists ks shares is,
    coalition (Z.to_nat parts) (Z.to_nat threshold) is /\
    SplitWithRandomizer fuel ar growcap ks [] trB evBufs secret parts threshold = Ret shares /\
    forall fuel' ar' growcap' ks' trB' evBufs' secret' shares', grow_ok growcap' ->
      SplitWithRandomizer fuel' ar' growcap' ks' [] trB' evBufs' secret' parts threshold = Ret shares' ->
      pick [] shares' is = pick [] shares is -> nth 0 secret' x00 = nth 0 secret x00.
Proof.
  intros fuel ar growcap trB evBufs secret parts threshold G V H20 Hp Ht. pose proof V as (Hs & H2 & H3 & H4). set (t := Z.to_nat threshold).
  assert (T2 : 2 <= t) by (unfold t; lia).
  assert (Hb : b2i (z2b parts) = Z.to_nat parts) by (apply b2i_z2b; lia).
  destruct (GetUniqueBytes_large fuel (tellKs t) (z2b parts) ltac:(rewrite Hb; lia) (tellKs_0 t T2)) as (us & Eu & _).
  pose proof (SWR_ok fuel ar growcap (tellKs t) [] trB evBufs secret parts threshold us G V Eu) as E.
  exists (tellKs t). eexists. exists (seq t (t - 1)). split; [apply coalition_seq; lia|]. split; [exact E|].
  intros fuel' ar' growcap' ks' trB' evBufs' secret' shares' G' E' Ev.
  destruct (SWR_large_inv _ _ _ _ _ _ _ _ _ _ G' H20 E') as ((Hs' & _) & xs' & Ex' & L' & ->).
  destruct (SWR_large_inv _ _ _ _ _ _ _ _ _ _ G H20 E) as (_ & xs & Ex & L & Es). rewrite Es in Ev.
  rewrite !tagsOf_firstn in Ev by lia.
  apply (tell_core t (Z.to_nat parts) secret secret' (tellKs t) ks' xs xs'); try assumption; try lia. reflexivity.
Qed.

(** C80: krawczyk.SplitWithRandomizer with 20 or more parts: the tag of metadata share 0 shows AES key byte 0 (up to 0 versus 255), and
    key byte [i] is the tag of metadata share [i] minus 2 wherever the shuffle leaves element [i] undisturbed. *)
Lemma C80_key_pf : forall fuel E zp ar growcap ks polB trB evBufs secret parts threshold shares,
  grow_ok growcap -> (20 <= parts)%Z ->
  krSplitWithRandomizer fuel E zp ar growcap ks polB trB evBufs secret parts threshold = Ret shares ->
  exists key ciphertext, length key = 16 /\ ofb_cipher E key secret ciphertext /\
    (forall i, i < Z.to_nat threshold -> kr_piece (nth i shares []) = padded_piece (Z.to_nat threshold) i ciphertext) /\
    b2i (tag (kr_meta (nth 0 shares []))) = 2 + b2i (nth 0 key x00) mod 255 /\
    forall i, 0 < i < 16 -> undisturbed ks i -> nth i key x00 = bsub (tag (kr_meta (nth i shares []))) x02.
Proof.
  intros fuel E zp ar growcap ks polB trB evBufs secret parts threshold shares G Hp R.
  destruct (krSWR_inv _ _ _ _ _ _ _ _ _ _ _ _ _ G R) as (V & Hk & ms & polys & tags & E1 & E2 & S & ->). pose proof V as (Hs & HL & H2 & H3 & H4 & Hz).
  assert (M : forall i, i < Z.to_nat parts -> length (nth i ms []) = 21).
  { intros i Hi. rewrite (is_sharing_lengths _ _ _ _ _ i S) by lia. rewrite krMeta_length by exact Hk. reflexivity. }
  destruct (SWR_inv _ _ _ _ _ _ _ _ _ _ _ G E1) as (Vm & us & Ex & Es).
  assert (Hb : b2i (z2b parts) = Z.to_nat parts) by (apply b2i_z2b; lia).
  destruct (GUB_large_inv _ _ _ _ ltac:(rewrite Hb; lia) Ex) as (p & Ep & L & ->). rewrite Hb in Es.
  assert (T : forall i, i < Z.to_nat parts -> tag (nth i ms []) = badd (nth i p x00) x01).
  { intros i Hi. rewrite Es. rewrite tagsOf_firstn by lia. rewrite (nth_map' _ _ i [] x00) by (rewrite tagsOf_length; lia).
    rewrite tag_share_at, nth_tagsOf by lia. reflexivity. }
  assert (K : forall i, i < 16 -> nth i (Read ks (zeros 16)) x00 = ks i).
  { intros i Hi. rewrite Read_zeros. unfold take_stream. apply nth_map_seq. exact Hi. }
  exists (Read ks (zeros 16)), (krCipher E (Read ks (zeros 16)) secret). split; [exact Hk|]. split; [apply ofb_cipher_iff; reflexivity|]. split; [|split].
  - intros i Hi. rewrite nth_map_seq by lia. rewrite krShare_piece by (apply M; lia). apply krPiece_padded; lia.
  - rewrite nth_map_seq by lia. rewrite krShare_meta by (apply M; lia). rewrite T by lia. rewrite (K 0) by lia.
    pose proof (Perm_first ks p Ep) as F. unfold partner in F. rewrite Nat.sub_0_r in F.
    assert (Hk0 : ks 0 <> xfe) by (intros F'; rewrite (Perm255_panic ks F') in Ep; discriminate).
    rewrite <- (i2b_b2i (nth 0 p x00)), F. pose proof (Nat.mod_upper_bound (b2i (ks 0)) 255 ltac:(lia)).
    assert (b2i (ks 0) mod 255 <> 254).
    { intros F'. apply Hk0, b2i_inj. change (b2i xfe) with 254. pose proof (b2i_lt (ks 0)). destruct (Nat.lt_ge_cases (b2i (ks 0)) 255).
      - rewrite Nat.mod_small in F' by assumption. exact F'.
      - replace (b2i (ks 0)) with 255 in F' by lia. cbn in F'. discriminate. }
    rewrite b2i_tag by lia. lia.
  - intros i Hi U. rewrite nth_map_seq by lia. rewrite krShare_meta by (apply M; lia). rewrite T by lia. rewrite K by lia.
    destruct (undisturbed_small ks i ltac:(lia) U) as (A & B). rewrite (Perm_undisturbed ks p i Ep A U).
    apply b2i_inj. rewrite b2i_bsub by (rewrite b2i_tag by lia; change (b2i x02) with 2; lia). rewrite b2i_tag by lia. change (b2i x02) with 2. lia.
Qed.

(** ** C08, continued *)
(** C08: one part replaced by any other data under the same tag: the result changes exactly where the data differ. *)
Lemma C08_one_part_pf : forall parts r i p',
  Combine parts = Ret r -> ~ In x00 (map tag parts) -> i < length parts ->
  length p' = length (nth i parts []) -> tag p' = tag (nth i parts []) ->
  exists r', Combine (replace parts i p') = Ret r' /\ length r' = length r /\
    forall k, k < length r -> (nth k r' x00 = nth k r x00 <-> nth k p' x00 = nth k (nth i parts []) x00).
Proof.
  intros parts r i p' Hc H0 Hi Lp' Tp'. apply Combine_inv in Hc as (L & A1 & A2 & A3 & A4 & -> & _).
  rewrite !replace_set_nth. set (p := nth i parts []) in *.
  assert (Lp : length p = L) by (apply A3, nth_In, Hi).
  assert (Et : map tag (set_nth parts i p') = map tag parts).
  { rewrite map_set_nth, Tp'. unfold p. replace (tag (nth i parts [])) with (nth i (map tag parts) x00) by (apply nth_map'; exact Hi).
    apply set_nth_same. rewrite map_length. exact Hi. }
  exists (interpAt (set_nth parts i p') (L - 1) x00). split; [|split].
  - apply Combine_accept.
    + rewrite set_nth_length by exact Hi. exact A1.
    + exact A2.
    + intros q Hq. apply In_nth with (d := []) in Hq as (k & Hk & <-). rewrite set_nth_length in Hk by exact Hi.
      rewrite nth_set_nth by exact Hi. destruct (Nat.eqb_spec k i); [congruence|apply A3, nth_In, Hk].
    + rewrite Et. exact A4.
  - rewrite !interpAt_length. reflexivity.
  - intros j Hj. rewrite interpAt_length in Hj. rewrite !nth_interpAt by exact Hj. rewrite Et.
    replace (ycol (set_nth parts i p') j) with (set_nth (ycol parts j) i (nth j p' x00)) by (unfold ycol; rewrite map_set_nth; reflexivity).
    rewrite lagrange_change by (unfold ycol; rewrite ?map_length; lia).
    unfold ycol at 2. rewrite (nth_map' (fun p => nth j p x00) parts i x00 []) by exact Hi. fold p.
    split; [|intros ->; rewrite gadd_self; ring].
    intros E. destruct (byte_eq_dec (nth j p' x00) (nth j p x00)) as [|Hv]; [assumption|exfalso].
    assert (Z : gmul (gadd (nth j p x00) (nth j p' x00)) (basis (map tag parts) i x00) = x00).
    { set (w := gmul _ _) in *. set (u := lagrange _ _ _) in *. clearbody u w.
      assert (gadd u (gadd u w) = gadd u u) by (rewrite E; reflexivity).
      rewrite <- gadd_assoc', gadd_self, gadd_0_l in H. exact H. }
    revert Z. apply gmul_neq_0.
    + intros F. apply (proj1 (gadd_eq_0 _ _)) in F. apply Hv. symmetry. exact F.
    + apply basis_neq_0; [exact A4|rewrite map_length; exact Hi|exact H0].
Qed.

(** C08: a part tagged 0 is the exception: Combine then returns that part's own data, whatever the other parts hold. *)
Lemma C08_zero_tag_pf : forall parts r p,
  Combine parts = Ret r -> In p parts -> tag p = x00 -> r = firstn (length r) p /\ length p = S (length r).
Proof.
  intros parts r p Hc Hp Tp. apply Combine_inv in Hc as (L & A1 & A2 & A3 & A4 & -> & _). rewrite interpAt_length.
  split; [|rewrite (A3 p Hp); lia]. apply (nth_ext _ _ x00 x00); [rewrite interpAt_length, firstn_length, (A3 p Hp); lia|].
  intros j Hj. rewrite interpAt_length in Hj. rewrite nth_interpAt by exact Hj. rewrite <- Tp at 1. rewrite interp_at_part by assumption.
  rewrite nth_firstn by exact Hj. reflexivity.
Qed.

(*COPY
Example C08_one_part_case : exists v, v <> x04 /\ Combine [[x05; x09; x01]; [x06; x09; x02]] = Ret [x04; x09] /\
  Combine (replace [[x05; x09; x01]; [x06; x09; x02]] 1 [x07; x09; x02]) = Ret [v; x09].
Proof. eexists. split; [|split; vm_compute; reflexivity]. discriminate. Qed.
Example C08_zero_case : Combine [[x05; x09; x01]; [x06; x08; x00]] = Ret [x06; x08].
Proof. vm_compute. reflexivity. Qed.
(** five parts, threshold 3: the hypotheses of the secrecy failure are met *)
Example C80_hyp : valid_args ex_secret 5 3 /\ (2 * 3 - 1 <= 5)%Z /\ (3 * 3 <= 257)%Z /\ valid_args ex_secret 20 3.
Proof. repeat split; try discriminate; lia. Qed.
END*)
