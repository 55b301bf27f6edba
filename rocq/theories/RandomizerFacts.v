(** SplitWithRandomizer and SplitWithRandomizerOld: outcomes, sharings and leaks. *)
From Coq Require Import List NArith ZArith Lia Arith Bool Permutation.
From Coq.Init Require Import Byte.
From Verif Require Import GoSem Bytes Spec Galois GF PolyFacts Vector GoFacts VectorFacts Csprng Pool Polynomial PolynomialFacts Shamir SplitFacts CombineFacts RegenFacts Secrecy CsprngFacts Derived.
Import ListNotations.

Lemma b2i_z2b z : (0 <= z < 256)%Z -> b2i (z2b z) = Z.to_nat z.
Proof.
  intros H. unfold b2i, z2b. rewrite Z.mod_small by exact H. rewrite b2n_n2b_small by lia. lia.
Qed.

Lemma GetUniqueBytes_inv fuel ks n xs : GetUniqueBytes fuel ks n = Ret xs -> length xs = b2i n /\ NoDup xs.
Proof.
  intros H. destruct (Nat.lt_ge_cases (b2i n) 20) as [Hn|Hn].
  - apply GetUniqueBytes_0 in H; [|exact Hn]. split; [apply H|]. eapply picks_NoDup, H.
  - destruct (byte_eq_dec (ks 0) xfe) as [E|E].
    + rewrite GetUniqueBytes_panic in H by assumption. discriminate.
    + destruct (GetUniqueBytes_large fuel ks n Hn E) as (out & E' & L & ND & _). rewrite E' in H. injection H as <-. auto.
Qed.

(** what SplitWithRandomizer returns once the coordinates [xs] are drawn *)
Definition swrBuf (growcap : nat -> nat -> nat) (ks : nat -> byte) (polB : bbuf) (t N : nat) : list byte :=
  Read ks (firstn (t * N) (resetGrow growcap polB (t * N))).

Lemma swrBuf_length growcap ks polB t N : grow_ok growcap -> length (swrBuf growcap ks polB t N) = t * N.
Proof.
  intros G. unfold swrBuf. rewrite Read_length, firstn_length. pose proof (resetGrow_length growcap polB (t * N) G). lia.
Qed.

Lemma swrBuf_fresh growcap ks t N : grow_ok growcap -> 0 < t * N -> swrBuf growcap ks [] t N = take_stream ks (t * N).
Proof.
  intros G H. unfold swrBuf, resetGrow. cbn [length]. destruct (Nat.leb_spec (t * N) 0); [lia|].
  specialize (G 0 (t * N) H). rewrite <- Read_zeros. f_equal. unfold zeros.
  rewrite <- (firstn_all (repeat x00 (t * N))). rewrite repeat_length.
  replace (growcap 0 (t * N)) with (t * N + (growcap 0 (t * N) - t * N)) by lia. rewrite repeat_app.
  rewrite firstn_app_exact by apply repeat_length. rewrite firstn_all2 by (rewrite repeat_length; lia). reflexivity.
Qed.

Lemma SWR_ok fuel ar growcap ks polB trB evBufs secret parts threshold xs :
  grow_ok growcap -> valid_args secret parts threshold -> GetUniqueBytes fuel ks (z2b parts) = Ret xs ->
  SplitWithRandomizer fuel ar growcap ks polB trB evBufs secret parts threshold
  = Ret (map (share_at (polysOf (Z.to_nat threshold) secret (swrBuf growcap ks polB (Z.to_nat threshold) (length secret))))
             (tagsOf (Z.to_nat parts) xs)).
Proof.
  intros G V Hx. pose proof V as (_ & H2 & H3 & H4). apply valid_checkArgs in V.
  destruct (GetUniqueBytes_inv _ _ _ _ Hx) as (L & _). rewrite b2i_z2b in L by lia.
  destruct (SplitWithRandomizerBufs_ok fuel ar growcap ks polB trB evBufs secret parts threshold xs G V Hx) as (a & b & E & _); [lia|].
  unfold SplitWithRandomizer. rewrite E. reflexivity.
Qed.

Lemma SWR_notret fuel ar growcap ks polB trB evBufs secret parts threshold :
  valid_args secret parts threshold ->
  (GetUniqueBytes fuel ks (z2b parts) = Diverge -> SplitWithRandomizer fuel ar growcap ks polB trB evBufs secret parts threshold = Diverge) /\
  (forall p, GetUniqueBytes fuel ks (z2b parts) = Panic p -> SplitWithRandomizer fuel ar growcap ks polB trB evBufs secret parts threshold = Panic p).
Proof.
  intros V. apply valid_checkArgs in V. unfold SplitWithRandomizer, SplitWithRandomizerBufs. rewrite V.
  split; [intros ->; reflexivity|intros p ->; reflexivity].
Qed.

(** a returning call, for whatever reason it returned *)
Lemma SWR_inv fuel ar growcap ks polB trB evBufs secret parts threshold shares :
  grow_ok growcap -> SplitWithRandomizer fuel ar growcap ks polB trB evBufs secret parts threshold = Ret shares ->
  valid_args secret parts threshold /\ exists xs, GetUniqueBytes fuel ks (z2b parts) = Ret xs /\
   shares = map (share_at (polysOf (Z.to_nat threshold) secret (swrBuf growcap ks polB (Z.to_nat threshold) (length secret))))
             (tagsOf (Z.to_nat parts) xs).
Proof.
  intros G H. assert (V : valid_args secret parts threshold).
  { apply valid_checkArgs. unfold SplitWithRandomizer, SplitWithRandomizerBufs in H. destruct (checkArgs secret parts threshold); [discriminate|reflexivity]. }
  split; [exact V|]. destruct (GetUniqueBytes fuel ks (z2b parts)) as [xs| |p| |] eqn:E.
  - exists xs. split; [reflexivity|]. erewrite SWR_ok in H by eassumption. congruence.
  - exfalso. destruct (Nat.lt_ge_cases (b2i (z2b parts)) 20) as [Hn|Hn].
    + unfold SplitWithRandomizer, SplitWithRandomizerBufs in H. apply valid_checkArgs in V. rewrite V, E in H. discriminate.
    + unfold SplitWithRandomizer, SplitWithRandomizerBufs in H. apply valid_checkArgs in V. rewrite V, E in H. discriminate.
  - exfalso. unfold SplitWithRandomizer, SplitWithRandomizerBufs in H. apply valid_checkArgs in V. rewrite V, E in H. discriminate.
  - exfalso. unfold SplitWithRandomizer, SplitWithRandomizerBufs in H. apply valid_checkArgs in V. rewrite V, E in H. discriminate.
  - exfalso. unfold SplitWithRandomizer, SplitWithRandomizerBufs in H. apply valid_checkArgs in V. rewrite V, E in H. discriminate.
Qed.

Lemma polysOf_sharing t secret buf tags : 0 < t -> length buf = t * length secret -> NoDup tags ->
  is_sharing secret t (polysOf t secret buf) tags (map (share_at (polysOf t secret buf)) tags).
Proof.
  intros Ht Hb ND. apply is_sharing_shares; [apply polysOf_intercepts|apply polysOf_row_length; assumption|exact ND].
Qed.

Lemma SWR_sharing fuel ar growcap ks polB trB evBufs secret parts threshold shares :
  grow_ok growcap -> SplitWithRandomizer fuel ar growcap ks polB trB evBufs secret parts threshold = Ret shares ->
  valid_args secret parts threshold /\ length shares = Z.to_nat parts /\
  exists polys tags, is_sharing secret (Z.to_nat threshold) polys tags shares.
Proof.
  intros G H. destruct (SWR_inv _ _ _ _ _ _ _ _ _ _ _ G H) as (V & xs & Hx & ->). split; [exact V|].
  destruct V as (_ & H2 & H3 & H4). destruct (GetUniqueBytes_inv _ _ _ _ Hx) as (L & ND). rewrite b2i_z2b in L by lia.
  split; [rewrite map_length; apply tagsOf_length; lia|].
  eexists _, _. apply polysOf_sharing; [lia|apply swrBuf_length, G|apply tagsOf_NoDup, ND].
Qed.

Lemma SWROld_ok ar growcap ks evBufs secret parts threshold xs :
  grow_ok growcap -> valid_args secret parts threshold -> Perm ks xff = Ret xs -> length xs = 255 ->
  SplitWithRandomizerOld ar growcap ks evBufs secret parts threshold
  = Ret (map (share_at (polysOf (Z.to_nat threshold) secret (take_stream ks (Z.to_nat threshold * length secret)))) (tagsOf (Z.to_nat parts) xs)).
Proof.
  intros G V Hx L. pose proof V as (_ & H2 & H3 & H4). apply valid_checkArgs in V.
  apply SplitWithRandomizerOld_ok; try assumption. lia.
Qed.

Lemma SWROld_panic ar growcap ks evBufs secret parts threshold :
  valid_args secret parts threshold -> ks 0 = xfe ->
  SplitWithRandomizerOld ar growcap ks evBufs secret parts threshold = Panic PIndex.
Proof.
  intros V H. apply valid_checkArgs in V. unfold SplitWithRandomizerOld. rewrite V, (Perm255_panic ks H). reflexivity.
Qed.

Lemma SWROld_inv ar growcap ks evBufs secret parts threshold shares :
  grow_ok growcap -> SplitWithRandomizerOld ar growcap ks evBufs secret parts threshold = Ret shares ->
  valid_args secret parts threshold /\ ks 0 <> xfe /\ exists xs, Perm ks xff = Ret xs /\ length xs = 255 /\ NoDup xs /\ ~ In xff xs /\
   shares = map (share_at (polysOf (Z.to_nat threshold) secret (take_stream ks (Z.to_nat threshold * length secret)))) (tagsOf (Z.to_nat parts) xs).
Proof.
  intros G H. assert (V : valid_args secret parts threshold).
  { apply valid_checkArgs. unfold SplitWithRandomizerOld in H. destruct (checkArgs secret parts threshold); [discriminate|reflexivity]. }
  split; [exact V|]. destruct (byte_eq_dec (ks 0) xfe) as [E|E]; [rewrite SWROld_panic in H by assumption; discriminate|].
  split; [exact E|]. destruct (Perm255_ok ks E) as (xs & Ex & L & ND & NF). exists xs. repeat (split; [assumption|]).
  rewrite (SWROld_ok _ _ _ _ _ _ _ xs) in H by assumption. congruence.
Qed.

(** ** a tag of 0 exposes the secret *)
Lemma share_at_zero t secret buf : share_at (polysOf t secret buf) x00 = secret ++ [x00].
Proof.
  unfold share_at. f_equal. rewrite <- (polysOf_intercepts t secret buf) at 2. apply map_ext. intros p. rewrite peval_heval. apply heval_0.
Qed.

(** ** the published key stream bytes *)
Lemma bsub_badd x : bsub (badd x x01) x01 = x.
Proof. apply beq_true. revert x. apply sweep1. vm_compute. reflexivity. Qed.

(** the secret byte [0] computed from shares 1 .. t-1 of SplitWithRandomizer: [view] lists these shares *)
Lemma heval_cons_sum c0 cs x : heval (c0 :: cs) x = gadd c0 (gsum (map (fun c => gmul (nth (c - 1) cs x00) (gpow x c)) (seq 1 (length cs)))).
Proof.
  rewrite <- peval_heval. unfold peval. cbn [length seq map nth gpow]. rewrite gsum_cons. rewrite gmul_1_r. f_equal. f_equal.
  apply map_ext_in. intros c Hc. apply in_seq in Hc. destruct c as [|c]; [lia|]. cbn [nth]. replace (S c - 1) with c by lia. reflexivity.
Qed.

Lemma leakByte_ok t n secret ks p : 2 <= t -> t * p + t <= n -> p < length secret ->
  leakByte t p (pick [] (map (share_at (polysOf t secret (take_stream ks (t * length secret)))) (tagsOf n (take_stream ks n))) (seq (t * p + 1) (t - 1)))
  = nth p secret x00.
Proof.
  intros Ht Hn HN.
  set (buf := take_stream ks (t * length secret)). set (polys := polysOf t secret buf). set (tags := tagsOf n (take_stream ks n)).
  assert (Lt : length tags = n) by (apply tagsOf_length; rewrite take_stream_length; lia).
  rewrite (pick_map (share_at polys) tags _ [] x00) by (intros i Hi; apply in_seq in Hi; lia).
  assert (Tg : forall c, c < n -> nth c tags x00 = badd (ks c) x01).
  { intros c Hc. unfold tags. rewrite nth_tagsOf by (rewrite ?take_stream_length; lia). rewrite nth_take_stream by exact Hc. reflexivity. }
  assert (Vw : forall c, c < t - 1 -> nth c (map (share_at polys) (pick x00 tags (seq (t * p + 1) (t - 1)))) [] = share_at polys (badd (ks (t * p + S c)) x01)).
  { intros c Hc. rewrite (nth_map' (share_at polys) _ c [] x00) by (rewrite pick_length, seq_length; exact Hc). f_equal.
    unfold pick. rewrite (nth_map' (fun i => nth i tags x00) (seq (t * p + 1) (t - 1)) c x00 0) by (rewrite seq_length; exact Hc).
    rewrite seq_nth by exact Hc. rewrite Tg by lia. do 2 f_equal. lia. }
  unfold leakByte. cbv zeta. rewrite Vw by lia. rewrite tag_share_at.
  rewrite nth_share_at by (unfold polys; rewrite polysOf_length; exact HN).
  unfold polys at 1. rewrite nth_polysOf by exact HN. unfold polyOf. rewrite heval_cons_sum.
  assert (Lr : length (skipn 1 (row t buf p)) = t - 1).
  { rewrite skipn_length, row_length; [reflexivity|]. unfold buf. rewrite take_stream_length. nia. }
  rewrite Lr. set (A := gsum _). set (B := gsum _).
  assert (E : A = B).
  { unfold A, B. f_equal. apply map_ext_in. intros c Hc. apply in_seq in Hc. f_equal. rewrite Vw by lia. rewrite tag_share_at, bsub_badd.
    rewrite nth_skipn. rewrite nth_row by lia. unfold buf. rewrite nth_take_stream by nia. reflexivity. }
  rewrite E. rewrite gadd_assoc', gadd_self. apply gadd_0_r.
Qed.

(** ** same randomizer, two secrets *)
Lemma share_xor t s s' buf x : 0 < t -> length s = length s' -> length buf = t * length s ->
  xor_bytes (data (share_at (polysOf t s buf) x)) (data (share_at (polysOf t s' buf) x)) = xor_bytes s s'.
Proof.
  intros Ht L Lb. rewrite !data_share_at.
  assert (L1 : length (polysOf t s buf) = length s) by apply polysOf_length.
  assert (L2 : length (polysOf t s' buf) = length s) by (rewrite polysOf_length; symmetry; exact L).
  apply nth_ext with x00 x00.
  - rewrite !xor_bytes_length; rewrite ?map_length; lia.
  - intros p Hp. rewrite xor_bytes_length in Hp by (rewrite !map_length; lia). rewrite map_length, L1 in Hp.
    rewrite !nth_xor_bytes by (rewrite ?map_length; lia).
    rewrite !(nth_map' (fun p => peval p x) _ p x00 []) by lia. rewrite !nth_polysOf by lia. rewrite !peval_heval.
    unfold polyOf. cbn [heval]. set (h := gmul x _). assert (C : forall u v, gadd u v = gadd v u) by (intros u v; exact (bxor_comm u v)).
    rewrite (C (nth p s' x00) h). rewrite gadd_assoc'. rewrite <- (gadd_assoc' h h). rewrite gadd_self, gadd_0_l. reflexivity.
Qed.
