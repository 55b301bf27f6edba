(** Proofs about what the krawczyk split functions leave in the buffer pool (C76). *)
From Coq Require Import List NArith ZArith Lia Arith Bool Permutation.
From Coq.Init Require Import Byte.
From Verif Require Import GoSem Bytes Spec SpecKr GoFacts Vector Csprng Pool Polynomial PolynomialFacts Shamir SplitFacts CombineFacts Derived Libs Krawczyk KrawczykFacts Memory MemCalls SpecMemCalls MemFacts MemSplit MemTop KrMem SpecKrMem KrMemFacts
  KrSplitMem SpecKrSplitMem KrSplitMemFacts SpecRemain RemainFacts RemainKr CsprngFacts RandomizerFacts KrawczykCombine Pf4 Pf6 Pf18.
Import ListNotations.

(*PROPS
From Coq Require Import List NArith ZArith Lia Arith Bool Permutation.
From Coq.Init Require Import Byte.
From Verif Require Import GoSem Bytes Spec SpecKr Vector Csprng Pool Polynomial Shamir Libs AES Krawczyk Memory MemCalls SpecMemCalls KrMem SpecKrMem KrSplitMem SpecKrSplitMem SpecRemain ExData Pf29.
Import ListNotations.
*)

Lemma buffered_move m m' b l : m_bpool m' = m_bpool m -> mem_ok m -> (forall a, a < length (m_heap m) -> nth a (m_heap m') [] = nth a (m_heap m) []) ->
  buffered m b l -> buffered m' b l.
Proof.
  intros P MO K. apply buffered_keep; [exact P|]. intros b0 I C. apply K. pose proof (bpool_pooled m b0 I C) as Q.
  apply (inv_lt [] m (sl_arr b0)); [exact MO|exact Q].
Qed.
Lemma scattered_move m m' b t l : 0 < t -> m_bpool m' = m_bpool m -> mem_ok m -> (forall a, a < length (m_heap m) -> nth a (m_heap m') [] = nth a (m_heap m) []) ->
  scattered m b t l -> scattered m' b t l.
Proof.
  intros T P MO K. apply scattered_keep; [exact T|exact P|]. intros b0 I C. apply K. pose proof (bpool_pooled m b0 I C) as Q.
  apply (inv_lt [] m (sl_arr b0)); [exact MO|exact Q].
Qed.

Lemma mKrSplit_leaves size E zp extra ar growcap krand perm stream secret parts threshold m m' shares :
  grow_ok growcap -> length perm = 255 -> 2 <= size -> mem_ok m -> length (m_bpool m) <= size -> usable m secret ->
  mKrSplit E zp extra size ar growcap krand perm stream secret parts threshold m = (m', Ret shares) ->
  (2 <= threshold)%Z /\ exists b b', buffered m' b (krMeta (take_stream krand 16) (sl_len secret)) /\ scattered m' b' (Z.to_nat threshold) (krMeta (take_stream krand 16) (sl_len secret)).
Proof.
  intros G LP SZ MO LB U H. unfold mKrSplit in H.
  destruct (fun HS HV => mKrSplitWith_inv E zp extra (take_stream krand LenKey) m secret parts threshold (mSplit size ar growcap perm stream)
    (Split ar growcap perm stream [] [] (fun _ => [])) MO U (take_stream_length _ _) HS HV m' shares H) as (h & kl & m6 & ms & S & Uk & Ck & F & P & MO6 & K).
  - intros h k S Uk. exact (mSplit_call size ar growcap perm stream [] [] (fun _ => []) k parts threshold (setHeap m h) G LP (mem_ok_alloc m h MO S) Uk).
  - intros l ss T L R. destruct (checkArgs l parts threshold) as [e|] eqn:CK.
    { unfold Split, SplitBufs in R. rewrite CK in R. discriminate. }
    pose proof CK as (T1 & PP & NE)%checkArgs_None. rewrite (Split_ok ar growcap perm stream [] [] (fun _ => []) l parts threshold G CK) in R by lia.
    change 21 with (20 + 1). rewrite <- L. eapply share_lengths; [| |injection R as R; symmetry; exact R].
    + rewrite map_length, LP. lia.
    + apply polysOf_length.
  - pose proof (threshold_pos _ _ _ _ _ _ _ _ _ _ F _ _ eq_refl) as T. split; [exact T|].
    destruct (C65_split_pf size ar growcap perm stream kl parts threshold (setHeap m h) m6 ms G LP SZ (mem_ok_alloc m h MO S) LB Uk F) as (b & b' & B & B').
    change (mcontents (setHeap m h) kl) with (contents h kl) in B, B'. rewrite Ck in B, B'. exists b, b'. split.
    + eapply buffered_move; eassumption.
    + eapply scattered_move; try eassumption. lia.
Qed.

Lemma mKrSWR_leaves size fuel E zp extra ar growcap ks secret parts threshold m m' shares :
  grow_ok growcap -> 2 <= size -> mem_ok m -> length (m_bpool m) <= size -> usable m secret ->
  mKrSplitWithRandomizer fuel E zp extra size ar growcap ks secret parts threshold m = (m', Ret shares) ->
  (2 <= threshold)%Z /\ exists b b', buffered m' b (krMeta (Read ks (zeros 16)) (sl_len secret)) /\ scattered m' b' (Z.to_nat threshold) (krMeta (Read ks (zeros 16)) (sl_len secret)).
Proof.
  intros G SZ MO LB U H. unfold mKrSplitWithRandomizer in H.
  destruct (fun HK HS HV => mKrSplitWith_inv E zp extra (Read ks (zeros LenKey)) m secret parts threshold (mSplitWithRandomizer size fuel ar growcap ks)
    (SplitWithRandomizer fuel ar growcap ks (nextStale m) [] (fun _ => [])) MO U HK HS HV m' shares H) as (h & kl & m6 & ms & S & Uk & Ck & F & P & MO6 & K).
  - rewrite Read_length; apply zeros_length.
  - intros h k S Uk. rewrite <- (nextStale_step m h MO S).
    exact (mSplitWithRandomizer_call size fuel ar growcap ks [] (fun _ => []) k parts threshold (setHeap m h) G (mem_ok_alloc m h MO S) Uk).
  - intros l ss T L R. destruct (SWR_inv _ _ _ _ _ _ _ _ _ _ _ G R) as (V & xs & X & ->). destruct (GetUniqueBytes_inv _ _ _ _ X) as (Lx & _).
    pose proof V as (_ & V2 & V3 & V4). rewrite b2i_z2b in Lx by lia. change 21 with (20 + 1). rewrite <- L. eapply share_lengths; [| |reflexivity].
    + lia.
    + apply polysOf_length.
  - pose proof (threshold_pos_r _ _ _ _ _ _ _ _ _ _ F _ _ eq_refl) as T. split; [exact T|].
    destruct (C65_splitwithrandomizer_pf size fuel ar growcap ks kl parts threshold (setHeap m h) m6 ms G SZ (mem_ok_alloc m h MO S) LB Uk F) as (b & b' & B & B').
    change (mcontents (setHeap m h) kl) with (contents h kl) in B, B'. rewrite Ck in B, B'. exists b, b'. split.
    + eapply buffered_move; eassumption.
    + eapply scattered_move; try eassumption. lia.
Qed.

Lemma Read_zeros ks n : Read ks (zeros n) = map ks (seq 0 n).
Proof.
  apply (nth_ext _ _ x00 x00); [rewrite Read_length, zeros_length, map_length, seq_length; reflexivity|]. intros i Hi. rewrite Read_length, zeros_length in Hi.
  unfold Read. rewrite KrawczykFacts.nth_xorStreamFrom by (rewrite zeros_length; exact Hi). rewrite nth_map_seq by exact Hi. unfold zeros. rewrite nth_repeat. cbn [Nat.add]. apply (GF.gadd_0_l).
Qed.

(** C76. When krawczyk.Split has returned, the pool of package shamir holds a buffer whose array starts with the AES key of this call and the length of
    the secret in the clear. The key decrypts the pieces: the piece of each of the first [threshold] shares is a part of the ciphertext that
    is the OFB encryption of the secret under this key. *)
Lemma C76_split_pf : forall size E zp extra ar growcap krand perm stream secret parts threshold m m' shares,
  grow_ok growcap -> Permutation perm (seq 0 255) -> 2 <= size -> mem_ok m -> length (m_bpool m) <= size -> usable m secret ->
  mKrSplit E zp extra size ar growcap krand perm stream secret parts threshold m = (m', Ret shares) ->
  exists b b' key ciphertext, length key = 16 /\
    buffered m' b (key ++ le32 (N.of_nat (length (mcontents m secret)))) /\
    scattered m' b' (Z.to_nat threshold) (key ++ le32 (N.of_nat (length (mcontents m secret)))) /\
    ofb_cipher E key (mcontents m secret) ciphertext /\
    forall i, i < Z.to_nat threshold -> kr_piece (mcontents m' (nth i shares nilSlice)) = padded_piece (Z.to_nat threshold) i ciphertext.
Proof.
  intros size E zp extra ar growcap krand perm stream secret parts threshold m m' shares G PM SZ MO LB U H.
  assert (LP : length perm = 255) by (rewrite (Permutation_length PM); apply seq_length).
  destruct (mKrSplit_leaves size E zp extra ar growcap krand perm stream secret parts threshold m m' shares G LP SZ MO LB U H) as (T & b & b' & B & B').
  pose proof (mKrSplit_call E zp extra size ar growcap krand perm stream [] [] (fun _ => []) secret parts threshold m G LP MO U) as [_ C].
  rewrite H in C. cbn [fst snd] in C. destruct C as (C & _ & _).
  assert (V : kr_valid_args zp (mcontents m secret) parts threshold).
  { apply (C34_contract_pf E zp ar growcap krand perm stream [] [] (fun _ => []) (mcontents m secret) parts threshold G PM). eexists. exact C. }
  destruct (krSplit_ok E zp ar growcap krand perm stream [] [] (fun _ => []) (mcontents m secret) parts threshold G PM V) as (ms & polys & _ & L1 & S1 & E1).
  rewrite E1 in C. injection C as C.
  exists b, b', (take_stream krand 16), (krCipher E (take_stream krand 16) (mcontents m secret)).
  unfold krMeta in B, B'. pose proof V as (_ & VL & V2 & V3 & V4 & _). rewrite <- (usable_length m secret U) in B, B'. rewrite le32_leBytes in B, B' by exact VL.
  split; [apply take_stream_length|]. split; [exact B|]. split; [exact B'|]. split; [apply ofb_cipher_iff; reflexivity|].
  intros i Hi. assert (Li : i < length shares) by (apply (f_equal (@length _)) in C; rewrite !map_length, seq_length in C; lia).
  rewrite <- (nth_map' (mcontents m') shares i [] nilSlice Li). rewrite <- C. rewrite nth_map_seq by lia.
  rewrite krShare_piece; [apply krPiece_padded; lia|]. rewrite (is_sharing_lengths _ _ _ _ _ i S1) by lia. rewrite krMeta_length by apply take_stream_length. reflexivity.
Qed.

(** C76. The same when krawczyk.SplitWithRandomizer has returned. *)
Lemma C76_splitwithrandomizer_pf : forall size fuel E zp extra ar growcap ks secret parts threshold m m' shares,
  grow_ok growcap -> 2 <= size -> mem_ok m -> length (m_bpool m) <= size -> usable m secret ->
  mKrSplitWithRandomizer fuel E zp extra size ar growcap ks secret parts threshold m = (m', Ret shares) ->
  exists b b' key ciphertext, length key = 16 /\
    buffered m' b (key ++ le32 (N.of_nat (length (mcontents m secret)))) /\
    scattered m' b' (Z.to_nat threshold) (key ++ le32 (N.of_nat (length (mcontents m secret)))) /\
    ofb_cipher E key (mcontents m secret) ciphertext /\
    forall i, i < Z.to_nat threshold -> kr_piece (mcontents m' (nth i shares nilSlice)) = padded_piece (Z.to_nat threshold) i ciphertext.
Proof.
  intros size fuel E zp extra ar growcap ks secret parts threshold m m' shares G SZ MO LB U H.
  destruct (mKrSWR_leaves size fuel E zp extra ar growcap ks secret parts threshold m m' shares G SZ MO LB U H) as (T & b & b' & B & B').
  pose proof (mKrSplitWithRandomizer_call fuel E zp extra size ar growcap ks [] (fun _ => []) secret parts threshold m G MO U) as [_ C].
  rewrite H in C. cbn [fst snd] in C. destruct C as (C & _ & _).
  destruct (krSWR_inv _ _ _ _ _ _ _ _ _ _ _ _ _ G C) as (V & LK & ms & polys & tags & _ & L1 & S1 & E1).
  exists b, b', (Read ks (zeros 16)), (krCipher E (Read ks (zeros 16)) (mcontents m secret)).
  unfold krMeta in B, B'. pose proof V as (_ & VL & V2 & V3 & V4 & _). rewrite <- (usable_length m secret U) in B, B'. rewrite le32_leBytes in B, B' by exact VL.
  split; [exact LK|]. split; [exact B|]. split; [exact B'|]. split; [apply ofb_cipher_iff; reflexivity|].
  intros i Hi. assert (Li : i < length shares) by (apply (f_equal (@length _)) in E1; rewrite !map_length, seq_length in E1; lia).
  rewrite <- (nth_map' (mcontents m') shares i [] nilSlice Li). rewrite E1. rewrite nth_map_seq by lia.
  rewrite krShare_piece; [apply krPiece_padded; lia|]. rewrite (is_sharing_lengths _ _ _ _ _ i S1) by lia. rewrite krMeta_length by exact LK. reflexivity.
Qed.

(** C76. Histories: a program that starts with nothing does anything, splits with krawczyk.Split, and then does anything except another split that
    uses the pool (it may overwrite every slice it has, combine, regenerate). The key is still in the pool. *)
Lemma C76_history_pf : forall size E zp ar growcap before extra krand perm stream k parts threshold after m env m' shares,
  grow_ok growcap -> 2 <= size -> Forall op_ok before -> Permutation perm (seq 0 255) -> Forall op_ok after -> Forall noPoolOp after ->
  clientRun size ar growcap (emptyMemory, []) before = (m, env) ->
  mKrSplit E zp extra size ar growcap krand perm stream (nthSlice env k) parts threshold m = (m', Ret shares) ->
  let m'' := fst (clientRun size ar growcap (m', env ++ shares) after) in
  exists b, buffered m'' b (map krand (seq 0 16) ++ le32 (N.of_nat (length (mcontents m (nthSlice env k))))).
Proof.
  intros size E zp ar growcap before extra krand perm stream k parts threshold after m env m' shares G SZ F1 PM F2 NP R1 H m''.
  assert (LP : length perm = 255) by (rewrite (Permutation_length PM); apply seq_length).
  assert (C0 : client_ok (emptyMemory, [])) by (split; [split; constructor|constructor]).
  pose proof (clientRun_ok size ar growcap before G F1 _ C0) as C.
  pose proof (clientRun_bounded size ar growcap before G F1 _ C0 ltac:(cbn; lia)) as LB.
  rewrite R1 in C, LB. cbn [fst] in LB. destruct C as [MO U]. cbn [fst snd] in MO, U. pose proof (usable_nthSlice m env k U) as Uk.
  destruct (mKrSplit_leaves size E zp extra ar growcap krand perm stream _ parts threshold m m' shares G LP SZ MO LB Uk H) as (T & b & b' & B & _).
  pose proof (mKrSplit_call E zp extra size ar growcap krand perm stream [] [] (fun _ => []) (nthSlice env k) parts threshold m G LP MO Uk) as [K CC].
  rewrite H in K, CC. cbn [fst snd] in K, CC. destruct CC as (CC & FR & _).
  assert (C' : client_ok (m', env ++ shares)).
  { split; [apply K|]. cbn [fst snd]. apply Forall_app. split.
    - eapply Forall_impl; [|exact U]. intros s Hs. eapply keeps_usable; eassumption.
    - eapply Forall_impl; [|exact FR]. intros s Hs. apply Hs. }
  destruct (clientRun_noPool size ar growcap after G F2 NP _ C') as [P KK]. fold m'' in P, KK. cbn [fst] in P, KK.
  assert (V : kr_valid_args zp (mcontents m (nthSlice env k)) parts threshold).
  { apply (C34_contract_pf E zp ar growcap krand perm stream [] [] (fun _ => []) _ parts threshold G PM). eexists. exact CC. }
  pose proof V as (_ & VL & _).
  unfold krMeta in B. rewrite <- (usable_length m _ Uk) in B. rewrite le32_leBytes in B by exact VL.
  exists b. eapply buffered_keep; eassumption.
Qed.

(*COPY
(** Beside C76: a program splits a two-byte secret with krawczyk.Split, overwrites its copy of the secret and throws the shares away; the
    pool then still has the key and the length. *)
Definition exr_krand (i : nat) : byte := i2b (5 * i + 9).
Example C76_run :
  let (m, env) := clientRun 1024 ex_ar growcap117 (emptyMemory, []) [KNew [x68; x69]] in
  match mKrSplit AES true 0 1024 ex_ar growcap117 exr_krand ex_perm ex_stream (nthSlice env 0) 3 2 m with
  | (m', Ret shares) =>
      let m'' := fst (clientRun 1024 ex_ar growcap117 (m', env ++ shares) [KStore 0 0 x00; KStore 0 1 x00; KStore 1 0 x00]) in
      firstn 20 (nth (sl_arr (nth 0 (m_bpool m'') nilSlice)) (m_heap m'') []) = map exr_krand (seq 0 16) ++ [x02; x00; x00; x00] /\
      mcontents m'' (nthSlice env 0) = [x00; x00] /\ map (fun s => length (mcontents m' s)) shares = [23; 23; 23]
  | _ => False
  end.
Proof. vm_compute. repeat split. Qed.
END*)
