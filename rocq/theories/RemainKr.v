(** What the krawczyk split functions leave in the pool (C76). *)
From Coq Require Import List NArith ZArith Lia Arith Bool.
From Coq.Init Require Import Byte.
From Verif Require Import GoSem Bytes GoFacts Vector Pool Polynomial Shamir SplitFacts Libs Krawczyk KrawczykFacts Memory MemCalls SpecMemCalls MemFacts MemSplit MemTop KrMem KrMemFacts KrSplitMem KrSplitMemFacts
  SpecRemain RemainFacts.
Import ListNotations.

Lemma pf_copy dst src : poolfree (mcopy dst src).
Proof. intros m bp ep. reflexivity. Qed.
Lemma pf_assemble n ms ws : poolfree (mKrAssemble n ms ws).
Proof.
  unfold mKrAssemble, mNewByteMatrix, mslice. repeat first [apply pf_bind|apply pf_foreach|apply pf_ret|apply pf_lift|apply pf_make|apply pf_copy|intro].
  destruct s as [[lo hi] o]. repeat first [apply pf_bind|apply pf_foreach|apply pf_ret|apply pf_lift|intro].
  destruct a2 as [[lo hi] o]. apply pf_ret.
Qed.

Section Inv.
Context (E : blockCipher) (zp : bool) (extra : nat) (keyBytes : list byte) (m : memory) (secret : gslice) (parts threshold : Z).
Context (mshare : gslice -> Z -> Z -> M (list gslice)) (vshare : list byte -> Z -> Z -> outcome (list (list byte))).
Hypothesis (MO : mem_ok m) (U : usable m secret) (HK : length keyBytes = 16).
Hypothesis HS : forall h k, step none (m_heap m) h -> usable (setHeap m h) k ->
  call_ok (setHeap m h) (mshare k parts threshold (setHeap m h)) (vshare (contents h k) parts threshold).
Hypothesis HV : forall l ss, (0 < threshold)%Z -> length l = 20 -> vshare l parts threshold = Ret ss ->
  length ss = Z.to_nat parts /\ forall s, In s ss -> length s = 21.

Lemma mKrSplitWith_inv m' out : mKrSplitWith E zp extra keyBytes mshare secret parts threshold m = (m', Ret out) ->
  exists h kl m6 ms, step none (m_heap m) h /\ usable (setHeap m h) kl /\ contents h kl = krMeta keyBytes (sl_len secret) /\
    mshare kl parts threshold (setHeap m h) = (m6, Ret ms) /\ m_bpool m' = m_bpool m6 /\ mem_ok m6 /\
    forall a, a < length (m_heap m6) -> nth a (m_heap m') [] = nth a (m_heap m6) [].
Proof.
  intros H. unfold mKrSplitWith in H.
  destruct (krCheck (sl_len secret) parts threshold) as [e|] eqn:CK; [discriminate H|].
  set (c := krCipher E keyBytes (mcontents m secret)).
  assert (LC : length c = sl_len secret) by (unfold c; rewrite krCipher_length; apply usable_length, U).
  destruct (mKey_ok keyBytes m MO HK) as (h0 & h1 & key & F0 & F1 & S1 & U1 & C1 & L1 & P1).
  rewrite (mbind_ret _ _ _ _ _ F0), (mbind_ret _ _ _ _ _ F1) in H. clear F0 F1.
  pose proof (mem_ok_alloc m h1 MO S1) as MO1.
  destruct (keeps_usable m (setHeap m h1) secret (keeps_alloc m h1 MO S1) U) as [_ CS].
  destruct (mnew_ok c (setHeap m h1) MO1) as (h2 & es & F2 & S2 & U2 & C2 & L2 & P2 & A2). rewrite setHeap_setHeap in F2, U2. cbn [setHeap m_heap] in S2, A2.
  match type of H with mbind ?f ?k (setHeap m h1) = _ => assert (F2' : f (setHeap m h1) = (setHeap m h2, Ret es)) end.
  { rewrite CS. unfold mcontents at 2. cbn [setHeap m_heap]. rewrite C1, encrypt_ok by (apply aes16; exact HK). exact F2. }
  rewrite (mbind_ret _ _ _ _ _ F2') in H. clear F2 F2'.
  pose proof (step_none_trans _ _ _ S1 S2) as S02. pose proof (mem_ok_alloc m h2 MO S02) as MO2.
  destruct (rsNew zp threshold (parts - threshold)) as [e|] eqn:RN; [discriminate H|].
  apply rsNew_range in RN as (T1 & T2 & T3).
  cbv zeta in H. set (d := Z.to_nat threshold) in *. set (n := Z.to_nat parts) in *.
  assert (Cc : mcontents (setHeap m h2) es = c) by exact C2.
  destruct (list_eq_dec byte_eq_dec c []) as [Ec|Ec].
  { exfalso. unfold mbind at 1 in H. rewrite Cc, Ec in H. cbn [rsSplit length Nat.eqb bind] in H. discriminate H. }
  assert (Pos : 0 < length c) by (destruct c; [congruence|cbn [length]; lia]).
  set (per := rsPerShard d (length c)). set (enc := map (cw d per (rsData d c)) (seq 0 n)).
  assert (RS : (do s <- rsSplit d n c; rsEncode d n s) = Ret enc).
  { rewrite rsSplit_ok by exact Ec. cbn [bind]. apply rsEncode_ok; try lia; [apply rsPerShard_pos; lia|apply rsData_length|intros i Hi; apply rsData_row_length; lia]. }
  match type of H with mbind ?f ?k (setHeap m h2) = _ => assert (F3 : f (setHeap m h2) = (setHeap m h2, Ret enc)) end.
  { rewrite Cc. rewrite <- RS. reflexivity. }
  rewrite (mbind_ret _ _ _ _ _ F3) in H. clear F3.
  destruct (mnews_ok enc [] (setHeap m h2) MO2) as (h3 & ws & F3 & S3 & U3 & C3 & P3). rewrite setHeap_setHeap in F3, U3. cbn [setHeap m_heap app] in S3, F3.
  rewrite (mbind_ret _ _ _ _ _ F3) in H. clear F3.
  pose proof (step_none_trans _ _ _ S02 S3) as S03. pose proof (mem_ok_alloc m h3 MO S03) as MO3.
  assert (Le : length enc = n) by (unfold enc; rewrite map_length, seq_length; reflexivity).
  assert (Lw : length ws = n) by (rewrite <- Le, <- C3, map_length; reflexivity).
  destruct (mappends_ok extra ws (setHeap m h3) MO3 U3 P3 (length ws) 0 [] h3 ltac:(lia) (step_refl _ _)) as (h4 & ws' & F4 & S4 & _ & U4 & C4).
  rewrite setHeap_setHeap in F4, U4. cbn [setHeap m_heap app] in S4, F4. change (map (mcontents (setHeap m h3)) ws) with (map (contents h3) ws) in C4. rewrite C3 in C4.
  rewrite (mbind_ret _ _ _ _ _ F4) in H. clear F4.
  pose proof (step_none_trans _ _ _ S03 S4) as S04. pose proof (mem_ok_alloc m h4 MO S04) as MO4.
  rewrite Lw, <- Le in C4. rewrite L2, LC in H.
  set (lb := leBytes LenLen (N.of_nat (sl_len secret) mod 4294967296)) in *.
  pose proof (step_none_trans _ _ _ S2 (step_none_trans _ _ _ S3 S4)) as S14.
  destruct (keeps_usable (setHeap m h1) (setHeap m h4) key) as [Uk Ck]; [exact (keeps_alloc (setHeap m h1) h4 MO1 S14)|exact U1|].
  destruct (mappend_ok extra key lb (setHeap m h4) MO4 Uk ltac:(lia) ltac:(unfold lb, LenLen; cbn [leBytes]; discriminate)) as (h5 & kl & F5 & S5 & U5 & C5 & L5 & A5).
  rewrite setHeap_setHeap in F5, U5. cbn [setHeap m_heap] in S5, A5. rewrite (mbind_ret _ _ _ _ _ F5) in H. clear F5.
  pose proof (step_none_trans _ _ _ S04 S5) as S05. pose proof (mem_ok_alloc m h5 MO S05) as MO5.
  assert (Ckl : contents h5 kl = keyBytes ++ lb) by (rewrite C5, Ck; unfold mcontents; cbn [setHeap m_heap]; rewrite C1; reflexivity).
  specialize (HS h5 kl S05 U5). rewrite Ckl in HS. destruct HS as (K6 & R6).
  destruct (mshare kl parts threshold (setHeap m h5)) as [m6 r6] eqn:F6. cbn [fst snd] in K6, R6.
  unfold mbind at 1 in H. rewrite F6 in H. destruct r6 as [ms|e|p| |]; try discriminate H.
  destruct R6 as (R6 & Fr & Sep).
  assert (L20 : length (keyBytes ++ lb) = 20) by (rewrite app_length, HK; unfold lb; rewrite leBytes_length; reflexivity).
  destruct (HV _ _ T1 L20 R6) as [V1 V2]. rewrite map_length in V1.
  assert (MO6 : mem_ok m6) by apply K6.
  assert (Kw : keeps (setHeap m h4) m6) by (eapply keeps_trans; [exact (keeps_alloc (setHeap m h4) h5 MO4 S5)|]; rewrite setHeap_setHeap; exact K6).
  assert (Uw : Forall (fun w => usable m6 w /\ mcontents m6 w = contents h4 w) ws').
  { eapply Forall_impl; [|exact U4]. intros w Hw. exact (keeps_usable _ _ w Kw Hw). }
  assert (Cw : map (mcontents m6) ws' = map (contents h4) ws').
  { apply map_ext_in. rewrite Forall_forall in Uw. intros w Hw. apply Uw, Hw. }
  assert (Lw' : length ws' = n) by (pose proof (f_equal (@length _) C4) as Q; rewrite !map_length, seq_length in Q; lia).
  assert (CA : m_bpool (fst (mKrAssemble n ms ws' m6)) = m_bpool m6 /\ forall a, a < length (m_heap m6) -> nth a (m_heap (fst (mKrAssemble n ms ws' m6))) [] = nth a (m_heap m6) []).
  { apply (poolfree_call _ m6 _ (pf_assemble n ms ws')); [reflexivity|]. intros m0 H0 B. eexists.
    assert (MC : mcontents m0 = mcontents m6) by (unfold mcontents; rewrite H0; reflexivity).
    apply (mKrAssemble_ok n ms ws' 21 (per + 1)); try assumption; try lia.
    - apply mem_ok_strip, B.
    - eapply Forall_impl; [|exact Fr]. intros s Hs. eapply usable_strip; [exact H0|exact B|apply Hs].
    - eapply Forall_impl; [|exact Uw]. intros s Hs. eapply usable_strip; [exact H0|exact B|apply Hs].
    - intros i Hi. rewrite MC. apply V2, nth_In. rewrite map_length. lia.
    - intros i Hi. rewrite MC, Cw, C4. rewrite nth_map_seq by lia. unfold enc. rewrite nth_map_seq by lia. rewrite app_length, cw_length. reflexivity. }
  cbv beta in H. rewrite H in CA. cbn [fst] in CA. destruct CA as [CA1 CA2].
  exists h5, kl, m6, ms. split; [exact S05|]. split; [exact U5|]. split; [exact Ckl|]. split; [exact F6|]. split; [exact CA1|]. split; [exact MO6|exact CA2].
Qed.
End Inv.
