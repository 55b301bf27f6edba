(** Proofs of the properties of the split functions run with the generator of math/rand (C51-C53). *)
From Coq Require Import List NArith ZArith Lia Arith Bool Permutation.
From Coq.Init Require Import Byte.
From Verif Require Import GoSem Bytes Spec SpecRand SpecKr GF PolyFacts GoFacts Vector Csprng Pool Polynomial Shamir Libs AES Krawczyk Worker
  PolynomialFacts SplitFacts CombineFacts Secrecy Derived KrawczykFacts KrawczykCombine MathRand MathRandFacts RandAttack Pf6.
Import ListNotations.

(*PROPS
From Coq Require Import List NArith ZArith Lia Arith Bool Permutation.
From Coq.Init Require Import Byte.
From Verif Require Import GoSem Bytes Spec SpecRand SpecKr Vector Csprng Pool Polynomial Shamir Libs AES Krawczyk Worker MathRand ExData Pf10.
Import ListNotations.
*)

Lemma perm_runs cooked r : length cooked = 607 -> reachable cooked r ->
  exists F perm k, Permutation perm (seq 0 255) /\ forall fuel, F <= fuel -> rngPerm fuel r 255 = Ret (perm, Nat.iter k step r).
Proof.
  intros L H. pose proof (reach_wf cooked r L H) as W.
  destruct (rngPerm_terminates r 255 permFuel W ltac:(lia) (le_n _)) as (p & r1 & E).
  destruct (rngPerm_perm _ _ _ _ _ E) as (P & k & ->).
  exists permFuel, p, k. split; [exact P|]. intros fuel Hf.
  destruct (rngPerm_terminates r 255 fuel W ltac:(lia) Hf) as (p' & r1' & E'). rewrite E'. f_equal. exact (rngPerm_fuel _ _ _ _ _ _ E' E).
Qed.

(** C51: in every state the generator of math/rand can be in, [rand.Perm(255)] ends (its rejection loop is unbounded) and
    returns a permutation. *)
Lemma C51_perm_pf : forall cooked r, length cooked = 607 -> reachable cooked r ->
  exists F perm r', Permutation perm (seq 0 255) /\ reachable cooked r' /\
    forall fuel, F <= fuel -> rngPerm fuel r 255 = Ret (perm, r').
Proof.
  intros cooked r L H. destruct (perm_runs cooked r L H) as (F & perm & k & P & E).
  exists F, perm, (Nat.iter k step r). split; [exact P|]. split; [apply reach_iter, H|exact E].
Qed.

(** C51: so Split, run with that generator, always returns, and its shares combine; the generator it leaves behind is again
    a state in which all this holds. *)
Lemma C51_split_pf : forall cooked r ar growcap polB trB evBufs secret parts threshold,
  length cooked = 607 -> reachable cooked r -> grow_ok growcap -> valid_args secret parts threshold ->
  exists F shares r', reachable cooked r' /\ length shares = Z.to_nat parts /\
    (forall fuel, F <= fuel -> SplitRand fuel ar growcap polB trB evBufs r secret parts threshold = Ret (shares, r')) /\
    forall is, selection (Z.to_nat parts) (Z.to_nat threshold) is -> Combine (pick [] shares is) = Ret secret.
Proof.
  intros cooked r ar growcap polB trB evBufs secret parts threshold L H G V.
  destruct (perm_runs cooked r L H) as (F & perm & k & P & E).
  destruct (Split_sharing ar growcap perm (rngStream (Nat.iter k step r)) polB trB evBufs secret parts threshold G P V)
    as (shares & polys & tags & ES & S & Ls & _).
  exists F, shares, (rngSkip (Z.to_nat threshold * length secret) (Nat.iter k step r)).
  split; [apply reach_skip, reach_iter, H|]. split; [exact Ls|]. split.
  - intros fuel Hf. unfold SplitRand. pose proof V as V'. apply valid_checkArgs in V'. rewrite V', (E fuel Hf). cbn [bind]. rewrite ES. reflexivity.
  - intros is Hi. destruct V as (Hn & H2 & _).
    apply (Combine_is_sharing secret (Z.to_nat threshold) polys tags); [lia|exact Hn|exact S|rewrite Ls; exact Hi].
Qed.

(** C51: the same for SplitGeneric. *)
Lemma C51_splitgeneric_pf : forall cooked r secret parts threshold,
  length cooked = 607 -> reachable cooked r -> valid_args secret parts threshold ->
  exists F shares r', reachable cooked r' /\ length shares = Z.to_nat parts /\
    (forall fuel, F <= fuel -> SplitGenericRand fuel r secret parts threshold = Ret (shares, r')) /\
    forall is, selection (Z.to_nat parts) (Z.to_nat threshold) is -> Combine (pick [] shares is) = Ret secret.
Proof.
  intros cooked r secret parts threshold L H V.
  destruct (perm_runs cooked r L H) as (F & perm & k & P & E).
  destruct (SplitGeneric_sharing perm (rngStream (Nat.iter k step r)) secret parts threshold P V)
    as (shares & polys & tags & ES & S & Ls & _).
  exists F, shares, (rngSkip ((Z.to_nat threshold - 1) * length secret) (Nat.iter k step r)).
  split; [apply reach_skip, reach_iter, H|]. split; [exact Ls|]. split.
  - intros fuel Hf. unfold SplitGenericRand. pose proof V as V'. apply valid_checkArgs in V'. rewrite V', (E fuel Hf). cbn [bind]. rewrite ES. reflexivity.
  - intros is Hi. destruct V as (Hn & H2 & _).
    apply (Combine_is_sharing secret (Z.to_nat threshold) polys tags); [lia|exact Hn|exact S|rewrite Ls; exact Hi].
Qed.

Lemma krSplitWith_ext E zp key f g secret parts threshold : (forall s, f s parts threshold = g s parts threshold) ->
  krSplitWith E zp key f secret parts threshold = krSplitWith E zp key g secret parts threshold.
Proof.
  intros H. unfold krSplitWith. destruct (krCheck _ _ _); [reflexivity|]. destruct (encrypt E secret key) as [e|e|p| |]; cbn [bind]; try reflexivity.
  destruct (rsNew _ _ _); [reflexivity|]. destruct (rsSplit _ _ _) as [x|x|x| |]; cbn [bind]; try reflexivity.
  destruct (rsEncode _ _ _) as [y|y|y| |]; cbn [bind]; try reflexivity.
  destruct (foreach _ _ _) as [z|z|z| |]; cbn [bind]; try reflexivity. rewrite H. reflexivity.
Qed.
Lemma krSplitRand_eq fuel E zp ar growcap polB trB evBufs r perm r1 secret parts threshold :
  rngPerm fuel (rngSkip LenKey r) 255 = Ret (perm, r1) ->
  krSplitRand fuel E zp ar growcap polB trB evBufs r secret parts threshold
  = krSplit E zp ar growcap (rngStream r) perm (rngStream r1) polB trB evBufs secret parts threshold.
Proof.
  intros H. unfold krSplitRand, krSplit. apply krSplitWith_ext. intros s. unfold SplitRand. rewrite H.
  destruct (checkArgs s parts threshold) as [e|] eqn:C; cbn [bind].
  - unfold Split, SplitBufs. rewrite C. reflexivity.
  - destruct (Split _ _ _ _ _ _ _ _ _ _) as [out|e|p| |]; reflexivity.
Qed.

(** C51: the same for krawczyk.Split. *)
Lemma C51_krawczyk_pf : forall cooked r E zp rd ar growcap polB trB evBufs secret parts threshold,
  length cooked = 607 -> reachable cooked r -> (forall i, 0 < rd i) -> grow_ok growcap -> kr_valid_args zp secret parts threshold ->
  exists F shares, length shares = Z.to_nat parts /\
    (forall fuel, F <= fuel -> krSplitRand fuel E zp ar growcap polB trB evBufs r secret parts threshold = Ret shares) /\
    forall ss is, selection (Z.to_nat parts) (Z.to_nat threshold) is -> somes ss = pick [] shares is ->
      krCombine E zp rd ss parts threshold = Ret secret.
Proof.
  intros cooked r E zp rd ar growcap polB trB evBufs secret parts threshold L H Hrd G V.
  destruct (perm_runs cooked (rngSkip LenKey r) L (reach_skip _ _ _ H)) as (F & perm & k & P & EP).
  destruct (C32_split_combine_pf E zp rd ar growcap (rngStream r) perm (rngStream (Nat.iter k step (rngSkip LenKey r))) polB trB evBufs
    secret parts threshold Hrd G P V) as (shares & ES & Ls & C).
  exists F, shares. split; [exact Ls|]. split; [|exact C]. intros fuel Hf.
  rewrite (krSplitRand_eq _ _ _ _ _ _ _ _ _ perm (Nat.iter k step (rngSkip LenKey r))); [exact ES|apply EP; exact Hf].
Qed.

(*COPY
(** a stand-in for the table of math/rand *)
Definition ex_cooked : list N := map (fun i => (N.of_nat i * N.of_nat i + 1)%N) (seq 1 607).
(** the hypotheses hold for a seeded generator: 2 of 3, shares 2 and 0 *)
Example C51_run : exists F shares r', reachable ex_cooked r' /\
  (forall fuel, F <= fuel -> SplitRand fuel ex_ar growcap117 ex_stale ex_stale ex_ev (rngSeed ex_cooked 42) ex_secret 3 2 = Ret (shares, r')) /\
  Combine (pick [] shares [2; 0]) = Ret ex_secret.
Proof.
  destruct (C51_split ex_cooked (rngSeed ex_cooked 42) ex_ar growcap117 ex_stale ex_stale ex_ev ex_secret 3 2) as (F & shares & r' & R & _ & E & C).
  - unfold ex_cooked. rewrite map_length. apply seq_length.
  - constructor.
  - exact ex_grow.
  - repeat split; try discriminate.
  - exists F, shares, r'. split; [exact R|]. split; [exact E|]. apply C. split; [repeat constructor; cbn; lia|]. split; [|cbn; lia].
    intros i [<-|[<-|[]]]; cbn; lia.
Qed.
END*)

(** C52: the byte stream of [rand.Read] obeys a public linear recurrence: as numbers of 7 bytes, every block is the sum of the
    blocks 607 and 273 places back. *)
Lemma C52_recurrence_pf : forall cooked r n, length cooked = 607 -> reachable cooked r -> r_pos r = 0 -> 607 <= n ->
  word56 (rngStream r) n = ((word56 (rngStream r) (n - 607) + word56 (rngStream r) (n - 273)) mod 2 ^ 56)%N.
Proof. intros cooked r n L H P Hn. apply word56_rec; [exact (reach_wf cooked r L H)|exact P|exact Hn]. Qed.

Lemma valid_t secret parts threshold : valid_args secret parts threshold -> 2 <= Z.to_nat threshold <= 255 /\ Z.to_nat threshold <= Z.to_nat parts.
Proof. intros (_ & A & B & C). lia. Qed.

(** C52: threshold - 1 shares of SplitGeneric and a known prefix of the secret of about 4256 / (threshold - 1) bytes determine the
    whole secret, however long it is: two runs that show the same to the coalition have the same secret. *)
Lemma C52_generic_broken_pf : forall cooked fuel1 fuel2 r1 r2 secret1 secret2 parts threshold shares1 shares2 r1' r2' is K,
  length cooked = 607 -> reachable cooked r1 -> reachable cooked r2 -> r_pos r1 = r_pos r2 ->
  SplitGenericRand fuel1 r1 secret1 parts threshold = Ret (shares1, r1') ->
  SplitGenericRand fuel2 r2 secret2 parts threshold = Ret (shares2, r2') ->
  NoDup is -> (forall i, In i is -> i < Z.to_nat parts) -> S (length is) = Z.to_nat threshold ->
  pick [] shares1 is = pick [] shares2 is ->
  r_pos r1 + 4249 <= length is * K -> firstn K secret1 = firstn K secret2 ->
  secret1 = secret2.
Proof.
  intros cooked fuel1 fuel2 r1 r2 secret1 secret2 parts threshold shares1 shares2 r1' r2' is K L H1 H2 HP E1 E2 ND Hi Li Eq HK Epre.
  apply SplitGenericRand_polys in E1 as (V1 & k1 & po1 & tg1 & pm1 & _ & L1 & B1).
  apply SplitGenericRand_polys in E2 as (V2 & k2 & po2 & tg2 & pm2 & _ & L2 & B2).
  destruct (valid_t _ _ _ V1) as (Ht & _).
  assert (Hi1 : forall i, In i is -> i < length tg1) by (intros i Hin; rewrite L1; apply Hi, Hin).
  assert (LT : length tg1 = length tg2) by lia.
  assert (LS : length secret1 = length secret2) by (eapply same_length; eassumption).
  destruct (Nat.le_gt_cases (length secret1) K) as [HN|HN].
  { rewrite !firstn_all2 in Epre by lia. exact Epre. }
  assert (SP : forall p, p < length secret1 -> nth p secret1 x00 = nth p secret2 x00 -> nth p po1 [] = nth p po2 [])
    by (eapply same_poly; eassumption).
  assert (SS : (forall i, rngStream (Nat.iter k1 step r1) i = rngStream (Nat.iter k2 step r2) i) -> secret1 = secret2)
    by (eapply same_secret; eassumption).
  apply SS. apply stream_determined_pos; try (apply iter_wf, (reach_wf cooked); assumption); [rewrite !step_pos; exact HP|].
  rewrite step_pos. intros i Hlt. set (t1 := Z.to_nat threshold - 1) in *. assert (Et : length is = t1) by lia. rewrite Et in HK.
  assert (Hp : i / t1 < K) by (apply Nat.div_lt_upper_bound; lia).
  pose proof (Nat.mod_upper_bound i t1 ltac:(lia)) as Hc. pose proof (Nat.div_mod i t1 ltac:(lia)) as Ei.
  destruct B1 as (_ & _ & C1). destruct B2 as (_ & _ & C2).
  specialize (C1 (i / t1) (S (i mod t1)) ltac:(lia) ltac:(lia)). specialize (C2 (i / t1) (S (i mod t1)) ltac:(lia) ltac:(lia)).
  replace (t1 * (i / t1) + (S (i mod t1) - 1)) with i in C1, C2 by lia. rewrite <- C1, <- C2. f_equal.
  apply SP; [lia|]. rewrite <- (nth_firstn secret1 K), <- (nth_firstn secret2 K), Epre by exact Hp. reflexivity.
Qed.

(** C52: Split wastes one random byte per polynomial, which breaks the recurrence for the wasted bytes only. For every threshold that
    divides neither 4250 nor 1912, threshold - 1 shares and two secret bytes determine a third: wherever the leading coefficient of
    polynomial [p] is the lowest byte of a word of the generator. *)
Lemma C52_split_broken_pf : forall cooked fuel1 fuel2 ar growcap polB1 trB1 evBufs1 polB2 trB2 evBufs2 r1 r2 secret1 secret2 parts threshold
    shares1 shares2 r1' r2' is t p n,
  length cooked = 607 -> reachable cooked r1 -> reachable cooked r2 -> r_pos r1 = r_pos r2 -> grow_ok growcap ->
  SplitRand fuel1 ar growcap polB1 trB1 evBufs1 r1 secret1 parts threshold = Ret (shares1, r1') ->
  SplitRand fuel2 ar growcap polB2 trB2 evBufs2 r2 secret2 parts threshold = Ret (shares2, r2') ->
  t = Z.to_nat threshold -> NoDup is -> (forall i, In i is -> i < Z.to_nat parts) -> S (length is) = t ->
  pick [] shares1 is = pick [] shares2 is ->
  4250 mod t <> 0 -> 1912 mod t <> 0 ->
  p < length secret1 -> t * p + (t - 1) = r_pos r1 + 7 * n -> 607 <= n ->
  let q1 := (t * (p + 1) - 4250) / t in
  let q2 := (t * (p + 1) - 1912) / t in
  nth q1 secret1 x00 = nth q1 secret2 x00 -> nth q2 secret1 x00 = nth q2 secret2 x00 ->
  nth p secret1 x00 = nth p secret2 x00.
Proof.
  intros cooked fuel1 fuel2 ar growcap polB1 trB1 evBufs1 polB2 trB2 evBufs2 r1 r2 secret1 secret2 parts threshold
    shares1 shares2 r1' r2' is t p n L H1 H2 HP G E1 E2 -> ND Hi Li Eq M1 M2 Hp Hn H607 q1 q2 Q1 Q2.
  apply SplitRand_polys in E1 as (V1 & k1 & po1 & tg1 & pm1 & _ & L1 & B1); [|exact G].
  apply SplitRand_polys in E2 as (V2 & k2 & po2 & tg2 & pm2 & _ & L2 & B2); [|exact G].
  destruct (valid_t _ _ _ V1) as (Ht & _). set (t := Z.to_nat threshold) in *.
  assert (Hi1 : forall i, In i is -> i < length tg1) by (intros i Hin; rewrite L1; apply Hi, Hin).
  assert (LT : length tg1 = length tg2) by lia.
  assert (LS : length secret1 = length secret2) by (eapply same_length; eassumption).
  assert (SP : forall p, p < length secret1 -> nth p secret1 x00 = nth p secret2 x00 -> nth p po1 [] = nth p po2 [])
    by (eapply same_poly; eassumption).
  assert (SL : forall p, p < length secret1 -> nth (t - 1) (nth p po1 []) x00 = nth (t - 1) (nth p po2 []) x00 -> nth p secret1 x00 = nth p secret2 x00)
    by (eapply same_poly_lead; eassumption).
  apply SL; [exact Hp|]. destruct B1 as (_ & _ & C1). destruct B2 as (_ & _ & C2).
  rewrite C1, C2 by lia. rewrite Nat.sub_0_r.
  assert (W1 : rng_wf (Nat.iter k1 step r1)) by (apply iter_wf, (reach_wf cooked); assumption).
  assert (W2 : rng_wf (Nat.iter k2 step r2)) by (apply iter_wf, (reach_wf cooked); assumption).
  rewrite (stream_low _ (t * p + (t - 1)) n W1) by (rewrite ?step_pos; lia).
  rewrite (stream_low _ (t * p + (t - 1)) n W2) by (rewrite ?step_pos; lia).
  (* a place in the stream that is not wasted belongs to a known polynomial *)
  assert (K : forall d, d <= t * (p + 1) -> 0 < d -> d mod t <> 0 ->
     let q := (t * (p + 1) - d) / t in nth q secret1 x00 = nth q secret2 x00 ->
     rngStream (Nat.iter k1 step r1) (t * (p + 1) - d) = rngStream (Nat.iter k2 step r2) (t * (p + 1) - d)).
  { intros d Hd D0 Dm q Eqq. set (i := t * (p + 1) - d) in *.
    pose proof (Nat.div_mod i t ltac:(lia)) as Ei. pose proof (Nat.mod_upper_bound i t ltac:(lia)) as Bi. fold q in Ei.
    assert (Hq : q < length secret1). { assert (q < p + 1) by (apply Nat.div_lt_upper_bound; lia). lia. }
    assert (Im : i mod t <> 0).
    { intros Z. apply Dm. assert (D : d = t * (p + 1 - q)) by (rewrite Nat.mul_sub_distr_l; lia).
      rewrite D, Nat.mul_comm. apply Nat.mod_mul. lia. }
    pose proof (C1 q (i mod t) ltac:(lia) ltac:(lia)) as A1. pose proof (C2 q (i mod t) ltac:(lia) ltac:(lia)) as A2.
    rewrite Nat.sub_0_r in A1, A2. rewrite <- Ei in A1, A2. rewrite <- A1, <- A2. f_equal. apply SP; assumption. }
  replace (t * p + (t - 1) - 4249) with (t * (p + 1) - 4250) by lia.
  replace (t * p + (t - 1) - 1911) with (t * (p + 1) - 1912) by lia.
  rewrite (K 4250), (K 1912); [reflexivity|lia|lia|exact M2|exact Q2|lia|lia|exact M1|exact Q1].
Qed.

(** C52: threshold 2: one share and three secret bytes give a fourth, by this formula. [c1], [c2], [c3] are computed from the share and
    the three known bytes. *)
Lemma C52_one_share_formula_pf : forall cooked fuel ar growcap polB trB evBufs r secret parts shares r' i j n c1 c2 c3,
  length cooked = 607 -> reachable cooked r -> grow_ok growcap ->
  SplitRand fuel ar growcap polB trB evBufs r secret parts 2 = Ret (shares, r') -> i < Z.to_nat parts ->
  j < length secret -> 2 * j + 1 = r_pos r + 7 * n -> 1214 <= n ->
  let s := nth i shares [] in
  slope (tag s) (nth (j - 4249) s x00) (nth (j - 4249) secret x00) c1 ->
  slope (tag s) (nth (j - 3080) s x00) (nth (j - 3080) secret x00) c2 ->
  slope (tag s) (nth (j - 1911) s x00) (nth (j - 1911) secret x00) c3 ->
  nth j secret x00 = gadd (nth j s x00) (gmul (tag s) (badd (badd c1 (badd c2 c2)) c3)).
Proof.
  intros cooked fuel ar growcap polB trB evBufs r secret parts shares r' i j n c1 c2 c3 L H G E Hi Hj Hn H1214 s.
  apply SplitRand_polys in E as (V & k & polys & tags & pm & _ & Lt & B); [|exact G]. change (Z.to_nat 2) with 2 in B.
  assert (W : rng_wf (Nat.iter k step r)) by (apply iter_wf, (reach_wf cooked); assumption).
  destruct (by_facts _ _ _ _ _ _ _ _ B) as (_ & F & F'). destruct (F' i ltac:(lia)) as (_ & T & D). destruct B as (B0 & NZ & C).
  assert (X : tag s <> x00). { unfold s. rewrite T. intros Z. apply NZ. rewrite <- Z. apply nth_In. lia. }
  assert (P2 : forall p, p < length secret -> nth p s x00 = gadd (nth p secret x00) (gmul (tag s) (rngStream (Nat.iter k step r) (2 * p + 1)))).
  { intros p Hp. unfold s. rewrite D, T by exact Hp. destruct (F p Hp) as (Lp & Z). specialize (C p 1 Hp ltac:(lia)). rewrite Nat.sub_0_r in C.
    destruct (nth p polys []) as [|a [|b [|]]]; try discriminate. cbn [nth] in Z, C. subst a b. cbn [heval]. ring. }
  assert (SL : forall p c, p < length secret -> slope (tag s) (nth p s x00) (nth p secret x00) c -> c = rngStream (Nat.iter k step r) (2 * p + 1)).
  { intros p c Hp Hs. unfold slope in Hs. rewrite (P2 p Hp) in Hs. apply (gmul_cancel_l (tag s)); [exact X|]. rewrite Hs. ring. }
  intros S1 S2 S3. apply SL in S1, S2, S3; try lia. subst c1 c2 c3. rewrite (P2 j Hj).
  rewrite (stream_low2 _ (2 * j + 1) n W) by (rewrite ?step_pos; lia).
  replace (2 * j + 1 - 7 * 1214) with (2 * (j - 4249) + 1) by lia. replace (2 * j + 1 - 7 * 880) with (2 * (j - 3080) + 1) by lia.
  replace (2 * j + 1 - 7 * 546) with (2 * (j - 1911) + 1) by lia. ring.
Qed.

(*COPY
(** the hypotheses hold for long secrets: from every seed, with 5000 bytes of which 4249 are known, and a coalition of one *)
Example C52_long_runs : forall cooked seed, length cooked = 607 ->
  exists fuel shares r', SplitGenericRand fuel (rngSeed cooked seed) (repeat x41 5000) 3 2 = Ret (shares, r') /\
    r_pos (rngSeed cooked seed) + 4249 <= length [1] * 4249 /\ NoDup [1] /\ S (length [1]) = Z.to_nat 2 /\
    firstn 4249 (repeat x41 5000) <> repeat x41 5000.
Proof.
  intros cooked seed L.
  assert (V : valid_args (repeat x41 5000) 3 2) by (split; [discriminate|]; lia).
  destruct (C51_splitgeneric cooked (rngSeed cooked seed) (repeat x41 5000) 3 2 L (seeded _ _) V) as (F & shares & r' & _ & _ & E & _).
  exists F, shares, r'. split; [apply E; lia|]. split; [cbn [r_pos rngSeed length]; lia|]. split; [constructor; [intros []|constructor]|].
  split; [reflexivity|]. intros Q. apply (f_equal (@length byte)) in Q. rewrite firstn_length, repeat_length in Q. lia.
Qed.
(** threshold 3: byte 1999 from bytes 583 and 1362; threshold 2: byte 4249 from bytes 0, 1169 and 2338 *)
Example C52_places : 4250 mod 3 <> 0 /\ 1912 mod 3 <> 0 /\ 3 * 1999 + (3 - 1) = 0 + 7 * 857 /\
  (3 * (1999 + 1) - 4250) / 3 = 583 /\ (3 * (1999 + 1) - 1912) / 3 = 1362 /\
  2 * 4249 + 1 = 1 + 7 * 1214 /\ 4249 - 4249 = 0 /\ 4249 - 3080 = 1169 /\ 4249 - 1911 = 2338.
Proof. repeat split; try discriminate; vm_compute; reflexivity. Qed.
END*)

(** C53: seeds that agree modulo 2^31 - 1 give the same generator, and whatever is computed from the generator and nothing else takes
    at most 2^31 - 2 values over all seeds. *)
Lemma C53_seed_classes_pf : forall cooked s s', (s mod 2147483647 = s' mod 2147483647)%Z -> rngSeed cooked s = rngSeed cooked s'.
Proof. exact rngSeed_cong. Qed.

Lemma rngSeed_reduce cooked s s' : seedReduce s = seedReduce s' -> rngSeed cooked s = rngSeed cooked s'.
Proof. intros H. unfold rngSeed. rewrite H. reflexivity. Qed.

Lemma C53_few_results_pf : forall (A : Type) cooked (f : rng -> A) (results : list A), NoDup results ->
  (forall a, In a results -> exists seed, f (rngSeed cooked seed) = a) -> (Z.of_nat (length results) <= seed_count)%Z.
Proof.
  intros A cooked f results ND H. apply (seeds_bound (fun s a => f (rngSeed cooked s) = a)); [exact ND|exact H|].
  intros s s' a b E <- <-. rewrite (rngSeed_reduce cooked s s' E). reflexivity.
Qed.

(** C53: after one share of Split has been seen, at most 2^31 - 2 secrets remain possible, whatever the length of the secret and the
    threshold: for any use [prior] the program made of the generator before. *)
Lemma C53_few_secrets_pf : forall cooked (prior : rng -> rng) ar growcap parts threshold share candidates, grow_ok growcap -> NoDup candidates ->
  (forall s, In s candidates -> exists seed fuel polB trB evBufs shares r',
     SplitRand fuel ar growcap polB trB evBufs (prior (rngSeed cooked seed)) s parts threshold = Ret (shares, r') /\ In share shares) ->
  (Z.of_nat (length candidates) <= seed_count)%Z.
Proof.
  intros cooked prior ar growcap parts threshold share candidates G ND H.
  apply (seeds_bound (fun seed s => exists fuel polB trB evBufs shares r',
     SplitRand fuel ar growcap polB trB evBufs (prior (rngSeed cooked seed)) s parts threshold = Ret (shares, r') /\ In share shares)); [exact ND|exact H|].
  intros z z' a b E (f1 & pb1 & tb1 & ev1 & sh1 & r1' & E1 & I1) (f2 & pb2 & tb2 & ev2 & sh2 & r2' & E2 & I2).
  rewrite (rngSeed_reduce cooked z z' E) in E1. set (r := prior (rngSeed cooked z')) in *. clearbody r.
  apply SplitRand_polys in E1 as (V1 & k1 & po1 & tg1 & pm1 & P1 & L1 & B1); [|exact G].
  apply SplitRand_polys in E2 as (V2 & k2 & po2 & tg2 & pm2 & P2 & L2 & B2); [|exact G].
  pose proof (rngPerm_fuel _ _ _ _ _ _ P1 P2) as Q. assert (Q2 : Nat.iter k1 step r = Nat.iter k2 step r) by congruence. rewrite Q2 in B1. clear P1 P2 Q Q2.
  destruct (valid_t _ _ _ V1) as (Ht & _).
  assert (N1 : exists i, i < length tg1 /\ nth i sh1 [] = share).
  { destruct B1 as ((_ & _ & _ & S) & _). destruct (In_nth _ _ [] I1) as (i & Hi & Ei). exists i. split; [|exact Ei]. rewrite S, map_length in Hi. exact Hi. }
  assert (N2 : exists i, i < length tg2 /\ nth i sh2 [] = share).
  { destruct B2 as ((_ & _ & _ & S) & _). destruct (In_nth _ _ [] I2) as (i & Hi & Ei). exists i. split; [|exact Ei]. rewrite S, map_length in Hi. exact Hi. }
  destruct N1 as (i1 & Hi1 & <-). destruct N2 as (i2 & Hi2 & Es).
  destruct (by_facts _ _ _ _ _ _ _ _ B1) as (_ & F1 & G1). destruct (by_facts _ _ _ _ _ _ _ _ B2) as (_ & F2 & G2).
  destruct (G1 i1 Hi1) as (A1 & T1 & D1). destruct (G2 i2 Hi2) as (A2 & T2 & D2). rewrite Es in A2, T2, D2. rewrite T1 in T2.
  apply nth_ext with x00 x00; [lia|]. intros p Hp. specialize (D1 p Hp). specialize (D2 p ltac:(lia)). rewrite D1, T2 in D2.
  destruct (F1 p Hp) as (Lp1 & Z1). destruct (F2 p ltac:(lia)) as (Lp2 & Z2).
  destruct B1 as (_ & _ & C1). destruct B2 as (_ & _ & C2).
  destruct (nth p po1 []) as [|x q1] eqn:Q1; [cbn in Lp1; lia|]. destruct (nth p po2 []) as [|y q2] eqn:Q2; [cbn in Lp2; lia|].
  cbn [nth] in Z1, Z2. subst x y. cbn [length] in Lp1, Lp2.
  assert (q1 = q2).
  { apply nth_ext with x00 x00; [lia|]. intros c Hc. specialize (C1 p (S c) Hp ltac:(lia)). specialize (C2 p (S c) ltac:(lia) ltac:(lia)).
    rewrite Q1 in C1. rewrite Q2 in C2. cbn [nth] in C1, C2. rewrite C1, C2. reflexivity. }
  subst q2. exact (heval_const _ _ _ _ D2).
Qed.

(** C53: a generator made by NewCSPRNG inherits this: over all seeds, at most 2^31 - 2 first [n] bytes of its key stream, and for a given
    secret at most 2^31 - 2 outcomes of SplitWithRandomizer with it. *)
Lemma C53_csprng_pf : forall cooked (prior : rng -> rng) E,
  (forall n streams, NoDup streams ->
    (forall b, In b streams -> exists seed, b = take_stream (fst (NewCSPRNGRand E (prior (rngSeed cooked seed)))) n) ->
    (Z.of_nat (length streams) <= seed_count)%Z) /\
  (forall fuel ar growcap polB trB evBufs secret parts threshold outcomes, NoDup outcomes ->
    (forall o, In o outcomes -> exists seed, o = SplitWithRandomizer fuel ar growcap (fst (NewCSPRNGRand E (prior (rngSeed cooked seed))))
                                                   polB trB evBufs secret parts threshold) ->
    (Z.of_nat (length outcomes) <= seed_count)%Z).
Proof.
  intros cooked prior E. split.
  - intros n streams ND H. apply (C53_few_results_pf _ cooked (fun r => take_stream (fst (NewCSPRNGRand E (prior r))) n)); [exact ND|].
    intros b Hb. destruct (H b Hb) as (seed & ->). exists seed. reflexivity.
  - intros fuel ar growcap polB trB evBufs secret parts threshold outcomes ND H.
    apply (C53_few_results_pf _ cooked (fun r => SplitWithRandomizer fuel ar growcap (fst (NewCSPRNGRand E (prior r))) polB trB evBufs secret parts threshold));
      [exact ND|]. intros b Hb. destruct (H b Hb) as (seed & ->). exists seed. reflexivity.
Qed.

(** C53: NewCSPRNG uses up exactly 32 bytes of the generator, Split and SplitGeneric threshold, respectively threshold - 1, bytes per byte of secret
    after the permutation: the next call goes on with the next byte, so no byte is used for two calls. *)
Lemma C53_next_bytes_pf : 
  (forall E r i, rngStream (snd (NewCSPRNGRand E r)) i = rngStream r (32 + i)) /\
  (forall fuel ar growcap polB trB evBufs r secret parts threshold shares r' i,
     SplitRand fuel ar growcap polB trB evBufs r secret parts threshold = Ret (shares, r') ->
     exists perm r1, rngPerm fuel r 255 = Ret (perm, r1) /\ Split ar growcap perm (rngStream r1) polB trB evBufs secret parts threshold = Ret shares /\
       rngStream r' i = rngStream r1 (Z.to_nat threshold * length secret + i)) /\
  (forall fuel r secret parts threshold shares r' i,
     SplitGenericRand fuel r secret parts threshold = Ret (shares, r') ->
     exists perm r1, rngPerm fuel r 255 = Ret (perm, r1) /\ SplitGeneric perm (rngStream r1) secret parts threshold = Ret shares /\
       rngStream r' i = rngStream r1 ((Z.to_nat threshold - 1) * length secret + i)).
Proof.
  split; [|split].
  - intros E r i. unfold NewCSPRNGRand. cbn [snd]. rewrite <- rngStream_plus. f_equal. lia.
  - intros fuel ar growcap polB trB evBufs r secret parts threshold shares r' i H. unfold SplitRand in H.
    destruct (checkArgs secret parts threshold) as [e|]; [discriminate|].
    destruct (rngPerm fuel r 255) as [(perm, r1)|e|p| |]; try discriminate. cbn [bind] in H.
    destruct (Split ar growcap perm (rngStream r1) polB trB evBufs secret parts threshold) as [out|e|p| |] eqn:E; try discriminate. cbn [bind] in H.
    injection H as <- <-. exists perm, r1. split; [reflexivity|]. split; [exact E|]. rewrite <- rngStream_plus. f_equal. lia.
  - intros fuel r secret parts threshold shares r' i H. unfold SplitGenericRand in H.
    destruct (checkArgs secret parts threshold) as [e|]; [discriminate|].
    destruct (rngPerm fuel r 255) as [(perm, r1)|e|p| |]; try discriminate. cbn [bind] in H.
    destruct (SplitGeneric perm (rngStream r1) secret parts threshold) as [out|e|p| |] eqn:E; try discriminate. cbn [bind] in H.
    injection H as <- <-. exists perm, r1. split; [reflexivity|]. split; [exact E|]. rewrite <- rngStream_plus. f_equal. lia.
Qed.

(** C53: the seeding works with x -> 48271 x modulo the prime 2^31 - 1, and never leaves 1 .. 2^31 - 2; no seed is lost in the reduction except
    that multiples of the modulus count as 89482311. *)
Lemma C53_seedrand_pf :
  (forall x, (1 <= x < 2147483647)%Z -> seedrand x = ((48271 * x) mod 2147483647)%Z /\ (1 <= seedrand x < 2147483647)%Z) /\
  (forall seed, (1 <= seedReduce seed < 2147483647)%Z) /\
  (forall seed, (seed mod 2147483647 <> 0)%Z -> seedReduce seed = (seed mod 2147483647)%Z) /\
  (forall seed, (seed mod 2147483647 = 0)%Z -> seedReduce seed = 89482311%Z).
Proof.
  assert (Red : forall seed, seedReduce seed = if (seed mod 2147483647 =? 0)%Z then 89482311%Z else (seed mod 2147483647)%Z).
  { intros seed. unfold seedReduce. assert (R : (if Z.rem seed 2147483647 <? 0 then Z.rem seed 2147483647 + 2147483647 else Z.rem seed 2147483647)%Z = (seed mod 2147483647)%Z).
    { pose proof (Z.quot_rem seed 2147483647 ltac:(lia)) as Q. destruct (Z.ltb_spec (Z.rem seed 2147483647) 0) as [L|L].
      - assert (S0 : (seed < 0)%Z) by (destruct (Z.le_gt_cases 0 seed) as [S0|S0]; [pose proof (Z.rem_bound_pos seed 2147483647 S0 ltac:(lia)); lia|exact S0]).
        pose proof (Z.rem_bound_pos_neg seed 2147483647 ltac:(lia) ltac:(lia)). apply Z.mod_unique with (q := (Z.quot seed 2147483647 - 1)%Z); [left|]; lia.
      - apply Z.mod_unique with (q := Z.quot seed 2147483647); [left|]; [|lia].
        destruct (Z.le_gt_cases 0 seed) as [S0|S0]; [pose proof (Z.rem_bound_pos seed 2147483647 S0 ltac:(lia)); lia|].
        pose proof (Z.rem_bound_pos_neg seed 2147483647 ltac:(lia) ltac:(lia)). lia. }
    rewrite R. reflexivity. }
  split; [|split; [|split]].
  - intros x Hx.
    assert (Sx : seedrand x = ((48271 * x) mod 2147483647)%Z).
    { unfold seedrand. pose proof (Z.div_mod x 44488 ltac:(lia)) as D. pose proof (Z.mod_pos_bound x 44488 ltac:(lia)) as B.
      remember (x / 44488)%Z as hi. remember (x mod 44488)%Z as lo.
      destruct (Z.ltb_spec (48271 * lo - 3399 * hi) 0) as [L|L].
      - apply Z.mod_unique with (q := (hi - 1)%Z); [left|]; lia.
      - apply Z.mod_unique with (q := hi); [left|]; lia. }
    split; [exact Sx|]. rewrite Sx. pose proof (Z.mod_pos_bound (48271 * x) 2147483647 ltac:(lia)) as B.
    enough ((48271 * x) mod 2147483647 <> 0)%Z by lia. intros Z0. apply Z.mod_divide in Z0; [|lia].
    apply Z.gauss in Z0; [|reflexivity]. apply Z.divide_pos_le in Z0; lia.
  - intros seed. rewrite Red. pose proof (Z.mod_pos_bound seed 2147483647 ltac:(lia)). destruct (Z.eqb_spec (seed mod 2147483647) 0); lia.
  - intros seed H. rewrite Red. apply Z.eqb_neq in H. rewrite H. reflexivity.
  - intros seed H. rewrite Red, H. reflexivity.
Qed.

(*COPY
Example C53_seed_case : seedReduce (-5) = 2147483642%Z /\ seedrand 2147483642 = 2147242292%Z /\ ((48271 * 2147483642) mod 2147483647 = 2147242292)%Z.
Proof. vm_compute. repeat split. Qed.
(** seeds one modulus apart give the same shares; secrets of 4 bytes already outnumber the candidates *)
Example C53_same_shares : rngSeed ex_cooked 1637151600000000000 = rngSeed ex_cooked (1637151600000000000 + 2147483647).
Proof. apply C53_seed_classes. vm_compute. reflexivity. Qed.
Example C53_fewer_than_secrets : (seed_count < 256 ^ 4)%Z.
Proof. vm_compute. reflexivity. Qed.
Example C53_seeds_differ : rngSeed ex_cooked 1 <> rngSeed ex_cooked 2.
Proof. intros H. apply (f_equal (fun r => nth 0 (r_vec r) 0%N)) in H. vm_compute in H. discriminate. Qed.
END*)
