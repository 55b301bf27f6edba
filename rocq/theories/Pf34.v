(** Proofs about programs that make many calls with the generator of math/rand: they are correct (C51), and predictable (C81). *)
From Coq Require Import List NArith ZArith Lia Arith Bool Permutation.
From Coq.Init Require Import Byte.
From Verif Require Import GoSem Bytes Spec SpecRand SpecKr GF PolyFacts GoFacts Vector Csprng Pool Polynomial Shamir SplitP Libs AES Krawczyk Worker
  PolynomialFacts SplitFacts CombineFacts CsprngFacts Secrecy Derived KrawczykFacts KrawczykCombine MathRand MathRandFacts RandAttack Pf1 Pf2 Pf6 Pf10 RandCalls SpecRandCalls.
Import ListNotations.

(*PROPS
From Coq Require Import List NArith ZArith Lia Arith Bool Permutation.
From Coq.Init Require Import Byte.
From Verif Require Import GoSem Bytes Spec SpecRand SpecKr Vector Csprng Pool Polynomial Shamir SplitP Libs AES Krawczyk Worker MathRand RandCalls SpecRandCalls ExData Pf10 Pf34.
Import ListNotations.
*)

(** C51: SplitP with that generator: the permutation is drawn, then under every schedule of the goroutines (which read from the generator in any
    order) the call returns shares that combine. *)
Lemma C51_splitp_pf : forall cooked r secret parts threshold,
  length cooked = 607 -> reachable cooked r -> valid_args secret parts threshold -> (N.of_nat (length secret) <= 4294967296 - 1024)%N ->
  exists F perm r1, reachable cooked r1 /\ (forall fuel, F <= fuel -> rngPerm fuel r 255 = Ret (perm, r1)) /\
    (exists sched shares, SplitP perm (rngStream r1) secret parts threshold sched (Ret shares)) /\
    forall sched o, SplitP perm (rngStream r1) secret parts threshold sched o ->
      exists shares, o = Ret shares /\ length shares = Z.to_nat parts /\
        forall is, selection (Z.to_nat parts) (Z.to_nat threshold) is -> Combine (pick [] shares is) = Ret secret.
Proof.
  intros cooked r secret parts threshold L H V HN. destruct (perm_runs cooked r L H) as (F & perm & k & P & E).
  exists F, perm, (Nat.iter k step r). split; [apply reach_iter, H|]. split; [exact E|].
  destruct (C12_no_deadlock_pf perm (rngStream (Nat.iter k step r)) secret parts threshold P V HN) as ((s0 & R0) & A & B). split.
  - destruct (A [] s0 R0) as (_ & _ & sched & shares & X). exists sched, shares. exact X.
  - intros sched o X. destruct (B sched o X) as (shares & ->). exists shares. split; [reflexivity|].
    destruct (C12_any_schedule_pf perm _ secret parts threshold sched shares P HN X) as (Ls & _ & _ & C). split; [exact Ls|exact C].
Qed.

Lemma args_dec secret parts threshold : (exists e, checkArgs secret parts threshold = Some e /\ arg_error secret parts threshold e) \/
  (checkArgs secret parts threshold = None /\ valid_args secret parts threshold).
Proof.
  destruct (checkArgs secret parts threshold) as [e|] eqn:C; [left; exists e; split; [reflexivity|apply checkArgs_Some; exact C]|].
  right. split; [reflexivity|]. apply valid_checkArgs. exact C.
Qed.

(** one call *)
Lemma runCall_ok cooked E zp rd ar growcap r c : length cooked = 607 -> reachable cooked r -> (forall i, 0 < rd i) -> grow_ok growcap ->
  exists F x r', reachable cooked r' /\ call_correct E zp rd c x /\ forall fuel, F <= fuel -> runCall fuel E zp ar growcap r c = Ret (x, r').
Proof.
  intros L H Hrd G. destruct c as [polB trB evBufs secret parts threshold|secret parts threshold|polB trB evBufs secret parts threshold|].
  - destruct (args_dec secret parts threshold) as [(e & C & A)|(C & V)].
    + exists 0, (RShares (Fail e)), r. split; [exact H|]. split; [left; exists e; split; [exact A|reflexivity]|].
      intros fuel _. unfold runCall, SplitRand. rewrite C. reflexivity.
    + destruct (C51_split_pf cooked r ar growcap polB trB evBufs secret parts threshold L H G V) as (F & shares & r' & R & Ls & X & Cm).
      exists F, (RShares (Ret shares)), r'. split; [exact R|]. split; [right; split; [exact V|]; exists shares; auto|].
      intros fuel Hf. unfold runCall. rewrite (X fuel Hf). reflexivity.
  - destruct (args_dec secret parts threshold) as [(e & C & A)|(C & V)].
    + exists 0, (RShares (Fail e)), r. split; [exact H|]. split; [left; exists e; split; [exact A|reflexivity]|].
      intros fuel _. unfold runCall, SplitGenericRand. rewrite C. reflexivity.
    + destruct (C51_splitgeneric_pf cooked r secret parts threshold L H V) as (F & shares & r' & R & Ls & X & Cm).
      exists F, (RShares (Ret shares)), r'. split; [exact R|]. split; [right; split; [exact V|]; exists shares; auto|].
      intros fuel Hf. unfold runCall. rewrite (X fuel Hf). reflexivity.
  - destruct (perm_runs cooked (rngSkip LenKey r) L (reach_skip _ _ _ H)) as (F & perm & k & P & EP). set (r1 := Nat.iter k step (rngSkip LenKey r)) in *.
    destruct (C34_contract_pf E zp ar growcap (rngStream r) perm (rngStream r1) polB trB evBufs secret parts threshold G P) as (A & B & D). cbv zeta in A, B, D.
    assert (X : forall fuel, F <= fuel -> krSplitRand fuel E zp ar growcap polB trB evBufs r secret parts threshold
       = krSplit E zp ar growcap (rngStream r) perm (rngStream r1) polB trB evBufs secret parts threshold) by (intros fuel Hf; apply krSplitRand_eq, EP, Hf).
    destruct D as [(shares & S)|(e & S)].
    + assert (V : kr_valid_args zp secret parts threshold) by (apply A; exists shares; exact S).
      destruct (C32_split_combine_pf E zp rd ar growcap (rngStream r) perm (rngStream r1) polB trB evBufs secret parts threshold Hrd G P V) as (sh & S' & Ls & Cm).
      rewrite S in S'. injection S' as <-.
      exists F, (RShares (Ret shares)), (rngSkip (Z.to_nat threshold * (LenKey + LenLen)) r1).
      split; [apply reach_skip, reach_iter, reach_skip, H|]. split; [right; split; [exact V|]; exists shares; auto|].
      intros fuel Hf. unfold runCall. rewrite (X fuel Hf), S. unfold krDoneRng. rewrite (EP fuel Hf). reflexivity.
    + exists F, (RShares (Fail e)), (krFailedRng r secret parts threshold).
      split; [unfold krFailedRng; destruct (krCheck _ _ _); [exact H|apply reach_skip, H]|]. split; [left; exists e; split; [apply B, S|reflexivity]|].
      intros fuel Hf. unfold runCall. rewrite (X fuel Hf), S. reflexivity.
  - exists 0. eexists. eexists. split; [|split; [|intros fuel _; reflexivity]]; [apply reach_skip, H|eexists; reflexivity].
Qed.

(** C51: a program that makes any calls of Split, SplitGeneric, krawczyk.Split and NewCSPRNG, one after the other, with good or bad arguments, gets
    through all of them from every state of the generator, and every call does what it should. *)
Lemma C51_history_pf : forall cooked r E zp rd ar growcap calls,
  length cooked = 607 -> reachable cooked r -> (forall i, 0 < rd i) -> grow_ok growcap ->
  exists F results r', reachable cooked r' /\ Forall2 (call_correct E zp rd) calls results /\
    forall fuel, F <= fuel -> runCalls fuel E zp ar growcap r calls = Ret (results, r').
Proof.
  intros cooked r E zp rd ar growcap calls L H Hrd G. revert r H. induction calls as [|c calls IH]; intros r H.
  - exists 0, [], r. split; [exact H|]. split; [constructor|]. reflexivity.
  - destruct (runCall_ok cooked E zp rd ar growcap r c L H Hrd G) as (F1 & x & r1 & R1 & C & X1).
    destruct (IH r1 R1) as (F2 & xs & r2 & R2 & Cs & X2).
    exists (Nat.max F1 F2), (x :: xs), r2. split; [exact R2|]. split; [constructor; assumption|].
    intros fuel Hf. cbn [runCalls]. rewrite X1 by lia. cbn [bind]. rewrite X2 by lia. reflexivity.
Qed.

(** ** predictions *)
(** C81: what the generator delivers after a SplitGeneric is determined by threshold-1 of the shares and a prefix of the secret of about
    4256 / (threshold-1) bytes: every byte that is read from it next (before a permutation is drawn). *)
Lemma C81_next_bytes_pf : forall cooked fuel1 fuel2 r1 r2 secret1 secret2 parts threshold shares1 shares2 r1' r2' is K,
  length cooked = 607 -> reachable cooked r1 -> reachable cooked r2 -> r_pos r1 = r_pos r2 ->
  SplitGenericRand fuel1 r1 secret1 parts threshold = Ret (shares1, r1') ->
  SplitGenericRand fuel2 r2 secret2 parts threshold = Ret (shares2, r2') ->
  NoDup is -> (forall i, In i is -> i < Z.to_nat parts) -> S (length is) = Z.to_nat threshold ->
  pick [] shares1 is = pick [] shares2 is ->
  r_pos r1 + 4249 <= length is * K -> K <= length secret1 -> firstn K secret1 = firstn K secret2 ->
  forall n, fst (rngRead n r1') = fst (rngRead n r2').
Proof.
  intros cooked fuel1 fuel2 r1 r2 secret1 secret2 parts threshold shares1 shares2 r1' r2' is K L H1 H2 HP E1 E2 ND Hi Li Eq HK HK' Epre n.
  pose proof (SplitGenericRand_inv _ _ _ _ _ _ _ E1) as (_ & pe1 & q1 & EP1 & _ & ->).
  pose proof (SplitGenericRand_inv _ _ _ _ _ _ _ E2) as (_ & pe2 & q2 & EP2 & _ & ->).
  apply SplitGenericRand_polys in E1 as (V1 & k1 & po1 & tg1 & pm1 & F1 & L1 & B1).
  apply SplitGenericRand_polys in E2 as (V2 & k2 & po2 & tg2 & pm2 & F2 & L2 & B2).
  rewrite EP1 in F1. rewrite EP2 in F2. injection F1 as _ ->. injection F2 as _ ->.
  destruct (valid_t _ _ _ V1) as (Ht & _).
  assert (Hi1 : forall i, In i is -> i < length tg1) by (intros i Hin; rewrite L1; apply Hi, Hin).
  assert (LT : length tg1 = length tg2) by lia.
  assert (LS : length secret1 = length secret2) by (eapply same_length; eassumption).
  assert (SP : forall p, p < length secret1 -> nth p secret1 x00 = nth p secret2 x00 -> nth p po1 [] = nth p po2 [])
    by (eapply same_poly; eassumption).
  assert (SS : forall i, rngStream (Nat.iter k1 step r1) i = rngStream (Nat.iter k2 step r2) i).
  { apply stream_determined_pos; try (apply iter_wf, (reach_wf cooked); assumption); [rewrite !step_pos; exact HP|].
    rewrite step_pos. intros i Hlt. set (t1 := Z.to_nat threshold - 1) in *. assert (Et : length is = t1) by lia. rewrite Et in HK.
    assert (Hp : i / t1 < K) by (apply Nat.div_lt_upper_bound; lia).
    pose proof (Nat.mod_upper_bound i t1 ltac:(lia)) as Hc. pose proof (Nat.div_mod i t1 ltac:(lia)) as Ei.
    destruct B1 as (_ & _ & C1). destruct B2 as (_ & _ & C2).
    specialize (C1 (i / t1) (S (i mod t1)) ltac:(lia) ltac:(lia)). specialize (C2 (i / t1) (S (i mod t1)) ltac:(lia) ltac:(lia)).
    replace (t1 * (i / t1) + (S (i mod t1) - 1)) with i in C1, C2 by lia. rewrite <- C1, <- C2. f_equal.
    apply SP; [lia|]. rewrite <- (nth_firstn secret1 K), <- (nth_firstn secret2 K), Epre by exact Hp. reflexivity. }
  rewrite !rngRead_spec. cbn [fst]. rewrite <- LS. apply map_ext. intros i. rewrite <- !rngStream_plus. apply SS.
Qed.

Lemma stream_read r r' : (forall n, fst (rngRead n r) = fst (rngRead n r')) -> forall i, rngStream r i = rngStream r' i.
Proof.
  intros H i. specialize (H (S i)). rewrite !rngRead_spec in H. cbn [fst] in H. apply (f_equal (fun l => nth i l x00)) in H.
  rewrite !nth_take_stream in H by lia. exact H.
Qed.

(** C81: in particular the key stream of a CSPRNG made next, and so all shares and keys made with it. *)
Lemma C81_next_csprng_pf : forall cooked fuel1 fuel2 r1 r2 secret1 secret2 parts threshold shares1 shares2 r1' r2' is K,
  length cooked = 607 -> reachable cooked r1 -> reachable cooked r2 -> r_pos r1 = r_pos r2 ->
  SplitGenericRand fuel1 r1 secret1 parts threshold = Ret (shares1, r1') ->
  SplitGenericRand fuel2 r2 secret2 parts threshold = Ret (shares2, r2') ->
  NoDup is -> (forall i, In i is -> i < Z.to_nat parts) -> S (length is) = Z.to_nat threshold ->
  pick [] shares1 is = pick [] shares2 is ->
  r_pos r1 + 4249 <= length is * K -> K <= length secret1 -> firstn K secret1 = firstn K secret2 ->
  forall E, fst (NewCSPRNGRand E r1') = fst (NewCSPRNGRand E r2').
Proof.
  intros cooked fuel1 fuel2 r1 r2 secret1 secret2 parts threshold shares1 shares2 r1' r2' is K L H1 H2 HP E1 E2 ND Hi Li Eq HK HK' Epre E.
  pose proof (C81_next_bytes_pf cooked fuel1 fuel2 r1 r2 secret1 secret2 parts threshold shares1 shares2 r1' r2' is K L H1 H2 HP E1 E2 ND Hi Li Eq HK HK' Epre 32) as R.
  rewrite !rngRead_spec in R. cbn [fst] in R. unfold NewCSPRNGRand. cbn [fst]. unfold NewCSPRNG. rewrite R. reflexivity.
Qed.

Lemma krSplitRand_inv fuel E zp ar growcap polB trB evBufs r secret parts threshold shares : grow_ok growcap ->
  krSplitRand fuel E zp ar growcap polB trB evBufs r secret parts threshold = Ret shares ->
  (2 <= threshold <= parts)%Z /\ (parts <= 255)%Z /\ length shares = Z.to_nat parts /\
  forall i, i < Z.to_nat threshold -> kr_piece (nth i shares []) = padded_piece (Z.to_nat threshold) i (krCipher E (take_stream (rngStream r) 16) secret).
Proof.
  intros G R. assert (EP : exists perm r1, rngPerm fuel (rngSkip LenKey r) 255 = Ret (perm, r1)).
  { unfold krSplitRand in R.
    destruct (krSplitWith_stuck E zp (take_stream (rngStream r) LenKey)
      (fun s n t => do '(out, _) <- SplitRand fuel ar growcap polB trB evBufs (rngSkip LenKey r) s n t; Ret out) secret parts threshold (take_stream_length _ _))
      as [(e & _ & _ & X)|(_ & _ & _ & _ & _ & enc & _ & X)]; rewrite X in R; [discriminate|].
    cbv beta in R. destruct (SplitRand _ _ _ _ _ _ _ _ _ _) as [[out r']|e|p| |] eqn:S; cbn [bind] in R; try discriminate.
    apply SplitRand_inv in S as (_ & perm & r1 & EP & _). exists perm, r1. exact EP. }
  destruct EP as (perm & r1 & EP). rewrite (krSplitRand_eq _ _ _ _ _ _ _ _ _ perm r1 _ _ _ EP) in R.
  destruct (rngPerm_perm _ _ _ _ _ EP) as (P & _).
  assert (V : kr_valid_args zp secret parts threshold).
  { apply (proj1 (C34_contract_pf E zp ar growcap (rngStream r) perm (rngStream r1) polB trB evBufs secret parts threshold G P)). exists shares. exact R. }
  destruct (krSplit_ok E zp ar growcap (rngStream r) perm (rngStream r1) polB trB evBufs secret parts threshold G P V) as (ms & polys & E1 & E2 & S & E3).
  rewrite E3 in R. injection R as <-. pose proof V as (Hs & HL & H2 & H3 & H4 & Hz).
  split; [lia|]. split; [lia|]. split; [rewrite map_length; apply seq_length|]. intros i Hi. rewrite nth_map_seq by lia. rewrite krShare_piece; [apply krPiece_padded; lia|].
  rewrite (is_sharing_lengths _ _ _ _ _ i S) by lia. rewrite krMeta_length by apply take_stream_length. reflexivity.
Qed.

Lemma xor_bytes_eq a : forall b, length a = length b -> xor_bytes a b = xor_bytes b b -> a = b.
Proof.
  induction a as [|x a IH]; intros [|y b] L H; cbn [length] in L; try discriminate; [reflexivity|]. cbn [xor_bytes] in H. injection H as H1 H2.
  f_equal; [|apply IH; [congruence|exact H2]]. change (gadd x y = gadd y y) in H1. rewrite gadd_self in H1. apply gadd_eq_0. exact H1.
Qed.

Lemma padded_piece_length t i a b : length a = length b -> length (padded_piece t i a) = length (padded_piece t i b).
Proof. intros L. unfold padded_piece. cbv zeta. rewrite L. rewrite !firstn_length, !skipn_length, !app_length, L. reflexivity. Qed.

(** C81: and the AES key of a krawczyk.Split made next, with any parameters: whoever sees share [i] of it, one share only, can tell piece [i] of its
    secret. *)
Lemma C81_next_krawczyk_pf : forall cooked fuel1 fuel2 r1 r2 secret1 secret2 parts threshold shares1 shares2 r1' r2' is K
    E zp ar ar' growcap growcap' polB trB evBufs polB' trB' evBufs' f1 f2 s1 s2 parts' threshold' kshares1 kshares2 i,
  length cooked = 607 -> reachable cooked r1 -> reachable cooked r2 -> r_pos r1 = r_pos r2 ->
  SplitGenericRand fuel1 r1 secret1 parts threshold = Ret (shares1, r1') ->
  SplitGenericRand fuel2 r2 secret2 parts threshold = Ret (shares2, r2') ->
  NoDup is -> (forall i, In i is -> i < Z.to_nat parts) -> S (length is) = Z.to_nat threshold ->
  pick [] shares1 is = pick [] shares2 is ->
  r_pos r1 + 4249 <= length is * K -> K <= length secret1 -> firstn K secret1 = firstn K secret2 ->
  grow_ok growcap -> grow_ok growcap' ->
  krSplitRand f1 E zp ar growcap polB trB evBufs r1' s1 parts' threshold' = Ret kshares1 ->
  krSplitRand f2 E zp ar' growcap' polB' trB' evBufs' r2' s2 parts' threshold' = Ret kshares2 ->
  length s1 = length s2 -> i < Z.to_nat threshold' ->
  kr_piece (nth i kshares1 []) = kr_piece (nth i kshares2 []) ->
  padded_piece (Z.to_nat threshold') i s1 = padded_piece (Z.to_nat threshold') i s2.
Proof.
  intros cooked fuel1 fuel2 r1 r2 secret1 secret2 parts threshold shares1 shares2 r1' r2' is K
    E zp ar ar' growcap growcap' polB trB evBufs polB' trB' evBufs' f1 f2 s1 s2 parts' threshold' kshares1 kshares2 i
    L H1 H2 HP E1 E2 ND Hi Li Eq HK HK' Epre G G' R1 R2 Ls Hit Pc.
  pose proof (C81_next_bytes_pf cooked fuel1 fuel2 r1 r2 secret1 secret2 parts threshold shares1 shares2 r1' r2' is K L H1 H2 HP E1 E2 ND Hi Li Eq HK HK' Epre 16) as R.
  rewrite !rngRead_spec in R. cbn [fst] in R.
  destruct (krSplitRand_inv _ _ _ _ _ _ _ _ _ _ _ _ _ G R1) as (_ & _ & _ & P1). destruct (krSplitRand_inv _ _ _ _ _ _ _ _ _ _ _ _ _ G' R2) as (_ & _ & _ & P2).
  rewrite (P1 i Hit), (P2 i Hit), R in Pc. set (key := take_stream (rngStream r2') 16) in *. set (t := Z.to_nat threshold') in *.
  apply xor_bytes_eq; [apply padded_piece_length, Ls|].
  transitivity (xor_bytes (padded_piece t i (krCipher E key s1)) (padded_piece t i (krCipher E key s2))).
  - symmetry. apply xor_padded; rewrite ?krCipher_length; try assumption; try reflexivity. unfold krCipher. apply xor_bytes_stream, Ls.
  - rewrite Pc. apply xor_padded; rewrite ?krCipher_length; try reflexivity. unfold krCipher. apply xor_bytes_stream. reflexivity.
Qed.

(*COPY
(** four calls, one of them with bad arguments *)
Definition ex_rcalls : list rcall :=
  [RSplit ex_stale ex_stale ex_ev ex_secret 5 3; RGeneric [] 5 3; RNewCSPRNG; RKrawczyk ex_stale ex_stale ex_ev ex_secret 4 2].
Definition ex_table : list N := map (fun i => (N.of_nat i * N.of_nat i + 1)%N) (seq 1 607).
Example C51_history_run : exists F sh1 ks sh2 r', Combine (pick [] sh1 [4; 0; 2]) = Ret ex_secret /\
  krCombine AES true (fun _ => 512) [Some (nth 3 sh2 []); None; Some (nth 0 sh2 [])] 4 2 = Ret ex_secret /\
  forall fuel, F <= fuel -> runCalls fuel AES true ex_ar growcap117 (rngSeed ex_table 7) ex_rcalls =
    Ret ([RShares (Ret sh1); RShares (Fail EEmptySecret); RStream ks; RShares (Ret sh2)], r').
Proof.
  destruct (C51_history ex_table (rngSeed ex_table 7) AES true (fun _ => 512) ex_ar growcap117 ex_rcalls) as (F & xs & r' & _ & A & X).
  - unfold ex_table. rewrite map_length. apply seq_length.
  - constructor.
  - lia.
  - exact ex_grow.
  - inversion A as [|c1 x1 l1 m1 H1 A1]; subst. inversion A1 as [|c2 x2 l2 m2 H2 A2]; subst. inversion A2 as [|c3 x3 l3 m3 H3 A3]; subst.
    inversion A3 as [|c4 x4 l4 m4 H4 A4]; subst. inversion A4; subst.
    destruct H1 as [(e & F1 & _)|(_ & sh1 & -> & _ & K1)]; [exfalso; revert F1; unfold arg_error; cbn; intuition (try discriminate; try lia)|].
    destruct H2 as [(e2 & F2 & ->)|((F2 & _) & _)]; [|congruence].
    assert (e2 = EEmptySecret) by (revert F2; unfold arg_error; intuition (try assumption; try lia)). subst e2.
    destruct H3 as (ks & ->).
    destruct H4 as [(e & F1 & _)|(_ & sh2 & -> & _ & K2)]; [exfalso; revert F1; unfold kr_arg_error; cbn; intuition (try discriminate; try lia)|].
    exists F, sh1, ks, sh2, r'. split; [|split; [|exact X]].
    + apply K1. split; [repeat constructor; cbn; lia|]. split; [|cbn; lia]. intros i Hi; cbn in Hi; change (Z.to_nat 5) with 5; lia.
    + apply (K2 _ [3; 0]); [|reflexivity]. split; [repeat constructor; cbn; lia|]. split; [|cbn; lia]. intros i Hi; cbn in Hi; change (Z.to_nat 4) with 4; lia.
Qed.
(** the hypotheses of the predictions are met: from every seed, 85 shares of a secret of 50 known bytes with threshold 86, then krawczyk.Split of "hello" *)
Example C81_case : forall seed, exists f shares r' f' kshares,
  SplitGenericRand f (rngSeed ex_table seed) (repeat x41 50) 90 86 = Ret (shares, r') /\
  krSplitRand f' AES true ex_ar growcap117 ex_stale ex_stale ex_ev r' ex_secret 4 2 = Ret kshares /\
  S (length (seq 0 85)) = Z.to_nat 86 /\ 85 * 50 = 4250 /\ r_pos (rngSeed ex_table seed) = 0.
Proof.
  intros seed. assert (L : length ex_table = 607) by (unfold ex_table; rewrite map_length; apply seq_length).
  assert (V : valid_args (repeat x41 50) 90 86) by (split; [discriminate|]; lia).
  assert (V' : kr_valid_args true ex_secret 4 2) by (unfold kr_valid_args; repeat split; try discriminate; try (cbn; lia); left; reflexivity).
  generalize dependent ex_table. intros table L. generalize dependent (repeat x41 50). intros secret V.
  destruct (C51_splitgeneric_pf table (rngSeed table seed) secret 90 86 L (seeded _ _) V) as (F & shares & r' & R & _ & E & _).
  destruct (C51_krawczyk_pf table r' AES true (fun _ => 512) ex_ar growcap117 ex_stale ex_stale ex_ev ex_secret 4 2 L R (fun _ => Nat.lt_0_succ 511) ex_grow V') as (F' & ksh & _ & E' & _).
  exists F, shares, r', F', ksh. split; [apply E; lia|]. split; [apply E'; lia|]. split; [reflexivity|]. split; reflexivity.
Qed.
END*)
