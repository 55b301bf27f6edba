(** Proofs about programs that make many calls with the generator of math/rand: they are correct (C51), and predictable (C81).
    Generated from Pf34.v by tools/genprops.py: every theorem is proved there as the lemma of the same name with suffix _pf. *)
From Coq Require Import List NArith ZArith Lia Arith Bool Permutation.
From Coq.Init Require Import Byte.
From Verif Require Import GoSem Bytes Spec SpecRand SpecKr Vector Csprng Pool Polynomial Shamir SplitP Libs AES Krawczyk Worker MathRand RandCalls SpecRandCalls ExData Pf10 Pf34.
Import ListNotations.

(** C51: SplitP with that generator: the permutation is drawn, then under every schedule of the goroutines (which read from the generator in any
    order) the call returns shares that combine. *)
Theorem C51_splitp : forall cooked r secret parts threshold,
  length cooked = 607 -> reachable cooked r -> valid_args secret parts threshold -> (N.of_nat (length secret) <= 4294967296 - 1024)%N ->
  exists F perm r1, reachable cooked r1 /\ (forall fuel, F <= fuel -> rngPerm fuel r 255 = Ret (perm, r1)) /\
    (exists sched shares, SplitP perm (rngStream r1) secret parts threshold sched (Ret shares)) /\
    forall sched o, SplitP perm (rngStream r1) secret parts threshold sched o ->
      exists shares, o = Ret shares /\ length shares = Z.to_nat parts /\
        forall is, selection (Z.to_nat parts) (Z.to_nat threshold) is -> Combine (pick [] shares is) = Ret secret.
Proof. exact C51_splitp_pf. Qed.
Print Assumptions C51_splitp.

(** C51: a program that makes any calls of Split, SplitGeneric, krawczyk.Split and NewCSPRNG, one after the other, with good or bad arguments, gets
    through all of them from every state of the generator, and every call does what it should. *)
Theorem C51_history : forall cooked r E zp rd ar growcap calls,
  length cooked = 607 -> reachable cooked r -> (forall i, 0 < rd i) -> grow_ok growcap ->
  exists F results r', reachable cooked r' /\ Forall2 (call_correct E zp rd) calls results /\
    forall fuel, F <= fuel -> runCalls fuel E zp ar growcap r calls = Ret (results, r').
Proof. exact C51_history_pf. Qed.
Print Assumptions C51_history.

(** C81: what the generator delivers after a SplitGeneric is determined by threshold-1 of the shares and a prefix of the secret of about
    4256 / (threshold-1) bytes: every byte that is read from it next (before a permutation is drawn). *)
Theorem C81_next_bytes : forall cooked fuel1 fuel2 r1 r2 secret1 secret2 parts threshold shares1 shares2 r1' r2' is K,
  length cooked = 607 -> reachable cooked r1 -> reachable cooked r2 -> r_pos r1 = r_pos r2 ->
  SplitGenericRand fuel1 r1 secret1 parts threshold = Ret (shares1, r1') ->
  SplitGenericRand fuel2 r2 secret2 parts threshold = Ret (shares2, r2') ->
  NoDup is -> (forall i, In i is -> i < Z.to_nat parts) -> S (length is) = Z.to_nat threshold ->
  pick [] shares1 is = pick [] shares2 is ->
  r_pos r1 + 4249 <= length is * K -> K <= length secret1 -> firstn K secret1 = firstn K secret2 ->
  forall n, fst (rngRead n r1') = fst (rngRead n r2').
Proof. exact C81_next_bytes_pf. Qed.
Print Assumptions C81_next_bytes.

(** C81: in particular the key stream of a CSPRNG made next, and so all shares and keys made with it. *)
Theorem C81_next_csprng : forall cooked fuel1 fuel2 r1 r2 secret1 secret2 parts threshold shares1 shares2 r1' r2' is K,
  length cooked = 607 -> reachable cooked r1 -> reachable cooked r2 -> r_pos r1 = r_pos r2 ->
  SplitGenericRand fuel1 r1 secret1 parts threshold = Ret (shares1, r1') ->
  SplitGenericRand fuel2 r2 secret2 parts threshold = Ret (shares2, r2') ->
  NoDup is -> (forall i, In i is -> i < Z.to_nat parts) -> S (length is) = Z.to_nat threshold ->
  pick [] shares1 is = pick [] shares2 is ->
  r_pos r1 + 4249 <= length is * K -> K <= length secret1 -> firstn K secret1 = firstn K secret2 ->
  forall E, fst (NewCSPRNGRand E r1') = fst (NewCSPRNGRand E r2').
Proof. exact C81_next_csprng_pf. Qed.
Print Assumptions C81_next_csprng.

(** C81: and the AES key of a krawczyk.Split made next, with any parameters: whoever sees share [i] of it, one share only, can tell piece [i] of its
    secret. *)
Theorem C81_next_krawczyk : forall cooked fuel1 fuel2 r1 r2 secret1 secret2 parts threshold shares1 shares2 r1' r2' is K
    E zp ar ar' growcap growcap' polB trB evBufs polB' trB' evBufs' f1 f2 s1 s2 parts' threshold' kshares1 kshares2 i,
  length cooked = 607 -> reachable cooked r1 -> reachable cooked r2 -> r_pos r1 = r_pos r2 ->
  SplitGenericRand fuel1 r1 secret1 parts threshold = Ret (shares1, r1') ->
  SplitGenericRand fuel2 r2 secret2 parts threshold = Ret (shares2, r2') ->
  NoDup is -> (forall i, In i is -> i < Z.to_nat parts) -> S (length is) = Z.to_nat threshold ->
  pick [] shares1 is = pick [] shares2 is ->
  r_pos r1 + 4249 <= length is * K -> K <= length secret1 -> firstn K secret1 = firstn K secret2 ->
  grow_ok growcap -> grow_ok growcap' ->
  krSplitRand f1 E zp ar growcap polB trB evBufs r1' s1 parts' threshold' = Ret kshares1 ->
  krSplitRand f2 E zp ar' growcap' polB' trB' evBufs' r2' s2 parts' threshold' = Ret kshares2 ->
  length s1 = length s2 -> i < Z.to_nat threshold' ->
  kr_piece (nth i kshares1 []) = kr_piece (nth i kshares2 []) ->
  padded_piece (Z.to_nat threshold') i s1 = padded_piece (Z.to_nat threshold') i s2.
Proof. exact C81_next_krawczyk_pf. Qed.
Print Assumptions C81_next_krawczyk.

(** four calls, one of them with bad arguments *)
Definition ex_rcalls : list rcall :=
  [RSplit ex_stale ex_stale ex_ev ex_secret 5 3; RGeneric [] 5 3; RNewCSPRNG; RKrawczyk ex_stale ex_stale ex_ev ex_secret 4 2].
Definition ex_table : list N := map (fun i => (N.of_nat i * N.of_nat i + 1)%N) (seq 1 607).
Example C51_history_run : exists F sh1 ks sh2 r', Combine (pick [] sh1 [4; 0; 2]) = Ret ex_secret /\
  krCombine AES true (fun _ => 512) [Some (nth 3 sh2 []); None; Some (nth 0 sh2 [])] 4 2 = Ret ex_secret /\
  forall fuel, F <= fuel -> runCalls fuel AES true ex_ar growcap117 (rngSeed ex_table 7) ex_rcalls =
    Ret ([RShares (Ret sh1); RShares (Fail EEmptySecret); RStream ks; RShares (Ret sh2)], r').
Proof.
  destruct (C51_history ex_table (rngSeed ex_table 7) AES true (fun _ => 512) ex_ar growcap117 ex_rcalls) as (F & xs & r' & _ & A & X).
  - unfold ex_table. rewrite map_length. apply seq_length.
  - constructor.
  - lia.
  - exact ex_grow.
  - inversion A as [|c1 x1 l1 m1 H1 A1]; subst. inversion A1 as [|c2 x2 l2 m2 H2 A2]; subst. inversion A2 as [|c3 x3 l3 m3 H3 A3]; subst.
    inversion A3 as [|c4 x4 l4 m4 H4 A4]; subst. inversion A4; subst.
    destruct H1 as [(e & F1 & _)|(_ & sh1 & -> & _ & K1)]; [exfalso; revert F1; unfold arg_error; cbn; intuition (try discriminate; try lia)|].
    destruct H2 as [(e2 & F2 & ->)|((F2 & _) & _)]; [|congruence].
    assert (e2 = EEmptySecret) by (revert F2; unfold arg_error; intuition (try assumption; try lia)). subst e2.
    destruct H3 as (ks & ->).
    destruct H4 as [(e & F1 & _)|(_ & sh2 & -> & _ & K2)]; [exfalso; revert F1; unfold kr_arg_error; cbn; intuition (try discriminate; try lia)|].
    exists F, sh1, ks, sh2, r'. split; [|split; [|exact X]].
    + apply K1. split; [repeat constructor; cbn; lia|]. split; [|cbn; lia]. intros i Hi; cbn in Hi; change (Z.to_nat 5) with 5; lia.
    + apply (K2 _ [3; 0]); [|reflexivity]. split; [repeat constructor; cbn; lia|]. split; [|cbn; lia]. intros i Hi; cbn in Hi; change (Z.to_nat 4) with 4; lia.
Qed.
(** the hypotheses of the predictions are met: from every seed, 85 shares of a secret of 50 known bytes with threshold 86, then krawczyk.Split of "hello" *)
Example C81_case : forall seed, exists f shares r' f' kshares,
  SplitGenericRand f (rngSeed ex_table seed) (repeat x41 50) 90 86 = Ret (shares, r') /\
  krSplitRand f' AES true ex_ar growcap117 ex_stale ex_stale ex_ev r' ex_secret 4 2 = Ret kshares /\
  S (length (seq 0 85)) = Z.to_nat 86 /\ 85 * 50 = 4250 /\ r_pos (rngSeed ex_table seed) = 0.
Proof.
  intros seed. assert (L : length ex_table = 607) by (unfold ex_table; rewrite map_length; apply seq_length).
  assert (V : valid_args (repeat x41 50) 90 86) by (split; [discriminate|]; lia).
  assert (V' : kr_valid_args true ex_secret 4 2) by (unfold kr_valid_args; repeat split; try discriminate; try (cbn; lia); left; reflexivity).
  generalize dependent ex_table. intros table L. generalize dependent (repeat x41 50). intros secret V.
  destruct (C51_splitgeneric_pf table (rngSeed table seed) secret 90 86 L (seeded _ _) V) as (F & shares & r' & R & _ & E & _).
  destruct (C51_krawczyk_pf table r' AES true (fun _ => 512) ex_ar growcap117 ex_stale ex_stale ex_ev ex_secret 4 2 L R (fun _ => Nat.lt_0_succ 511) ex_grow V') as (F' & ksh & _ & E' & _).
  exists F, shares, r', F', ksh. split; [apply E; lia|]. split; [apply E'; lia|]. split; [reflexivity|]. split; reflexivity.
Qed.
