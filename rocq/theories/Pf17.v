(** Proofs about the split functions of package krawczyk and SplitWithRandomizerOld on memory (C64). *)
From Coq Require Import List NArith ZArith Lia Arith Bool.
From Coq.Init Require Import Byte.
From Verif Require Import GoSem Bytes GoFacts Vector Pool Polynomial Shamir Libs AES Krawczyk Memory MemCalls SpecMemCalls MemFacts MemTop KrMem SpecKrMem KrMemFacts
  KrSplitMem SpecKrSplitMem KrSplitMemFacts OldMemFacts ExData Pf16.
Import ListNotations.

(*PROPS
From Coq Require Import List NArith ZArith Lia Arith Bool Permutation.
From Coq.Init Require Import Byte.
From Verif Require Import GoSem Bytes Vector Pool Polynomial Shamir Libs AES Krawczyk Memory MemCalls SpecMemCalls KrMem SpecKrMem KrSplitMem SpecKrSplitMem ExData Pf17.
Import ListNotations.
*)

(** C64. krawczyk.Split run on memory keeps every array the caller can reach, returns fresh and disjoint shares, and ends as the function of
    values krSplit does (whatever pool buffers that function is given). *)
Lemma C64_split_pf : forall E zp extra size ar growcap krand perm stream polB trB evBufs secret parts threshold m,
  grow_ok growcap -> length perm = 255 -> mem_ok m -> usable m secret ->
  call_ok m (mKrSplit E zp extra size ar growcap krand perm stream secret parts threshold m)
    (krSplit E zp ar growcap krand perm stream polB trB evBufs (mcontents m secret) parts threshold).
Proof. intros. apply mKrSplit_call; assumption. Qed.

(** C64. The same for krawczyk.SplitWithRandomizer, which depends on what the pool buffer holds. *)
Lemma C64_splitwithrandomizer_pf : forall fuel E zp extra size ar growcap ks trB evBufs secret parts threshold m,
  grow_ok growcap -> mem_ok m -> usable m secret ->
  call_ok m (mKrSplitWithRandomizer fuel E zp extra size ar growcap ks secret parts threshold m)
    (krSplitWithRandomizer fuel E zp ar growcap ks (nextStale m) trB evBufs (mcontents m secret) parts threshold).
Proof. intros. apply mKrSplitWithRandomizer_call; assumption. Qed.

(** C64. The same for shamir.SplitWithRandomizerOld. *)
Lemma C64_old_pf : forall size ar growcap ks evBufs secret parts threshold m,
  grow_ok growcap -> mem_ok m -> usable m secret ->
  call_ok m (mSplitWithRandomizerOld size ar growcap ks secret parts threshold m)
    (SplitWithRandomizerOld ar growcap ks evBufs (mcontents m secret) parts threshold).
Proof. intros. apply mSplitWithRandomizerOld_call; assumption. Qed.

Lemma usable_spare m env k : Forall (usable m) env -> nth k (map (mspare m) env) [] = mspare m (nthSlice env k).
Proof.
  intros U. unfold nthSlice. destruct (Nat.lt_ge_cases k (length env)) as [L|L].
  - apply (nth_map' (mspare m) env k [] nilSlice L).
  - rewrite !nth_overflow by (rewrite ?map_length; exact L). reflexivity.
Qed.

Lemma pkgCall_ok E zp rd size ar growcap op env m call : grow_ok growcap -> pkgOp_ok env op -> mem_ok m -> Forall (usable m) env ->
  pkgCall E zp rd size ar growcap env op = Some call ->
  exists v, pkgValue E zp rd ar growcap (nextStale m) (map (mcontents m) env) (map (mspare m) env) op = Some v /\ call_ok m (call m) v.
Proof.
  intros G OK MO U C.
  assert (NV : forall k, nth k (map (mcontents m) env) [] = mcontents m (nthSlice env k)).
  { intros k. unfold nthSlice. destruct (Nat.lt_ge_cases k (length env)) as [L|L].
    - apply (nth_map' (mcontents m) env k [] nilSlice L).
    - rewrite !nth_overflow by (rewrite ?map_length; exact L). reflexivity. }
  destruct op as [op|ks k parts threshold|extra krand perm stream k parts threshold|fuel extra ks k parts threshold|ps parts threshold]; cbn [pkgCall pkgOp_ok pkgValue] in *.
  - eapply callOf_ok; try eassumption. reflexivity.
  - inversion C; subst call. eexists. split; [reflexivity|]. rewrite NV. apply mSplitWithRandomizerOld_call; try assumption. apply usable_nthSlice, U.
  - inversion C; subst call. eexists. split; [reflexivity|]. rewrite NV. apply mKrSplit_call; try assumption. apply usable_nthSlice, U.
  - inversion C; subst call. eexists. split; [reflexivity|]. rewrite NV. apply mKrSplitWithRandomizer_call; try assumption. apply usable_nthSlice, U.
  - inversion C; subst call. eexists. split; [reflexivity|].
    assert (EQ : map (option_map (fun p => (nth p (map (mcontents m) env) [], nth p (map (mspare m) env) []))) ps = map (mshare m) (map (option_map (nthSlice env)) ps)).
    { rewrite map_map. apply map_ext. intros [p|]; [|reflexivity]. cbn [option_map mshare]. rewrite NV, (usable_spare m env p U). reflexivity. }
    rewrite EQ. apply C63_no_stubs_pf; [exact MO| |].
    + intros s Hs. apply in_map_iff in Hs as ([p|] & Q & _); [|discriminate Q]. cbn [option_map] in Q. inversion Q. apply usable_nthSlice, U.
    + intros s Hs. apply in_map_iff in Hs as ([p|] & Q & Hp); [|discriminate Q]. cbn [option_map] in Q. inversion Q. apply OK, Hp.
Qed.

Lemma pkgStep_ok E zp rd size ar growcap c op : grow_ok growcap -> pkgOp_ok (snd c) op -> client_ok c -> client_ok (pkgStep E zp rd size ar growcap c op).
Proof.
  intros G OK C. pose proof C as [MO U]. destruct c as [m env]. cbn [fst snd] in *.
  assert (H : forall call, pkgCall E zp rd size ar growcap env op = Some call ->
    client_ok (match call m with (m', Ret slices) => (m', env ++ slices) | (m', _) => (m', env) end)).
  { intros call EC. destruct (pkgCall_ok E zp rd size ar growcap op env m call G OK MO U EC) as (v & _ & K & R). destruct (call m) as [m' o]. cbn [fst snd] in *.
    assert (U' : Forall (usable m') env) by (eapply Forall_impl; [|exact U]; intros s Hs; eapply keeps_usable; eassumption).
    destruct o as [sl|e|p| |]; (split; [apply K|]); cbn [fst snd]; try exact U'. apply Forall_app. split; [exact U'|].
    destruct R as (_ & R & _). eapply Forall_impl; [|exact R]. intros s Hs. apply Hs. }
  destruct op; [apply clientStep_ok; assumption|apply (H _ eq_refl)..].
Qed.

(** C64 for whole programs: a program that starts with nothing and allocates, stores, appends, reslices and calls either package in any order
    only ever holds slices it may use; and every call it makes after any such history leaves all these slices with the bytes they had, ends
    as the functions of values say for these bytes, and returns fresh and disjoint slices. *)
Lemma C64_history_pf : forall E zp rd size ar growcap m env, grow_ok growcap -> reached E zp rd size ar growcap (m, env) ->
  mem_ok m /\ Forall (usable m) env /\
  forall op call, pkgOp_ok env op -> pkgCall E zp rd size ar growcap env op = Some call ->
    Forall (fun s => mcontents (fst (call m)) s = mcontents m s) env /\
    exists v, pkgValue E zp rd ar growcap (nextStale m) (map (mcontents m) env) (map (mspare m) env) op = Some v /\ call_ok m (call m) v.
Proof.
  intros E zp rd size ar growcap m env G R.
  assert (C : client_ok (m, env)).
  { revert R. generalize (m, env). intros c R. induction R as [|c op R IH OK]; [split; [split; constructor|constructor]|]. apply pkgStep_ok; assumption. }
  destruct C as [MO U]. cbn [fst snd] in *. split; [exact MO|]. split; [exact U|]. intros op call OK EC.
  destruct (pkgCall_ok E zp rd size ar growcap op env m call G OK MO U EC) as (v & Ev & CO). split; [|exists v; split; assumption].
  eapply Forall_impl; [|exact U]. intros s Hs. apply (keeps_usable m _ s (proj1 CO) Hs).
Qed.

(*COPY
(** Beside C64: a program that splits a two-byte secret with krawczyk, overwrites the secret, stores into a returned share beyond the ones it
    combines, and combines two others; it gets back the old secret. Then SplitWithRandomizerOld, combined with Combine of package shamir. *)
Definition ex_pkg_ops : list pkgOp :=
  [PBase (KNew [x68; x69]); PKrSplit 3 ex_stream ex_perm ex_stream 0 3 2; PBase (KStore 0 0 x00); PBase (KStore 2 0 xff); PKrCombine [Some 3; None; Some 1] 3 2;
   POld ex_stream 4 3 2; PBase (KCombine [7; 5])].
Definition ex_pkg_run := fold_left (pkgStep AES true (fun _ => 1) 4 ex_ar growcap117) ex_pkg_ops (emptyMemory, []).
Example C64_run :
  map sl_len (snd ex_pkg_run) = [2; 23; 23; 23; 2; 3; 3; 3; 2] /\
  mcontents (fst ex_pkg_run) (nth 4 (snd ex_pkg_run) nilSlice) = [x68; x69] /\
  mcontents (fst ex_pkg_run) (nth 8 (snd ex_pkg_run) nilSlice) = [x68; x69] /\ mcontents (fst ex_pkg_run) (nth 0 (snd ex_pkg_run) nilSlice) = [x00; x69].
Proof. vm_compute. repeat split. Qed.
Example C64_reached : reached AES true (fun _ => 1) 4 ex_ar growcap117 ex_pkg_run.
Proof.
  assert (H : forall ops c, reached AES true (fun _ => 1) 4 ex_ar growcap117 c ->
    (fix ok c ops := match ops with [] => True | op :: r => pkgOp_ok (snd c) op /\ ok (pkgStep AES true (fun _ => 1) 4 ex_ar growcap117 c op) r end) c ops ->
    reached AES true (fun _ => 1) 4 ex_ar growcap117 (fold_left (pkgStep AES true (fun _ => 1) 4 ex_ar growcap117) ops c)).
  { induction ops as [|op ops IH]; intros c R O; [exact R|]. destruct O as [O1 O2]. cbn [fold_left]. apply IH; [|exact O2]. apply reached_step; assumption. }
  apply H; [apply reached_start|]. unfold ex_pkg_ops. repeat split.
  intros p [Q|[Q|[Q|[]]]]; [injection Q as <-|discriminate Q|injection Q as <-]; vm_compute; discriminate.
Qed.
END*)
