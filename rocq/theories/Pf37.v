(** Proofs about SplitP on memory (C64). *)
(*PROPS
From Coq Require Import List NArith ZArith Lia Arith Bool Permutation.
From Coq.Init Require Import Byte.
From Verif Require Import GoSem Bytes Spec Vector Pool Polynomial Shamir SplitP Libs AES Krawczyk Memory MemCalls SpecMemCalls KrMem SpecKrMem KrSplitMem SpecKrSplitMem SplitPMem SpecSplitPMem ExData Pf2 Pf37.
Import ListNotations.
*)
From Coq Require Import List NArith ZArith Lia Arith Bool Permutation.
From Coq.Init Require Import Byte.
From Verif Require Import GoSem Bytes GoFacts Vector Pool Polynomial Shamir SplitP Libs AES Krawczyk Memory MemCalls SpecMemCalls MemFacts MemTop KrMem SpecKrMem KrSplitMem SpecKrSplitMem
  SplitPMem SpecSplitPMem SplitPMemFacts Pf17 ExData.
Import ListNotations.

(** C64 for SplitP, whose goroutines read the secret and write the shares in the caller's memory step by step: under every schedule it ends on memory as the
    function of values does for the bytes of the secret under the same schedule, keeps every array the caller can reach, and returns fresh and disjoint
    shares; and every schedule of the one is a schedule of the other. *)
Lemma C64_splitp_pf : forall perm stream secret parts threshold m sched, length perm = 255 -> mem_ok m -> usable m secret ->
  (forall r, mSplitP perm stream secret parts threshold m sched r ->
     exists v, SplitP perm stream (mcontents m secret) parts threshold sched v /\ call_ok m r v) /\
  (forall v, SplitP perm stream (mcontents m secret) parts threshold sched v ->
     exists r, mSplitP perm stream secret parts threshold m sched r /\ call_ok m r v).
Proof. exact mSplitP_call. Qed.

Lemma reachedP_client E zp rd size ar growcap c : grow_ok growcap -> reachedP E zp rd size ar growcap c -> client_ok c.
Proof.
  intros G R. induction R as [|c op R IH OK|c perm stream k parts threshold sched r R IH LP H].
  - split; [split; constructor|constructor].
  - apply pkgStep_ok; assumption.
  - destruct IH as [MO U]. destruct (proj1 (mSplitP_call perm stream (nthSlice (snd c) k) parts threshold (fst c) sched LP MO (usable_nthSlice _ _ _ U)) r H) as (v & _ & K & Q).
    assert (U' : Forall (usable (fst r)) (snd c)) by (eapply Forall_impl; [|exact U]; intros s Hs; eapply keeps_usable; eassumption).
    split; [apply K|]. cbn [fst snd]. apply Forall_app. split; [exact U'|]. destruct (snd r) as [sl|e|p| |]; try constructor.
    destruct Q as (_ & Q & _). eapply Forall_impl; [|exact Q]. intros s Hs. apply Hs.
Qed.

(** C64 for whole programs with SplitP among their calls: every call after any history leaves all slices the program holds with the bytes they had, ends
    as the functions of values say for these bytes (for SplitP: under the same schedule), and returns fresh and disjoint slices. *)
Lemma C64_history_splitp_pf : forall E zp rd size ar growcap m env, grow_ok growcap -> reachedP E zp rd size ar growcap (m, env) ->
  mem_ok m /\ Forall (usable m) env /\
  (forall op call, pkgOp_ok env op -> pkgCall E zp rd size ar growcap env op = Some call ->
    Forall (fun s => mcontents (fst (call m)) s = mcontents m s) env /\
    exists v, pkgValue E zp rd ar growcap (nextStale m) (map (mcontents m) env) (map (mspare m) env) op = Some v /\ call_ok m (call m) v) /\
  (forall perm stream k parts threshold sched r, length perm = 255 -> mSplitP perm stream (nthSlice env k) parts threshold m sched r ->
    Forall (fun s => mcontents (fst r) s = mcontents m s) env /\
    exists v, SplitP perm stream (mcontents m (nthSlice env k)) parts threshold sched v /\ call_ok m r v).
Proof.
  intros E zp rd size ar growcap m env G R. destruct (reachedP_client _ _ _ _ _ _ _ G R) as [MO U]. cbn [fst snd] in *.
  split; [exact MO|]. split; [exact U|]. split.
  - intros op call OK EC. destruct (pkgCall_ok E zp rd size ar growcap op env m call G OK MO U EC) as (v & Ev & CO). split; [|exists v; split; assumption].
    eapply Forall_impl; [|exact U]. intros s Hs. apply (keeps_usable m _ s (proj1 CO) Hs).
  - intros perm stream k parts threshold sched r LP H.
    destruct (proj1 (mSplitP_call perm stream (nthSlice env k) parts threshold m sched LP MO (usable_nthSlice _ _ _ U)) r H) as (v & Hv & CO). split; [|exists v; split; assumption].
    eapply Forall_impl; [|exact U]. intros s Hs. apply (keeps_usable m _ s (proj1 CO) Hs).
Qed.

(*COPY
(** Beside C64: a program that allocates "hi!", reslices it to "hi" (so that the secret has spare capacity), calls SplitP on it and combines the shares. *)
Definition ex_p_sched : list nat := [0; 1; 0; 1; 1; 1; 1; 1; 1; 1; 1; 0].
Definition ex_p_start := fold_left (pkgStep AES true (fun _ => 1) 4 ex_ar growcap117) [PBase (KNew [x68; x69; x21]); PBase (KSlice 0 0 2)] (emptyMemory, []).
Example C64_run_splitp : exists r slices,
  reachedP AES true (fun _ => 1) 4 ex_ar growcap117 ex_p_start /\
  mSplitP ex_perm ex_stream (nthSlice (snd ex_p_start) 1) 2 2 (fst ex_p_start) ex_p_sched r /\ snd r = Ret slices /\
  length slices = 2 /\ Combine (map (mcontents (fst r)) slices) = Ret [x68; x69].
Proof.
  assert (R : reachedP AES true (fun _ => 1) 4 ex_ar growcap117 ex_p_start).
  { unfold ex_p_start. cbn [fold_left]. apply reachedP_step; [apply reachedP_step; [apply reachedP_start|exact I]|exact I]. }
  destruct (C64_history_splitp AES true (fun _ => 1) 4 ex_ar growcap117 (fst ex_p_start) (snd ex_p_start) ex_grow R) as (MO & U & _).
  destruct (C64_splitp ex_perm ex_stream (nthSlice (snd ex_p_start) 1) 2 2 (fst ex_p_start) ex_p_sched ltac:(apply seq_length) MO
    ltac:(apply Forall_forall with (x := nthSlice (snd ex_p_start) 1) in U; [exact U|vm_compute; tauto])) as [_ Q].
  assert (V : exists shares, SplitPRun ex_perm ex_stream (mcontents (fst ex_p_start) (nthSlice (snd ex_p_start) 1)) 2 2 ex_p_sched = Some (Ret shares) /\ length shares = 2 /\
    Combine shares = Ret [x68; x69]) by (eexists; split; [vm_compute; reflexivity|split; vm_compute; reflexivity]).
  destruct V as (shares & V & L & C). apply C12_run_is_splitp_pf in V. destruct (Q _ V) as (r & H & K & M).
  destruct r as [m' o]. cbn [fst snd] in *. destruct o as [sl|e|p| |]; try discriminate M.
  destruct M as (M & _ & _). assert (ES : map (mcontents m') sl = shares) by congruence. exists (m', Ret sl), sl.
  split; [exact R|]. split; [exact H|]. split; [reflexivity|]. cbn [fst]. rewrite ES. split; [rewrite <- L, <- ES, map_length; reflexivity|exact C].
Qed.
END*)
