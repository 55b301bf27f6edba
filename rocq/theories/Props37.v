(** Proofs about SplitP on memory (C64).
    Generated from Pf37.v by tools/genprops.py: every theorem is proved there as the lemma of the same name with suffix _pf. *)
From Coq Require Import List NArith ZArith Lia Arith Bool Permutation.
From Coq.Init Require Import Byte.
From Verif Require Import GoSem Bytes Spec Vector Pool Polynomial Shamir SplitP Libs AES Krawczyk Memory MemCalls SpecMemCalls KrMem SpecKrMem KrSplitMem SpecKrSplitMem SplitPMem SpecSplitPMem ExData Pf2 Pf37.
Import ListNotations.

(** C64 for SplitP, whose goroutines read the secret and write the shares in the caller's memory step by step: under every schedule it ends on memory as the
    function of values does for the bytes of the secret under the same schedule, keeps every array the caller can reach, and returns fresh and disjoint
    shares; and every schedule of the one is a schedule of the other. *)
Theorem C64_splitp : forall perm stream secret parts threshold m sched, length perm = 255 -> mem_ok m -> usable m secret ->
  (forall r, mSplitP perm stream secret parts threshold m sched r ->
     exists v, SplitP perm stream (mcontents m secret) parts threshold sched v /\ call_ok m r v) /\
  (forall v, SplitP perm stream (mcontents m secret) parts threshold sched v ->
     exists r, mSplitP perm stream secret parts threshold m sched r /\ call_ok m r v).
Proof. exact C64_splitp_pf. Qed.
Print Assumptions C64_splitp.

(** C64 for whole programs with SplitP among their calls: every call after any history leaves all slices the program holds with the bytes they had, ends
    as the functions of values say for these bytes (for SplitP: under the same schedule), and returns fresh and disjoint slices. *)
Theorem C64_history_splitp : forall E zp rd size ar growcap m env, grow_ok growcap -> reachedP E zp rd size ar growcap (m, env) ->
  mem_ok m /\ Forall (usable m) env /\
  (forall op call, pkgOp_ok env op -> pkgCall E zp rd size ar growcap env op = Some call ->
    Forall (fun s => mcontents (fst (call m)) s = mcontents m s) env /\
    exists v, pkgValue E zp rd ar growcap (nextStale m) (map (mcontents m) env) (map (mspare m) env) op = Some v /\ call_ok m (call m) v) /\
  (forall perm stream k parts threshold sched r, length perm = 255 -> mSplitP perm stream (nthSlice env k) parts threshold m sched r ->
    Forall (fun s => mcontents (fst r) s = mcontents m s) env /\
    exists v, SplitP perm stream (mcontents m (nthSlice env k)) parts threshold sched v /\ call_ok m r v).
Proof. exact C64_history_splitp_pf. Qed.
Print Assumptions C64_history_splitp.

(** Beside C64: a program that allocates "hi!", reslices it to "hi" (so that the secret has spare capacity), calls SplitP on it and combines the shares. *)
Definition ex_p_sched : list nat := [0; 1; 0; 1; 1; 1; 1; 1; 1; 1; 1; 0].
Definition ex_p_start := fold_left (pkgStep AES true (fun _ => 1) 4 ex_ar growcap117) [PBase (KNew [x68; x69; x21]); PBase (KSlice 0 0 2)] (emptyMemory, []).
Example C64_run_splitp : exists r slices,
  reachedP AES true (fun _ => 1) 4 ex_ar growcap117 ex_p_start /\
  mSplitP ex_perm ex_stream (nthSlice (snd ex_p_start) 1) 2 2 (fst ex_p_start) ex_p_sched r /\ snd r = Ret slices /\
  length slices = 2 /\ Combine (map (mcontents (fst r)) slices) = Ret [x68; x69].
Proof.
  assert (R : reachedP AES true (fun _ => 1) 4 ex_ar growcap117 ex_p_start).
  { unfold ex_p_start. cbn [fold_left]. apply reachedP_step; [apply reachedP_step; [apply reachedP_start|exact I]|exact I]. }
  destruct (C64_history_splitp AES true (fun _ => 1) 4 ex_ar growcap117 (fst ex_p_start) (snd ex_p_start) ex_grow R) as (MO & U & _).
  destruct (C64_splitp ex_perm ex_stream (nthSlice (snd ex_p_start) 1) 2 2 (fst ex_p_start) ex_p_sched ltac:(apply seq_length) MO
    ltac:(apply Forall_forall with (x := nthSlice (snd ex_p_start) 1) in U; [exact U|vm_compute; tauto])) as [_ Q].
  assert (V : exists shares, SplitPRun ex_perm ex_stream (mcontents (fst ex_p_start) (nthSlice (snd ex_p_start) 1)) 2 2 ex_p_sched = Some (Ret shares) /\ length shares = 2 /\
    Combine shares = Ret [x68; x69]) by (eexists; split; [vm_compute; reflexivity|split; vm_compute; reflexivity]).
  destruct V as (shares & V & L & C). apply C12_run_is_splitp_pf in V. destruct (Q _ V) as (r & H & K & M).
  destruct r as [m' o]. cbn [fst snd] in *. destruct o as [sl|e|p| |]; try discriminate M.
  destruct M as (M & _ & _). assert (ES : map (mcontents m') sl = shares) by congruence. exists (m', Ret sl), sl.
  split; [exact R|]. split; [exact H|]. split; [reflexivity|]. cbn [fst]. rewrite ES. split; [rewrite <- L, <- ES, map_length; reflexivity|exact C].
Qed.
