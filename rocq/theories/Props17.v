(** Proofs about the split functions of package krawczyk and SplitWithRandomizerOld on memory (C64).
    Generated from Pf17.v by tools/genprops.py: every theorem is proved there as the lemma of the same name with suffix _pf. *)
From Coq Require Import List NArith ZArith Lia Arith Bool Permutation.
From Coq.Init Require Import Byte.
From Verif Require Import GoSem Bytes Vector Pool Polynomial Shamir Libs AES Krawczyk Memory MemCalls SpecMemCalls KrMem SpecKrMem KrSplitMem SpecKrSplitMem ExData Pf17.
Import ListNotations.

(** C64. krawczyk.Split run on memory keeps every array the caller can reach, returns fresh and disjoint shares, and ends as the function of
    values krSplit does (whatever pool buffers that function is given). *)
Theorem C64_split : forall E zp extra size ar growcap krand perm stream polB trB evBufs secret parts threshold m,
  grow_ok growcap -> length perm = 255 -> mem_ok m -> usable m secret ->
  call_ok m (mKrSplit E zp extra size ar growcap krand perm stream secret parts threshold m)
    (krSplit E zp ar growcap krand perm stream polB trB evBufs (mcontents m secret) parts threshold).
Proof. exact C64_split_pf. Qed.
Print Assumptions C64_split.

(** C64. The same for krawczyk.SplitWithRandomizer, which depends on what the pool buffer holds. *)
Theorem C64_splitwithrandomizer : forall fuel E zp extra size ar growcap ks trB evBufs secret parts threshold m,
  grow_ok growcap -> mem_ok m -> usable m secret ->
  call_ok m (mKrSplitWithRandomizer fuel E zp extra size ar growcap ks secret parts threshold m)
    (krSplitWithRandomizer fuel E zp ar growcap ks (nextStale m) trB evBufs (mcontents m secret) parts threshold).
Proof. exact C64_splitwithrandomizer_pf. Qed.
Print Assumptions C64_splitwithrandomizer.

(** C64. The same for shamir.SplitWithRandomizerOld. *)
Theorem C64_old : forall size ar growcap ks evBufs secret parts threshold m,
  grow_ok growcap -> mem_ok m -> usable m secret ->
  call_ok m (mSplitWithRandomizerOld size ar growcap ks secret parts threshold m)
    (SplitWithRandomizerOld ar growcap ks evBufs (mcontents m secret) parts threshold).
Proof. exact C64_old_pf. Qed.
Print Assumptions C64_old.

(** C64 for whole programs: a program that starts with nothing and allocates, stores, appends, reslices and calls either package in any order
    only ever holds slices it may use; and every call it makes after any such history leaves all these slices with the bytes they had, ends
    as the functions of values say for these bytes, and returns fresh and disjoint slices. *)
Theorem C64_history : forall E zp rd size ar growcap m env, grow_ok growcap -> reached E zp rd size ar growcap (m, env) ->
  mem_ok m /\ Forall (usable m) env /\
  forall op call, pkgOp_ok env op -> pkgCall E zp rd size ar growcap env op = Some call ->
    Forall (fun s => mcontents (fst (call m)) s = mcontents m s) env /\
    exists v, pkgValue E zp rd ar growcap (nextStale m) (map (mcontents m) env) (map (mspare m) env) op = Some v /\ call_ok m (call m) v.
Proof. exact C64_history_pf. Qed.
Print Assumptions C64_history.

(** Beside C64: a program that splits a two-byte secret with krawczyk, overwrites the secret, stores into a returned share beyond the ones it
    combines, and combines two others; it gets back the old secret. Then SplitWithRandomizerOld, combined with Combine of package shamir. *)
Definition ex_pkg_ops : list pkgOp :=
  [PBase (KNew [x68; x69]); PKrSplit 3 ex_stream ex_perm ex_stream 0 3 2; PBase (KStore 0 0 x00); PBase (KStore 2 0 xff); PKrCombine [Some 3; None; Some 1] 3 2;
   POld ex_stream 4 3 2; PBase (KCombine [7; 5])].
Definition ex_pkg_run := fold_left (pkgStep AES true (fun _ => 1) 4 ex_ar growcap117) ex_pkg_ops (emptyMemory, []).
Example C64_run :
  map sl_len (snd ex_pkg_run) = [2; 23; 23; 23; 2; 3; 3; 3; 2] /\
  mcontents (fst ex_pkg_run) (nth 4 (snd ex_pkg_run) nilSlice) = [x68; x69] /\
  mcontents (fst ex_pkg_run) (nth 8 (snd ex_pkg_run) nilSlice) = [x68; x69] /\ mcontents (fst ex_pkg_run) (nth 0 (snd ex_pkg_run) nilSlice) = [x00; x69].
Proof. vm_compute. repeat split. Qed.
Example C64_reached : reached AES true (fun _ => 1) 4 ex_ar growcap117 ex_pkg_run.
Proof.
  assert (H : forall ops c, reached AES true (fun _ => 1) 4 ex_ar growcap117 c ->
    (fix ok c ops := match ops with [] => True | op :: r => pkgOp_ok (snd c) op /\ ok (pkgStep AES true (fun _ => 1) 4 ex_ar growcap117 c op) r end) c ops ->
    reached AES true (fun _ => 1) 4 ex_ar growcap117 (fold_left (pkgStep AES true (fun _ => 1) 4 ex_ar growcap117) ops c)).
  { induction ops as [|op ops IH]; intros c R O; [exact R|]. destruct O as [O1 O2]. cbn [fold_left]. apply IH; [|exact O2]. apply reached_step; assumption. }
  apply H; [apply reached_start|]. unfold ex_pkg_ops. repeat split.
  intros p [Q|[Q|[Q|[]]]]; [injection Q as <-|discriminate Q|injection Q as <-]; vm_compute; discriminate.
Qed.
