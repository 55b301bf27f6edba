(** What the split functions leave in the buffer pool, in programs that use both packages (C65, C76).
    Generated from Pf35.v by tools/genprops.py: every theorem is proved there as the lemma of the same name with suffix _pf. *)
From Coq Require Import List NArith ZArith Lia Arith Bool.
From Coq.Init Require Import Byte.
From Verif Require Import GoSem Bytes Spec SpecKr Vector Pool Shamir Libs AES Krawczyk Memory MemCalls SpecMemCalls KrSplitMem SpecKrSplitMem SpecRemain SpecRemainPkg ExData Pf35.
Import ListNotations.

(** C65 and C76 for programs that use both packages: a program that starts with nothing allocates, stores, appends, reslices and calls either package
    in any order, then makes a split that succeeds, and then does anything but another of the four splits that use the pool. Until then the pool holds
    a buffer that starts with what the split left behind, and another with these bytes at every threshold-th place: the secret itself, or for
    the functions of krawczyk the AES key and the length. *)
Theorem C76_packages : forall E zp rd size ar growcap m env op call left threshold m' shares m'' env'',
  grow_ok growcap -> 2 <= size -> reached E zp rd size ar growcap (m, env) -> pkgOp_ok env op ->
  left_behind m env op = Some (left, threshold) ->
  pkgCall E zp rd size ar growcap env op = Some call -> call m = (m', Ret shares) ->
  later E zp rd size ar growcap (m', env ++ shares) (m'', env'') ->
  exists b b', buffered m'' b left /\ scattered m'' b' (Z.to_nat threshold) left.
Proof. exact C76_packages_pf. Qed.
Print Assumptions C76_packages.

(** C65 for programs that use both packages: the same for Split and SplitWithRandomizer of package shamir, which leave the secret itself. *)
Theorem C65_packages : forall E zp rd size ar growcap m env op k threshold call m' shares m'' env'',
  grow_ok growcap -> 2 <= size -> reached E zp rd size ar growcap (m, env) -> op_ok op -> splits op k threshold ->
  callOf size ar growcap env op = Some call -> call m = (m', Ret shares) ->
  later E zp rd size ar growcap (m', env ++ shares) (m'', env'') ->
  exists b b', buffered m'' b (mcontents m (nthSlice env k)) /\ scattered m'' b' (Z.to_nat threshold) (mcontents m (nthSlice env k)).
Proof. exact C65_packages_pf. Qed.
Print Assumptions C65_packages.

(** a program: split with krawczyk, overwrite the secret, combine with krawczyk, split with SplitWithRandomizerOld; the AES key is still there *)
Definition exp_before : list pkgOp := [PBase (KNew [x68; x69])].
Definition exp_split : pkgOp := PKrSplit 3 (fun i => i2b (5 * i + 9)) ex_perm ex_stream 0 3 2.
Definition exp_after : list pkgOp := [PBase (KStore 0 0 x00); PBase (KStore 0 1 x00); PKrCombine [Some 3; None; Some 1] 3 2; POld ex_stream 4 3 2].
Definition exp_run (ops : list pkgOp) c := fold_left (pkgStep AES true (fun _ => 1) 4 ex_ar growcap117) ops c.
Example C76_packages_run :
  let c1 := exp_run exp_before (emptyMemory, []) in let c2 := exp_run [exp_split] c1 in let c3 := exp_run exp_after c2 in
  left_behind (fst c1) (snd c1) exp_split = Some (map (fun i => i2b (5 * i + 9)) (seq 0 16) ++ [x02; x00; x00; x00], 2%Z) /\
  firstn 20 (nth (sl_arr (nth 0 (m_bpool (fst c3)) nilSlice)) (m_heap (fst c3)) []) = map (fun i => i2b (5 * i + 9)) (seq 0 16) ++ [x02; x00; x00; x00] /\
  map sl_len (snd c3) = [2; 23; 23; 23; 2; 3; 3; 3].
Proof. vm_compute. repeat split. Qed.
Lemma C76_packages_lens : let c2 := exp_run [exp_split] (exp_run exp_before (emptyMemory, [])) in
  let c := pkgStep AES true (fun _ => 1) 4 ex_ar growcap117 (pkgStep AES true (fun _ => 1) 4 ex_ar growcap117 c2 (PBase (KStore 0 0 x00))) (PBase (KStore 0 1 x00)) in
  sl_len (nthSlice (snd c) 3) = 23 /\ sl_len (nthSlice (snd c) 1) = 23.
Proof. vm_compute. split; reflexivity. Qed.
Example C76_packages_hyps : let c1 := exp_run exp_before (emptyMemory, []) in let c2 := exp_run [exp_split] c1 in
  reached AES true (fun _ => 1) 4 ex_ar growcap117 c1 /\ pkgOp_ok (snd c1) exp_split /\ later AES true (fun _ => 1) 4 ex_ar growcap117 c2 (exp_run exp_after c2).
Proof.
  cbv zeta. split; [|split].
  - unfold exp_run, exp_before. cbn [fold_left]. apply reached_step; [apply reached_start|exact I].
  - reflexivity.
  - generalize (exp_run [exp_split] (exp_run exp_before (emptyMemory, []))), C76_packages_lens. intros c2 (L3 & L1).
    unfold exp_run, exp_after. cbn [fold_left].
    apply later_step with (op := PBase (KStore 0 0 x00)); [exact I|exact I|]. apply later_step with (op := PBase (KStore 0 1 x00)); [exact I|exact I|].
    apply later_step with (op := PKrCombine [Some 3; None; Some 1] 3 2); [|exact I|].
    + intros p [Q|[Q|[Q|[]]]]; inversion Q; subst p; intros H; [rewrite L3 in H|rewrite L1 in H]; discriminate H.
    + apply later_step with (op := POld ex_stream 4 3 2); [exact I|exact I|]. apply later_now.
Qed.
