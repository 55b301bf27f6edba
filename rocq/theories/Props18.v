(** Proofs about what Split leaves in the buffer pool (C65).
    Generated from Pf18.v by tools/genprops.py: every theorem is proved there as the lemma of the same name with suffix _pf. *)
From Coq Require Import List NArith ZArith Lia Arith Bool Permutation.
From Coq.Init Require Import Byte.
From Verif Require Import GoSem Bytes Vector Pool Polynomial Shamir Memory MemCalls SpecMemCalls SpecRemain ExData Pf18.
Import ListNotations.

(** C65. When Split has returned, the pool of the package holds a buffer whose array starts with the whole secret in the clear, and one that
    has the secret's bytes at every threshold-th place. *)
Theorem C65_split : forall size ar growcap perm stream secret parts threshold m m' shares,
  grow_ok growcap -> length perm = 255 -> 2 <= size -> mem_ok m -> length (m_bpool m) <= size -> usable m secret ->
  mSplit size ar growcap perm stream secret parts threshold m = (m', Ret shares) ->
  exists b b', buffered m' b (mcontents m secret) /\ scattered m' b' (Z.to_nat threshold) (mcontents m secret).
Proof. exact C65_split_pf. Qed.
Print Assumptions C65_split.

(** C65. The same when SplitWithRandomizer has returned. *)
Theorem C65_splitwithrandomizer : forall size fuel ar growcap ks secret parts threshold m m' shares,
  grow_ok growcap -> 2 <= size -> mem_ok m -> length (m_bpool m) <= size -> usable m secret ->
  mSplitWithRandomizer size fuel ar growcap ks secret parts threshold m = (m', Ret shares) ->
  exists b b', buffered m' b (mcontents m secret) /\ scattered m' b' (Z.to_nat threshold) (mcontents m secret).
Proof. exact C65_splitwithrandomizer_pf. Qed.
Print Assumptions C65_splitwithrandomizer.

(** C65. Histories: a program that starts with nothing does anything, splits its slice k, and then does anything except another Split or
    SplitWithRandomizer (it may overwrite every slice it has, combine, regenerate). The secret is still in the pool. *)
Theorem C65_history : forall size ar growcap before op k threshold after m env call m' shares,
  grow_ok growcap -> 2 <= size -> Forall op_ok before -> op_ok op -> Forall op_ok after -> splits op k threshold -> Forall noPoolOp after ->
  clientRun size ar growcap (emptyMemory, []) before = (m, env) ->
  callOf size ar growcap env op = Some call -> call m = (m', Ret shares) ->
  let m'' := fst (clientRun size ar growcap (m', env ++ shares) after) in
  exists b b', buffered m'' b (mcontents m (nthSlice env k)) /\ scattered m'' b' (Z.to_nat threshold) (mcontents m (nthSlice env k)).
Proof. exact C65_history_pf. Qed.
Print Assumptions C65_history.

(** Beside C65: a program that splits a two-byte secret, overwrites its copy of the secret and throws the shares away; the pool then still
    has the secret. *)
Definition ex_before : list clientOp := [KNew [x68; x69]].
Definition ex_after : list clientOp := [KStore 0 0 x00; KStore 0 1 x00; KCombine [1; 2]; KStore 1 0 x00].
Example C65_run :
  Forall op_ok (ex_before ++ KSplit ex_perm ex_stream 0 3 2 :: ex_after) /\ Forall noPoolOp ex_after /\ splits (KSplit ex_perm ex_stream 0 3 2) 0 2 /\
  let (m, env) := clientRun 1024 ex_ar growcap117 (emptyMemory, []) (ex_before ++ KSplit ex_perm ex_stream 0 3 2 :: ex_after) in
  mcontents m (nth 0 env nilSlice) = [x00; x00] /\ map sl_len env = [2; 3; 3; 3; 2] /\ length (m_bpool m) = 2 /\
  firstn 2 (nth (sl_arr (nth 0 (m_bpool m) nilSlice)) (m_heap m) []) = [x68; x69].
Proof. split; [repeat constructor|]. split; [repeat constructor|]. split; [split; reflexivity|]. vm_compute. repeat split. Qed.
