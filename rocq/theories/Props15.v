(** Proofs about calls on memory (C62).
    Generated from Pf15.v by tools/genprops.py: every theorem is proved there as the lemma of the same name with suffix _pf. *)
From Coq Require Import List NArith ZArith Lia Arith Bool Permutation.
From Coq.Init Require Import Byte.
From Verif Require Import GoSem Bytes Vector Pool Polynomial Shamir Memory MemCalls SpecMemCalls ExData Pf15.
Import ListNotations.

(** C62: Split run on memory keeps every array the caller can reach, returns fresh and disjoint shares, and these shares are those of the
    function of values Split (whatever buffers that function is given). *)
Theorem C62_split : forall size ar growcap perm stream polB trB evBufs secret parts threshold m,
  grow_ok growcap -> length perm = 255 -> mem_ok m -> usable m secret ->
  call_ok m (mSplit size ar growcap perm stream secret parts threshold m)
    (Split ar growcap perm stream polB trB evBufs (mcontents m secret) parts threshold).
Proof. exact C62_split_pf. Qed.
Print Assumptions C62_split.

(** The same for SplitWithRandomizer, which XORs the key stream into what the pool buffer holds. *)
Theorem C62_splitwithrandomizer : forall size fuel ar growcap ks trB evBufs secret parts threshold m,
  grow_ok growcap -> mem_ok m -> usable m secret ->
  call_ok m (mSplitWithRandomizer size fuel ar growcap ks secret parts threshold m)
    (SplitWithRandomizer fuel ar growcap ks (nextStale m) trB evBufs (mcontents m secret) parts threshold).
Proof. exact C62_splitwithrandomizer_pf. Qed.
Print Assumptions C62_splitwithrandomizer.

(** The same for SplitGeneric. *)
Theorem C62_splitgeneric : forall perm stream secret parts threshold m,
  length perm = 255 -> mem_ok m -> usable m secret ->
  call_ok m (mSplitGeneric perm stream secret parts threshold m) (SplitGeneric perm stream (mcontents m secret) parts threshold).
Proof. exact C62_splitgeneric_pf. Qed.
Print Assumptions C62_splitgeneric.

(** The same for Combine, for shares that overlap in any way. *)
Theorem C62_combine : forall parts m, mem_ok m -> Forall (usable m) parts ->
  call_ok m (one (mCombine parts m)) (do r <- Combine (map (mcontents m) parts); Ret [r]).
Proof. exact C62_combine_pf. Qed.
Print Assumptions C62_combine.

(** The same for Regenerate. *)
Theorem C62_regenerate : forall fuel stream u parts num m, mem_ok m -> Forall (usable m) parts ->
  call_ok m (mRegenerate fuel stream u parts num m) (Regenerate fuel stream u (map (mcontents m) parts) num).
Proof. exact C62_regenerate_pf. Qed.
Print Assumptions C62_regenerate.

(** What a call keeps: a slice the caller may use stays usable and shows the same bytes. *)
Theorem C62_keeps : forall m m' s, keeps m m' -> usable m s -> usable m' s /\ mcontents m' s = mcontents m s.
Proof. exact C62_keeps_pf. Qed.
Print Assumptions C62_keeps.

(** C62 for whole programs: a client that starts with nothing and allocates, stores, appends, reslices and calls the package in any order
    only ever holds slices it may use; and every call it makes after any such history leaves all these slices with the bytes they had,
    ends as the functions of values say for these bytes, and returns fresh and disjoint slices. *)
Theorem C62_history : forall size ar growcap ops, grow_ok growcap -> Forall op_ok ops ->
  let (m, env) := clientRun size ar growcap (emptyMemory, []) ops in
  mem_ok m /\ Forall (usable m) env /\
  forall op call, op_ok op -> callOf size ar growcap env op = Some call ->
    Forall (fun s => mcontents (fst (call m)) s = mcontents m s) env /\
    exists v, valueOf ar growcap (nextStale m) (map (mcontents m) env) op = Some v /\ call_ok m (call m) v.
Proof. exact C62_history_pf. Qed.
Print Assumptions C62_history.

(** Beside C62: a program that splits a two-byte secret, overwrites the secret, appends to its last share and combines two shares; it gets
    back the old secret. *)
Definition ex_ops : list clientOp :=
  [KNew [x68; x69]; KSplit ex_perm ex_stream 0 3 2; KStore 0 0 x00; KAppend 3 4 xff; KCombine [1; 2]].
Example C62_run :
  Forall op_ok ex_ops /\
  let (m, env) := clientRun 4 ex_ar growcap117 (emptyMemory, []) ex_ops in
  map sl_len env = [2; 3; 3; 3; 4; 2] /\ mcontents m (nth 5 env nilSlice) = [x68; x69] /\ mcontents m (nth 0 env nilSlice) = [x00; x69] /\
  length (m_bpool m) = 2 /\ length (m_epool m) = 1.
Proof. split; [repeat constructor|vm_compute; repeat split]. Qed.
