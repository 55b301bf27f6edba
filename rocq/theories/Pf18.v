(** Proofs about what Split leaves in the buffer pool (C65). *)
From Coq Require Import List NArith ZArith Lia Arith Bool.
From Coq.Init Require Import Byte.
From Verif Require Import GoSem Bytes Vector Pool Polynomial Shamir SplitFacts Memory MemCalls SpecMemCalls MemFacts MemSplit MemTop SpecRemain RemainFacts.
Import ListNotations.

(*PROPS
From Coq Require Import List NArith ZArith Lia Arith Bool Permutation.
From Coq.Init Require Import Byte.
From Verif Require Import GoSem Bytes Vector Pool Polynomial Shamir Memory MemCalls SpecMemCalls SpecRemain ExData Pf18.
Import ListNotations.
*)

Lemma threshold_pos m secret parts threshold size ar growcap perm stream r : mSplit size ar growcap perm stream secret parts threshold m = r ->
  forall m' out, r = (m', Ret out) -> (2 <= threshold)%Z.
Proof.
  intros <- m' out. unfold mSplit. destruct (checkArgs (mcontents m secret) parts threshold) eqn:CK; [discriminate|]. apply checkArgs_None in CK. lia.
Qed.
Lemma threshold_pos_r m secret parts threshold size fuel ar growcap ks r : mSplitWithRandomizer size fuel ar growcap ks secret parts threshold m = r ->
  forall m' out, r = (m', Ret out) -> (2 <= threshold)%Z.
Proof.
  intros <- m' out. unfold mSplitWithRandomizer. destruct (checkArgs (mcontents m secret) parts threshold) eqn:CK; [discriminate|]. apply checkArgs_None in CK. lia.
Qed.

(** C65. When Split has returned, the pool of the package holds a buffer whose array starts with the whole secret in the clear, and one that
    has the secret's bytes at every threshold-th place. *)
Lemma C65_split_pf : forall size ar growcap perm stream secret parts threshold m m' shares,
  grow_ok growcap -> length perm = 255 -> 2 <= size -> mem_ok m -> length (m_bpool m) <= size -> usable m secret ->
  mSplit size ar growcap perm stream secret parts threshold m = (m', Ret shares) ->
  exists b b', buffered m' b (mcontents m secret) /\ scattered m' b' (Z.to_nat threshold) (mcontents m secret).
Proof.
  intros size ar growcap perm stream secret parts threshold m m' shares G LP SZ MO L U E.
  pose proof (threshold_pos _ _ _ _ _ _ _ _ _ _ E _ _ eq_refl) as T.
  eapply leaves_buffered; [exact SZ|lia|exact L|]. eapply mSplit_leaves; eassumption.
Qed.

(** C65. The same when SplitWithRandomizer has returned. *)
Lemma C65_splitwithrandomizer_pf : forall size fuel ar growcap ks secret parts threshold m m' shares,
  grow_ok growcap -> 2 <= size -> mem_ok m -> length (m_bpool m) <= size -> usable m secret ->
  mSplitWithRandomizer size fuel ar growcap ks secret parts threshold m = (m', Ret shares) ->
  exists b b', buffered m' b (mcontents m secret) /\ scattered m' b' (Z.to_nat threshold) (mcontents m secret).
Proof.
  intros size fuel ar growcap ks secret parts threshold m m' shares G SZ MO L U E.
  pose proof (threshold_pos_r _ _ _ _ _ _ _ _ _ _ E _ _ eq_refl) as T.
  eapply leaves_buffered; [exact SZ|lia|exact L|]. eapply mSplitWithRandomizer_leaves; eassumption.
Qed.

(** C65. Histories: a program that starts with nothing does anything, splits its slice k, and then does anything except another Split or
    SplitWithRandomizer (it may overwrite every slice it has, combine, regenerate). The secret is still in the pool. *)
Lemma C65_history_pf : forall size ar growcap before op k threshold after m env call m' shares,
  grow_ok growcap -> 2 <= size -> Forall op_ok before -> op_ok op -> Forall op_ok after -> splits op k threshold -> Forall noPoolOp after ->
  clientRun size ar growcap (emptyMemory, []) before = (m, env) ->
  callOf size ar growcap env op = Some call -> call m = (m', Ret shares) ->
  let m'' := fst (clientRun size ar growcap (m', env ++ shares) after) in
  exists b b', buffered m'' b (mcontents m (nthSlice env k)) /\ scattered m'' b' (Z.to_nat threshold) (mcontents m (nthSlice env k)).
Proof.
  intros size ar growcap before op k threshold after m env call m' shares G SZ F1 OK F2 SP NP R1 CO E m''.
  assert (C0 : client_ok (emptyMemory, [])) by (split; [split; constructor|constructor]).
  pose proof (clientRun_ok size ar growcap before G F1 _ C0) as C.
  pose proof (clientRun_bounded size ar growcap before G F1 _ C0 ltac:(cbn; lia)) as LB.
  rewrite R1 in C, LB. cbn [fst] in LB.
  pose proof (clientStep_ok size ar growcap (m, env) op G OK C) as C'. unfold clientStep in C'. rewrite CO, E in C'.
  destruct C as [MO U]. cbn [fst snd] in MO, U.
  destruct (clientRun_noPool size ar growcap after G F2 NP _ C') as [P K]. fold m'' in P, K. cbn [fst] in P, K.
  assert (X : (2 <= threshold)%Z /\ exists b b', buffered m' b (mcontents m (nthSlice env k)) /\ scattered m' b' (Z.to_nat threshold) (mcontents m (nthSlice env k))).
  { destruct op as [ | | | |perm stream k' parts t|fuel ks k' parts t| | | ]; cbn [splits] in SP; try (destruct SP; fail); destruct SP as [-> ->]; cbn [callOf] in CO; inversion CO; subst call.
    - split; [apply (threshold_pos _ _ _ _ _ _ _ _ _ _ E _ _ eq_refl)|]. eapply C65_split_pf; try eassumption. apply usable_nthSlice, U.
    - split; [apply (threshold_pos_r _ _ _ _ _ _ _ _ _ _ E _ _ eq_refl)|]. eapply C65_splitwithrandomizer_pf; try eassumption. apply usable_nthSlice, U. }
  destruct X as (T & b & b' & B & S). exists b, b'. split; [eapply buffered_keep; eassumption|eapply scattered_keep; try eassumption; lia].
Qed.

(*COPY
(** Beside C65: a program that splits a two-byte secret, overwrites its copy of the secret and throws the shares away; the pool then still
    has the secret. *)
Definition ex_before : list clientOp := [KNew [x68; x69]].
Definition ex_after : list clientOp := [KStore 0 0 x00; KStore 0 1 x00; KCombine [1; 2]; KStore 1 0 x00].
Example C65_run :
  Forall op_ok (ex_before ++ KSplit ex_perm ex_stream 0 3 2 :: ex_after) /\ Forall noPoolOp ex_after /\ splits (KSplit ex_perm ex_stream 0 3 2) 0 2 /\
  let (m, env) := clientRun 1024 ex_ar growcap117 (emptyMemory, []) (ex_before ++ KSplit ex_perm ex_stream 0 3 2 :: ex_after) in
  mcontents m (nth 0 env nilSlice) = [x00; x00] /\ map sl_len env = [2; 3; 3; 3; 2] /\ length (m_bpool m) = 2 /\
  firstn 2 (nth (sl_arr (nth 0 (m_bpool m) nilSlice)) (m_heap m) []) = [x68; x69].
Proof. split; [repeat constructor|]. split; [repeat constructor|]. split; [split; reflexivity|]. vm_compute. repeat split. Qed.
END*)
