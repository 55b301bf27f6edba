(** What the split functions leave in the buffer pool, in programs that use both packages (C65, C76). *)
From Coq Require Import List NArith ZArith Lia Arith Bool.
From Coq.Init Require Import Byte.
From Verif Require Import GoSem Bytes Spec SpecKr GoFacts Vector Csprng Pool Polynomial Shamir Libs Krawczyk KrawczykFacts Memory MemCalls SpecMemCalls MemFacts MemSplit MemTop KrMem SpecKrMem KrMemFacts
  KrSplitMem SpecKrSplitMem KrSplitMemFacts SpecRemain RemainFacts SpecRemainPkg RemainPkg CsprngFacts Pf6 Pf17 Pf18 Pf29.
Import ListNotations.

(*PROPS
From Coq Require Import List NArith ZArith Lia Arith Bool.
From Coq.Init Require Import Byte.
From Verif Require Import GoSem Bytes Spec SpecKr Vector Pool Shamir Libs AES Krawczyk Memory MemCalls SpecMemCalls KrSplitMem SpecKrSplitMem SpecRemain SpecRemainPkg ExData Pf35.
Import ListNotations.
*)

Lemma reached_ok E zp rd size ar growcap c : grow_ok growcap -> reached E zp rd size ar growcap c -> client_ok c /\ length (m_bpool (fst c)) <= size.
Proof.
  intros G R. induction R as [|c op R [IH1 IH2] OK]; [split; [split; [split; constructor|constructor]|cbn; lia]|].
  split; [apply pkgStep_ok; assumption|apply pkgStep_bounded; assumption].
Qed.
Lemma later_keeps E zp rd size ar growcap c c' : grow_ok growcap -> later E zp rd size ar growcap c c' -> client_ok c ->
  m_bpool (fst c') = m_bpool (fst c) /\ forall b, In b (m_bpool (fst c)) -> 0 < sl_cap b -> nth (sl_arr b) (m_heap (fst c')) [] = nth (sl_arr b) (m_heap (fst c)) [].
Proof.
  intros G L. induction L as [c|c op c' OK SP L IH]; intros C; [split; reflexivity|].
  destruct (IH (pkgStep_ok E zp rd size ar growcap c op G OK C)) as [I1 I2]. destruct (pkgStep_spares E zp rd size ar growcap c op G OK SP C) as [S1 S2].
  split; [rewrite I1; exact S1|]. intros b I Cb. rewrite I2; [|rewrite S1; exact I|exact Cb]. apply S2; assumption.
Qed.
Lemma mKr_len E zp extra kb share secret parts threshold m m' out : mKrSplitWith E zp extra kb share secret parts threshold m = (m', Ret out) ->
  (Z.of_nat (sl_len secret) <= 4294967295)%Z.
Proof.
  unfold mKrSplitWith. destruct (krCheck (sl_len secret) parts threshold) as [e|] eqn:CK; [discriminate|]. intros _.
  unfold krCheck in CK. destruct (Z.ltb_spec 4294967295 (Z.of_nat (sl_len secret))); [discriminate CK|]. lia.
Qed.

(** C65 and C76 for programs that use both packages: a program that starts with nothing allocates, stores, appends, reslices and calls either package
    in any order, then makes a split that succeeds, and then does anything but another of the four splits that use the pool. Until then the pool holds
    a buffer that starts with what the split left behind, and another with these bytes at every threshold-th place: the secret itself, or for
    the functions of krawczyk the AES key and the length. *)
Lemma C76_packages_pf : forall E zp rd size ar growcap m env op call left threshold m' shares m'' env'',
  grow_ok growcap -> 2 <= size -> reached E zp rd size ar growcap (m, env) -> pkgOp_ok env op ->
  left_behind m env op = Some (left, threshold) ->
  pkgCall E zp rd size ar growcap env op = Some call -> call m = (m', Ret shares) ->
  later E zp rd size ar growcap (m', env ++ shares) (m'', env'') ->
  exists b b', buffered m'' b left /\ scattered m'' b' (Z.to_nat threshold) left.
Proof.
  intros E zp rd size ar growcap m env op call left threshold m' shares m'' env'' G SZ R OK LB CO H LA.
  destruct (reached_ok _ _ _ _ _ _ _ G R) as [C BD]. pose proof C as [MO U]. cbn [fst snd] in MO, U, BD.
  assert (C' : client_ok (m', env ++ shares)).
  { destruct (pkgCall_ok E zp rd size ar growcap op env m call G OK MO U CO) as (v & _ & K & Q). rewrite H in K, Q. cbn [fst snd] in K, Q. destruct Q as (_ & FR & _).
    split; [apply K|]. cbn [fst snd]. apply Forall_app. split.
    - eapply Forall_impl; [|exact U]. intros s Hs. eapply keeps_usable; eassumption.
    - eapply Forall_impl; [|exact FR]. intros s Hs. apply Hs. }
  destruct (later_keeps _ _ _ _ _ _ _ _ G LA C') as [P K]. cbn [fst] in P, K.
  assert (X : (2 <= threshold)%Z /\ exists b b', buffered m' b left /\ scattered m' b' (Z.to_nat threshold) left).
  { destruct op as [[ | | | |perm stream k parts t|fuel ks k parts t| | | ]|ks k parts t|extra krand perm stream k parts t|fuel extra ks k parts t|ps parts t]; cbn [left_behind] in LB; try discriminate LB;
      inversion LB; subst left threshold; clear LB; cbn [pkgCall callOf] in CO; inversion CO; subst call; clear CO; pose proof (usable_nthSlice m env k U) as Uk.
    - split; [apply (threshold_pos _ _ _ _ _ _ _ _ _ _ H _ _ eq_refl)|]. eapply C65_split_pf; eassumption.
    - split; [apply (threshold_pos_r _ _ _ _ _ _ _ _ _ _ H _ _ eq_refl)|]. eapply C65_splitwithrandomizer_pf; eassumption.
    - pose proof (mKr_len _ _ _ _ _ _ _ _ _ _ _ H) as VL. rewrite (usable_length m _ Uk). rewrite <- le32_leBytes by exact VL.
      exact (mKrSplit_leaves size E zp extra ar growcap krand perm stream _ parts t m m' shares G OK SZ MO BD Uk H).
    - pose proof (mKr_len _ _ _ _ _ _ _ _ _ _ _ H) as VL. rewrite (usable_length m _ Uk). rewrite <- le32_leBytes by exact VL.
      pose proof (mKrSWR_leaves size fuel E zp extra ar growcap ks _ parts t m m' shares G SZ MO BD Uk H) as Y. unfold krMeta in Y. rewrite Read_zeros in Y. exact Y. }
  destruct X as (T & b & b' & B & S). exists b, b'. split; [eapply buffered_keep; eassumption|eapply scattered_keep; try eassumption; lia].
Qed.

(** C65 for programs that use both packages: the same for Split and SplitWithRandomizer of package shamir, which leave the secret itself. *)
Lemma C65_packages_pf : forall E zp rd size ar growcap m env op k threshold call m' shares m'' env'',
  grow_ok growcap -> 2 <= size -> reached E zp rd size ar growcap (m, env) -> op_ok op -> splits op k threshold ->
  callOf size ar growcap env op = Some call -> call m = (m', Ret shares) ->
  later E zp rd size ar growcap (m', env ++ shares) (m'', env'') ->
  exists b b', buffered m'' b (mcontents m (nthSlice env k)) /\ scattered m'' b' (Z.to_nat threshold) (mcontents m (nthSlice env k)).
Proof.
  intros E zp rd size ar growcap m env op k threshold call m' shares m'' env'' G SZ R OK SP CO H LA.
  apply (C76_packages_pf E zp rd size ar growcap m env (PBase op) call (mcontents m (nthSlice env k)) threshold m' shares m'' env'' G SZ R OK); try assumption.
  destruct op; cbn [splits] in SP; try (destruct SP; fail); destruct SP as [-> ->]; reflexivity.
Qed.

(*COPY
(** a program: split with krawczyk, overwrite the secret, combine with krawczyk, split with SplitWithRandomizerOld; the AES key is still there *)
Definition exp_before : list pkgOp := [PBase (KNew [x68; x69])].
Definition exp_split : pkgOp := PKrSplit 3 (fun i => i2b (5 * i + 9)) ex_perm ex_stream 0 3 2.
Definition exp_after : list pkgOp := [PBase (KStore 0 0 x00); PBase (KStore 0 1 x00); PKrCombine [Some 3; None; Some 1] 3 2; POld ex_stream 4 3 2].
Definition exp_run (ops : list pkgOp) c := fold_left (pkgStep AES true (fun _ => 1) 4 ex_ar growcap117) ops c.
Example C76_packages_run :
  let c1 := exp_run exp_before (emptyMemory, []) in let c2 := exp_run [exp_split] c1 in let c3 := exp_run exp_after c2 in
  left_behind (fst c1) (snd c1) exp_split = Some (map (fun i => i2b (5 * i + 9)) (seq 0 16) ++ [x02; x00; x00; x00], 2%Z) /\
  firstn 20 (nth (sl_arr (nth 0 (m_bpool (fst c3)) nilSlice)) (m_heap (fst c3)) []) = map (fun i => i2b (5 * i + 9)) (seq 0 16) ++ [x02; x00; x00; x00] /\
  map sl_len (snd c3) = [2; 23; 23; 23; 2; 3; 3; 3].
Proof. vm_compute. repeat split. Qed.
Lemma C76_packages_lens : let c2 := exp_run [exp_split] (exp_run exp_before (emptyMemory, [])) in
  let c := pkgStep AES true (fun _ => 1) 4 ex_ar growcap117 (pkgStep AES true (fun _ => 1) 4 ex_ar growcap117 c2 (PBase (KStore 0 0 x00))) (PBase (KStore 0 1 x00)) in
  sl_len (nthSlice (snd c) 3) = 23 /\ sl_len (nthSlice (snd c) 1) = 23.
Proof. vm_compute. split; reflexivity. Qed.
Example C76_packages_hyps : let c1 := exp_run exp_before (emptyMemory, []) in let c2 := exp_run [exp_split] c1 in
  reached AES true (fun _ => 1) 4 ex_ar growcap117 c1 /\ pkgOp_ok (snd c1) exp_split /\ later AES true (fun _ => 1) 4 ex_ar growcap117 c2 (exp_run exp_after c2).
Proof.
  cbv zeta. split; [|split].
  - unfold exp_run, exp_before. cbn [fold_left]. apply reached_step; [apply reached_start|exact I].
  - reflexivity.
  - generalize (exp_run [exp_split] (exp_run exp_before (emptyMemory, []))), C76_packages_lens. intros c2 (L3 & L1).
    unfold exp_run, exp_after. cbn [fold_left].
    apply later_step with (op := PBase (KStore 0 0 x00)); [exact I|exact I|]. apply later_step with (op := PBase (KStore 0 1 x00)); [exact I|exact I|].
    apply later_step with (op := PKrCombine [Some 3; None; Some 1] 3 2); [|exact I|].
    + intros p [Q|[Q|[Q|[]]]]; inversion Q; subst p; intros H; [rewrite L3 in H|rewrite L1 in H]; discriminate H.
    + apply later_step with (op := POld ex_stream 4 3 2); [exact I|exact I|]. apply later_now.
Qed.
END*)
