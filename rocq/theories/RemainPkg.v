(** Which calls leave the buffer pool of package shamir alone, and that it never holds more than it has room for (C65, C76). *)
From Coq Require Import List NArith ZArith Lia Arith Bool.
From Coq.Init Require Import Byte.
From Verif Require Import GoSem Bytes GoFacts Vector Csprng Pool Polynomial Shamir SplitFacts Libs Krawczyk KrawczykFacts Memory MemCalls SpecMemCalls MemFacts MemSplit MemTop KrMem SpecKrMem KrMemFacts KrSplitMem SpecKrSplitMem KrSplitMemFacts
  OldMemFacts SpecRemain RemainFacts RemainKr SpecRemainPkg Pf16 Pf17.
Import ListNotations.

(** ** Calls that neither read nor change [m_bpool] *)
Definition withB (m : memory) (bp : list gslice) : memory := {| m_heap := m_heap m; m_bpool := bp; m_epool := m_epool m |}.
Definition bfree {A} (f : M A) : Prop := forall m bp, f (withB m bp) = (withB (fst (f m)) bp, snd (f m)).

Lemma bf_bind {A B} (f : M A) (k : A -> M B) : bfree f -> (forall a, bfree (k a)) -> bfree (mbind f k).
Proof. intros F K m bp. unfold mbind. rewrite F. destruct (f m) as [m1 [a|e|p| |]]; cbn [fst snd]; try reflexivity. apply K. Qed.
Lemma bf_ret {A} (a : A) : bfree (mret a). Proof. intros m bp. reflexivity. Qed.
Lemma bf_lift {A} (o : outcome A) : bfree (mlift o). Proof. intros m bp. reflexivity. Qed.
Lemma bf_load s i : bfree (mload s i). Proof. intros m bp. unfold mload. destruct (_ <? _); reflexivity. Qed.
Lemma bf_store s i v : bfree (mstore s i v). Proof. intros m bp. unfold mstore. destruct (_ <? _); reflexivity. Qed.
Lemma bf_write s l : bfree (mwrite s l). Proof. intros m bp. reflexivity. Qed.
Lemma bf_copy d s : bfree (mcopy d s). Proof. intros m bp. reflexivity. Qed.
Lemma bf_make n : bfree (mmake n). Proof. intros m bp. reflexivity. Qed.
Lemma bf_new d : bfree (mnew d). Proof. intros m bp. reflexivity. Qed.
Lemma bf_append x s d : bfree (mappend x s d). Proof. intros m bp. unfold mappend. destruct (_ <=? _); reflexivity. Qed.
Lemma bf_slice s i j : bfree (mslice s i j). Proof. apply bf_lift. Qed.
Lemma bf_getE : bfree mgetE. Proof. intros m bp. unfold mgetE. cbn [withB m_epool]. destruct (poolGet (m_epool m) nilSlice). reflexivity. Qed.
Lemma bf_putE size b : bfree (mputE size b). Proof. intros m bp. reflexivity. Qed.
Lemma bf_resetGrow g b n : bfree (mresetGrow g b n). Proof. intros m bp. unfold mresetGrow. destruct (_ <=? _); reflexivity. Qed.
Lemma bf_foreach {X S} (l : list X) (f : X -> S -> M S) : (forall x s, bfree (f x s)) -> forall s, bfree (mforeach l f s).
Proof. intros F. induction l as [|x l IH]; intros s; [apply bf_ret|]. cbn [mforeach]. apply bf_bind; [apply F|apply IH]. Qed.
Lemma bf_mul ar c a : bfree (mMulConstVector ar c a).
Proof. intros m bp. unfold mMulConstVector. change (mcontents (withB m bp) a) with (mcontents m a). destruct (MulConstVector ar c (mcontents m a)); [destruct ar|..]; reflexivity. Qed.
Lemma bf_add ar a b : bfree (mAddVector ar a b).
Proof. intros m bp. unfold mAddVector. change (mcontents (withB m bp)) with (mcontents m). destruct (AddVector ar (mcontents m a) (mcontents m b)); reflexivity. Qed.
Lemma bf_if {A} (c : bool) (f g : M A) : bfree f -> bfree g -> bfree (if c then f else g).
Proof. destruct c; auto. Qed.

Ltac bf := repeat first [apply bf_bind|apply bf_foreach|apply bf_ret|apply bf_lift|apply bf_load|apply bf_store|apply bf_write|apply bf_copy|apply bf_make|apply bf_new|apply bf_append
  |apply bf_slice|apply bf_getE|apply bf_putE|apply bf_resetGrow|apply bf_mul|apply bf_add|apply bf_if
  |match goal with |- bfree (let '(_, _) := ?p in _) => destruct p end |intro].

Lemma bf_pf {A} (f : M A) : poolfree f -> bfree f.
Proof. intros F m bp. pose proof (F m bp (m_epool m)) as Q1. pose proof (F m (m_bpool m) (m_epool m)) as Q2.
  replace (withPools m (m_bpool m) (m_epool m)) with m in Q2 by (destruct m; reflexivity).
  change (withB m bp) with (withPools m bp (m_epool m)). rewrite Q1. f_equal. unfold withB. unfold withPools. f_equal.
  apply (f_equal (fun x => m_epool (fst x))) in Q2. cbn in Q2. exact (eq_sym Q2).
Qed.

Lemma bf_evaluateAt size ar g co x out : bfree (mEvaluatePolynomialsAt size ar g co x out).
Proof. unfold mEvaluatePolynomialsAt. bf. Qed.
Lemma bf_newMatrix r c : bfree (mNewByteMatrix r c).
Proof. unfold mNewByteMatrix. bf. Qed.
Lemma bf_assemble n ms ws : bfree (mKrAssemble n ms ws).
Proof. apply bf_pf, pf_assemble. Qed.
Lemma bf_layout N n xs : bfree (mLayoutFlat N n xs).
Proof. unfold mLayoutFlat. bf. Qed.
Lemma bf_transpose sl : bfree (mTranspose sl).
Proof. unfold mTranspose. apply bf_bind; [apply bf_lift|]. intros s0. cbv zeta. apply bf_bind; [apply bf_newMatrix|]. bf. Qed.
Lemma bf_makeR ks s d : bfree (mMakePolynomialsWithRandomizer ks s d).
Proof. unfold mMakePolynomialsWithRandomizer. cbv zeta. apply bf_bind; [apply bf_make|]. intros co. apply bf_bind; [intros m bp; reflexivity|]. bf. Qed.
Lemma bf_old size ar g ks secret parts threshold : bfree (mSplitWithRandomizerOld size ar g ks secret parts threshold).
Proof.
  intros m bp. unfold mSplitWithRandomizerOld. change (mcontents (withB m bp) secret) with (mcontents m secret). destruct (checkArgs _ _ _); [reflexivity|].
  match goal with |- ?f _ = _ => enough (bfree f) as Q by apply Q end.
  apply bf_bind; [apply bf_lift|]. intros xs. cbv zeta. apply bf_bind; [apply bf_layout|]. intros out. apply bf_bind; [apply bf_makeR|]. intros po. apply bf_bind; [apply bf_transpose|]. intros co.
  apply bf_bind; [|bf]. apply bf_foreach. intros i s. apply bf_bind; [apply bf_lift|]. intros x. apply bf_bind; [apply bf_lift|]. intros o. apply bf_evaluateAt.
Qed.
Lemma bf_targets size d shards : bfree (mrsTargets size d shards).
Proof. unfold mrsTargets. bf. Qed.
Lemma bf_reconstruct d n shards : bfree (mrsReconstructData d n shards).
Proof.
  intros m bp. unfold mrsReconstructData. change (mcontents (withB m bp)) with (mcontents m). cbv zeta.
  destruct (negb _); [reflexivity|]. destruct (rsCheckShards _ _); [reflexivity|]. destruct (_ || _); [reflexivity|]. destruct (_ <? d); [reflexivity|].
  match goal with |- ?f _ = _ => enough (bfree f) as Q by apply Q end.
  apply bf_bind; [apply bf_targets|]. bf.
Qed.
Lemma bf_splitShares parts ss e : bfree (mSplitShares parts ss e).
Proof. unfold mSplitShares. bf. Qed.
Lemma bf_krCombine E zp rd ss parts threshold : bfree (mKrCombine E zp rd ss parts threshold).
Proof.
  unfold mKrCombine. apply bf_bind; [apply bf_lift|]. intros s0. destruct (krCheck _ _ _); [apply bf_lift|]. cbv zeta. apply bf_bind; [apply bf_lift|]. intros total.
  apply bf_bind; [apply bf_splitShares|]. intros [ed md]. apply bf_bind; [apply bf_pf, pf_combine|]. intros me. apply bf_bind; [apply bf_slice|]. intros key. apply bf_bind; [apply bf_slice|]. intros lb.
  apply bf_if; [apply bf_lift|]. apply bf_bind; [intros m bp; reflexivity|]. intros sz. destruct (rsNew _ _ _); [apply bf_lift|]. apply bf_bind; [apply bf_reconstruct|]. intros ed2.
  apply bf_bind.
  - intros m bp. change (mcontents (withB m bp)) with (mcontents m). destruct (rsJoin _ _ _); reflexivity.
  - intros ct m bp. change (mcontents (withB m bp)) with (mcontents m). destruct (decrypt E rd _ _); reflexivity.
Qed.

(** the arrays of the pool's buffers stay as they are in a call that does not use the pool *)
Lemma bfree_keeps {A} (f : M A) m : bfree f -> mem_ok m -> (keeps (withB m []) (fst (f (withB m [])))) ->
  m_bpool (fst (f m)) = m_bpool m /\ forall b, In b (m_bpool m) -> 0 < sl_cap b -> nth (sl_arr b) (m_heap (fst (f m))) [] = nth (sl_arr b) (m_heap m) [].
Proof.
  intros BF MO K. split.
  - pose proof (BF m (m_bpool m)) as Q. replace (withB m (m_bpool m)) with m in Q by (destruct m; reflexivity). apply (f_equal (fun x => m_bpool (fst x))) in Q. exact Q.
  - intros b I C. rewrite BF in K. cbn [fst] in K. destruct K as (_ & _ & K). specialize (K (sl_arr b)). cbn [withB m_heap] in K. apply K.
    + apply (inv_lt [] m (sl_arr b)); [exact MO|]. apply bpool_pooled; assumption.
    + destruct MO as [_ ND]. unfold pooled, buffers in *. cbn [withB m_bpool m_epool app] in *.
      assert (IA : In (sl_arr b) (arraysOf (m_bpool m))) by (unfold arraysOf; apply in_map; apply filter_In; split; [exact I|apply Nat.ltb_lt, C]).
      assert (EA : arraysOf (m_bpool m ++ m_epool m) = arraysOf (m_bpool m) ++ arraysOf (m_epool m)) by (unfold arraysOf; rewrite filter_app, map_app; reflexivity).
      rewrite EA in ND. clear -ND IA. induction (arraysOf (m_bpool m)) as [|a l IH]; [destruct IA|]. cbn [app] in ND. inversion ND; subst. destruct IA as [->|IA]; [|apply IH; assumption].
      intros Q. apply H1, in_or_app. right. exact Q.
Qed.
Lemma mem_ok_withB m : mem_ok m -> mem_ok (withB m []).
Proof.
  intros [F N]. unfold mem_ok, buffers in *. cbn [withB m_heap m_bpool m_epool app]. apply Forall_app in F as [_ F]. split; [exact F|].
  assert (EA : arraysOf (m_bpool m ++ m_epool m) = arraysOf (m_bpool m) ++ arraysOf (m_epool m)) by (unfold arraysOf; rewrite filter_app, map_app; reflexivity).
  rewrite EA in N. clear -N. induction (arraysOf (m_bpool m)); [exact N|]. cbn [app] in N. inversion N; subst. auto.
Qed.
Lemma usable_withB m s : usable m s -> usable (withB m []) s.
Proof.
  intros [L U]. split; [exact L|]. intros C. destruct (U C) as (U1 & U2 & U3). split; [exact U1|]. split; [exact U2|]. intros Q. apply U3. unfold pooled, buffers in *. cbn [withB m_bpool m_epool app] in Q.
  apply in_app_arrays. right. exact Q.
Qed.

Lemma pkgStep_spares E zp rd size ar growcap c op : grow_ok growcap -> pkgOp_ok (snd c) op -> sparesPool op -> client_ok c ->
  m_bpool (fst (pkgStep E zp rd size ar growcap c op)) = m_bpool (fst c) /\
  forall b, In b (m_bpool (fst c)) -> 0 < sl_cap b -> nth (sl_arr b) (m_heap (fst (pkgStep E zp rd size ar growcap c op))) [] = nth (sl_arr b) (m_heap (fst c)) [].
Proof.
  intros G OK SP C. pose proof C as [MO U]. destruct c as [m env]. cbn [fst snd] in *.
  assert (Uw : Forall (usable (withB m [])) env) by (eapply Forall_impl; [|exact U]; intros s; apply usable_withB).
  destruct op as [op|ks k parts threshold|extra krand perm stream k parts threshold|fuel extra ks k parts threshold|ps parts threshold]; cbn [sparesPool] in SP; try (destruct SP; fail).
  - cbn [pkgStep]. destruct (clientStep_noPool size ar growcap (m, env) op OK SP C) as [Q1 Q2]. split; [exact Q1|]. intros b I Cb. apply Q2, bpool_pooled; assumption.
  - destruct (bfree_keeps _ m (bf_old size ar growcap ks (nthSlice env k) parts threshold) MO) as [Q1 Q2].
    { destruct (pkgCall_ok E zp rd size ar growcap (POld ks k parts threshold) env (withB m []) _ G OK (mem_ok_withB m MO) Uw eq_refl) as (v & _ & K & _). exact K. }
    cbn [pkgStep pkgCall fst snd]. destruct (mSplitWithRandomizerOld size ar growcap ks (nthSlice env k) parts threshold m) as [m' o]. cbn [fst] in *. destruct o; cbn [fst]; split; assumption.
  - destruct (bfree_keeps _ m (bf_krCombine E zp rd (map (option_map (nthSlice env)) ps) parts threshold) MO) as [Q1 Q2].
    { destruct (pkgCall_ok E zp rd size ar growcap (PKrCombine ps parts threshold) env (withB m []) _ G OK (mem_ok_withB m MO) Uw eq_refl) as (v & _ & K & _). exact K. }
    cbn [pkgStep pkgCall fst snd]. unfold one. destruct (mKrCombine E zp rd (map (option_map (nthSlice env)) ps) parts threshold m) as [m' o]. cbn [fst] in *. destruct o; cbn [fst bind snd]; split; assumption.
Qed.

(** ** The pool never holds more than [size] buffers *)
Definition bounded {A} (size : nat) (f : M A) : Prop := forall m, length (m_bpool m) <= size -> length (m_bpool (fst (f m))) <= size.
Lemma bd_bf {A} size (f : M A) : bfree f -> bounded size f.
Proof. intros F m L. pose proof (F m (m_bpool m)) as Q. replace (withB m (m_bpool m)) with m in Q by (destruct m; reflexivity). apply (f_equal (fun x => m_bpool (fst x))) in Q. cbn in Q. rewrite Q. exact L. Qed.
Lemma bd_bind {A B} size (f : M A) (k : A -> M B) : bounded size f -> (forall a, bounded size (k a)) -> bounded size (mbind f k).
Proof. intros F K m L. unfold mbind. specialize (F m L). destruct (f m) as [m1 [a|e|p| |]]; cbn [fst] in *; try exact F. apply K, F. Qed.
Lemma bd_get size : bounded size mgetB.
Proof. intros m L. unfold mgetB. unfold poolGet. destruct (m_bpool m); cbn [fst m_bpool]; [exact L|cbn [length] in L; lia]. Qed.
Lemma bd_put size b : bounded size (mputB size b).
Proof. intros m L. apply poolPut_le, L. Qed.
Lemma bf_setIntercepts s d b : bfree (mSetIntercepts s d b). Proof. unfold mSetIntercepts. bf. Qed.
Lemma bf_transposeBuffer d s r : bfree (mTransposeMatrixBuffer d s r).
Proof. unfold mTransposeMatrixBuffer. apply bf_if; [apply bf_lift|]. cbv zeta. apply bf_bind; [|bf]. apply bf_foreach. intros i [a b]. bf. Qed.
Lemma bf_evaluate size ar g co n x out : bfree (mEvaluate size ar g co n x out).
Proof. unfold mEvaluate. bf. Qed.
Lemma bf_evalLoop size ar g co N n xs out : bfree (mEvalLoop size ar g co N n xs out).
Proof. unfold mEvalLoop. apply bf_foreach. intros i s. apply bf_bind; [apply bf_lift|]. intros x. apply bf_bind; [apply bf_lift|]. intros w. apply bf_bind; [apply bf_slice|]. intros o. apply bf_evaluate. Qed.
Lemma bd_rest size ar g mk xs secret parts threshold : (forall s d b, bfree (mk s d b)) -> bounded size (mSplitRest size ar g mk xs secret parts threshold).
Proof.
  intros MK. unfold mSplitRest. cbv zeta. apply bd_bind; [apply bd_bf, bf_layout|]. intros out. apply bd_bind; [apply bd_get|]. intros b1. apply bd_bind; [apply bd_bf, bf_resetGrow|]. intros b2.
  apply bd_bind; [apply bd_bf, bf_slice|]. intros p. apply bd_bind; [apply bd_bf, MK|]. intros _. apply bd_bind; [apply bd_get|]. intros b3. apply bd_bind; [apply bd_bf, bf_resetGrow|]. intros b4.
  apply bd_bind; [apply bd_bf, bf_slice|]. intros q. apply bd_bind; [apply bd_bf, bf_transposeBuffer|]. intros _. apply bd_bind; [apply bd_bf, bf_evalLoop|]. intros _.
  apply bd_bind; [apply bd_put|]. intros _. apply bd_bind; [apply bd_put|]. intros _. apply bd_bf, bf_ret.
Qed.
Lemma bd_split size ar g perm stream secret parts threshold : bounded size (mSplit size ar g perm stream secret parts threshold).
Proof.
  intros m L. unfold mSplit. destruct (checkArgs _ _ _); [exact L|]. apply bd_rest; [|exact L]. intros s d b. unfold mMakePolynomialsWithBuff. apply bf_bind; [apply bf_write|]. intros _. apply bf_setIntercepts.
Qed.
Lemma bd_randomizer size fuel ar g ks secret parts threshold : bounded size (mSplitWithRandomizer size fuel ar g ks secret parts threshold).
Proof.
  intros m L. unfold mSplitWithRandomizer. destruct (checkArgs _ _ _); [exact L|]. revert m L. apply bd_bind; [apply bd_bf, bf_lift|]. intros xs. apply bd_rest.
  intros s d b. unfold mMakePolynomialsWithBuffAndRandomizer. apply bf_bind; [intros m bp; reflexivity|]. intros _. apply bf_setIntercepts.
Qed.
Lemma bd_krSplit size E zp extra kb share secret parts threshold : (forall s p t, bounded size (share s p t)) -> bounded size (mKrSplitWith E zp extra kb share secret parts threshold).
Proof.
  intros SH. unfold mKrSplitWith. destruct (krCheck _ _ _); [apply bd_bf, bf_lift|]. apply bd_bind; [apply bd_bf, bf_make|]. intros key. apply bd_bind; [apply bd_bf, bf_write|]. intros _.
  apply bd_bind. { apply bd_bf. intros m bp. change (mcontents (withB m bp)) with (mcontents m). destruct (encrypt E _ _); reflexivity. }
  intros es. destruct (rsNew _ _ _); [apply bd_bf, bf_lift|]. cbv zeta. apply bd_bind; [apply bd_bf; intros m bp; reflexivity|]. intros shards.
  apply bd_bind; [apply bd_bf; bf|]. intros e1. apply bd_bind; [apply bd_bf; bf|]. intros e2. apply bd_bind; [apply bd_bf, bf_append|]. intros kl. apply bd_bind; [apply SH|]. intros ss. apply bd_bf, bf_assemble.
Qed.

Lemma pkgStep_bounded E zp rd size ar growcap c op : grow_ok growcap -> pkgOp_ok (snd c) op -> client_ok c -> length (m_bpool (fst c)) <= size ->
  length (m_bpool (fst (pkgStep E zp rd size ar growcap c op))) <= size.
Proof.
  intros G OK C L. destruct c as [m env]. cbn [fst snd] in *.
  assert (H : forall f : M (list gslice), bounded size f -> length (m_bpool (fst (match f m with (m', Ret slices) => (m', env ++ slices) | (m', _) => (m', env) end))) <= size).
  { intros f B. specialize (B m L). destruct (f m) as [m' o]. destruct o; exact B. }
  destruct op as [op|ks k parts threshold|extra krand perm stream k parts threshold|fuel extra ks k parts threshold|ps parts threshold].
  - apply clientStep_bounded; assumption.
  - apply H, bd_bf, bf_old.
  - apply H, bd_krSplit. intros. apply bd_split.
  - apply H, bd_krSplit. intros. apply bd_randomizer.
  - apply (H (fun m => one (mKrCombine E zp rd (map (option_map (nthSlice env)) ps) parts threshold m))). intros m0 L0. unfold one. cbn [fst]. apply (bd_bf size _ (bf_krCombine E zp rd (map (option_map (nthSlice env)) ps) parts threshold)), L0.
Qed.
