(** Facts about what stays in the pool buffers (C65). *)
From Coq Require Import List NArith ZArith Lia Arith Bool.
From Coq.Init Require Import Byte.
From Verif Require Import GoSem Bytes Spec Galois GF Vector Csprng Pool Polynomial Shamir GoFacts VectorFacts PolynomialFacts SplitFacts CombineFacts RegenFacts RandomizerFacts Derived Memory MemCalls SpecMemCalls MemFacts MemSplit MemTop SpecRemain.
Import ListNotations.
Local Open Scope go_scope.

Lemma poolPut_in {B} size (l : list B) b c : In c l -> In c (poolPut size l b).
Proof. intros I. unfold poolPut. destruct (_ <? _); [apply in_or_app; left|]; exact I. Qed.
Lemma poolPut_new {B} size (l : list B) b : length l < size -> In b (poolPut size l b).
Proof. intros L. unfold poolPut. destruct (Nat.ltb_spec (length l) size); [apply in_or_app; right; left; reflexivity|lia]. Qed.
Lemma poolPut_le {B} size (l : list B) b : length l <= size -> length (poolPut size l b) <= size /\ length (poolPut size l b) <= S (length l).
Proof. intros L. unfold poolPut. destruct (Nat.ltb_spec (length l) size); [rewrite app_length; cbn [length]; lia|lia]. Qed.
Lemma tl_length {B} (l : list B) : length (tl l) = length l - 1.
Proof. destruct l; cbn [tl length]; lia. Qed.

(** what the polynomials and their transpose hold *)
Lemma pol_heads secret d old pol : length old = (d + 1) * length secret -> setIntercepts secret d old = Ret pol ->
  forall p, p < length secret -> nth ((d + 1) * p) pol x00 = nth p secret x00.
Proof.
  intros L E p Lp. destruct (setIntercepts_ok secret d old L) as (o & E2 & L2 & R). rewrite E2 in E. inversion E; subst o.
  specialize (R p Lp). apply (f_equal (fun l => nth 0 l x00)) in R. unfold polyOf in R. cbn [nth] in R. rewrite <- R.
  unfold row. rewrite nth_firstn by lia. rewrite nth_skipn. f_equal. lia.
Qed.
Lemma coef_head d N old2 pol coef secret : length secret = N -> length old2 = (d + 1) * N -> length pol = (d + 1) * N ->
  transposeMatrixBuffer old2 pol (d + 1) = Ret coef -> (forall p, p < N -> nth ((d + 1) * p) pol x00 = nth p secret x00) ->
  firstn N coef = secret.
Proof.
  intros LS L2 LP E H. destruct (transposeMatrixBuffer_ok old2 pol (d + 1) N ltac:(lia) LP ltac:(lia)) as (o & E2 & LO & R). rewrite E2 in E. inversion E; subst o.
  assert (NN : N <= length coef) by (rewrite LO, LP; nia).
  apply (nth_ext _ _ x00 x00); [rewrite firstn_length; lia|]. intros i Li. rewrite firstn_length in Li.
  rewrite nth_firstn by lia. rewrite <- H by lia. specialize (R 0 i ltac:(lia) ltac:(lia)). rewrite Nat.mul_0_r, Nat.add_0_l, Nat.add_0_r in R. exact R.
Qed.

(** what the two put-back buffers hold *)
Definition leaves (size t : nat) (secret : list byte) (m m' : memory) : Prop :=
  exists bt bp, m_bpool m' = poolPut size (poolPut size (tl (tl (m_bpool m))) bt) bp /\
    t * length secret <= sl_cap bt /\ t * length secret <= sl_cap bp /\
    firstn (length secret) (nth (sl_arr bt) (m_heap m') []) = secret /\
    forall p, p < length secret -> nth (t * p) (nth (sl_arr bp) (m_heap m') []) x00 = nth p secret x00.

Lemma leaves_intro size d secret (m m' : memory) pmk bt bp old old2 pol coef : 
  (forall (i : list byte) (dd : nat) (b o : list byte), length b = (dd + 1) * length i -> pmk i dd b = Ret o -> exists b', length b' = length b /\ setIntercepts i dd b' = Ret o) ->
  m_bpool m' = poolPut size (poolPut size (tl (tl (m_bpool m))) bt) bp ->
  (d + 1) * length secret <= sl_cap bt -> (d + 1) * length secret <= sl_cap bp ->
  firstn ((d + 1) * length secret) (nth (sl_arr bt) (m_heap m') []) = coef -> firstn ((d + 1) * length secret) (nth (sl_arr bp) (m_heap m') []) = pol ->
  length old = (d + 1) * length secret -> length old2 = (d + 1) * length secret -> length pol = (d + 1) * length secret ->
  pmk secret d old = Ret pol -> transposeMatrixBuffer old2 pol (d + 1) = Ret coef ->
  leaves size (d + 1) secret m m'.
Proof.
  intros PM P C1 C2 F1 F2 L1 L2 L3 E1 E2. destruct (PM secret d old pol L1 E1) as (b' & Lb & E3).
  assert (HD : forall p, p < length secret -> nth ((d + 1) * p) pol x00 = nth p secret x00) by (apply (pol_heads secret d b' pol); [lia|exact E3]).
  exists bt, bp. split; [exact P|]. split; [exact C1|]. split; [exact C2|]. split.
  - pose proof (coef_head d (length secret) old2 pol coef secret eq_refl L2 L3 E2 HD) as Q. rewrite <- F1 in Q. rewrite firstn_firstn, Nat.min_l in Q by nia. exact Q.
  - intros p Lp. rewrite <- HD by exact Lp. rewrite <- F2. symmetry. apply nth_firstn. nia.
Qed.

Lemma pmk_stream stream i dd b o : length b = (dd + 1) * length i -> makePolynomialsWithBuff i dd b stream = Ret o ->
  exists b', length b' = length b /\ setIntercepts i dd b' = Ret o.
Proof. intros _ E. unfold makePolynomialsWithBuff in E. eexists. split; [|exact E]. apply take_stream_length. Qed.
Lemma pmk_randomizer ks i dd b o : length b = (dd + 1) * length i -> makePolynomialsWithBuffAndRandomizer i dd b ks = Ret o ->
  exists b', length b' = length b /\ setIntercepts i dd b' = Ret o.
Proof. intros _ E. unfold makePolynomialsWithBuffAndRandomizer in E. eexists. split; [|exact E]. apply Read_length. Qed.

Lemma mSplit_leaves size ar growcap perm stream secret parts threshold m m' out :
  grow_ok growcap -> length perm = 255 -> mem_ok m -> usable m secret ->
  mSplit size ar growcap perm stream secret parts threshold m = (m', Ret out) ->
  leaves size (Z.to_nat threshold) (mcontents m secret) m m'.
Proof.
  intros G LP MO U H. unfold mSplit in H. destruct (checkArgs (mcontents m secret) parts threshold) as [e|] eqn:CK; [discriminate H|].
  pose proof CK as (T & PP & NE)%checkArgs_None.
  assert (L0 : 0 < sl_len secret). { rewrite <- (usable_length m secret U). destruct (mcontents m secret); [congruence|cbn [length]; lia]. }
  destruct (usable_inb m secret U L0) as [IS NS].
  destruct (mSplitRest_strong size ar growcap (mMakePolynomialsWithBuff stream) (fun i d b => makePolynomialsWithBuff i d b stream) (map i2b perm) (fun _ => []) secret parts threshold m
    G MO IS NS L0 ltac:(lia) (fills_stream stream)) as (m1 & tr & p & t & F & _ & _ & _ & _ & _ & _ & X).
  { intros tr. rewrite <- splitRest_split by exact CK.
    destruct (SplitBufs_ok ar growcap perm stream (nextB m) tr (fun _ => []) (mcontents m secret) parts threshold G CK ltac:(lia)) as (a & b & E & _). eexists. exact E. }
  rewrite F in H. inversion H; subst m1 out. clear H. cbv zeta in X. destruct X as (bt & bp & old & old2 & pol & coef & X1 & X2 & X3 & X4 & X5 & X6 & X7 & X8 & X9 & X10).
  rewrite <- (usable_length m secret U) in *. replace (Z.to_nat threshold) with (Z.to_nat (threshold - 1) + 1) by lia.
  eapply (leaves_intro _ _ _ _ _ (fun i d b => makePolynomialsWithBuff i d b stream) bt bp old old2 pol coef); try eassumption. intros ? ? ? ?. apply pmk_stream.
Qed.

Lemma mSplitWithRandomizer_leaves size fuel ar growcap ks secret parts threshold m m' out :
  grow_ok growcap -> mem_ok m -> usable m secret ->
  mSplitWithRandomizer size fuel ar growcap ks secret parts threshold m = (m', Ret out) ->
  leaves size (Z.to_nat threshold) (mcontents m secret) m m'.
Proof.
  intros G MO U H. unfold mSplitWithRandomizer in H. destruct (checkArgs (mcontents m secret) parts threshold) as [e|] eqn:CK; [discriminate H|].
  destruct (GetUniqueBytes fuel ks (z2b parts)) as [xs|e|p| |] eqn:GU; unfold mbind, mlift in H; try discriminate H.
  pose proof CK as (T & PP & NE)%checkArgs_None.
  assert (L0 : 0 < sl_len secret). { rewrite <- (usable_length m secret U). destruct (mcontents m secret); [congruence|cbn [length]; lia]. }
  destruct (usable_inb m secret U L0) as [IS NS].
  destruct (GetUniqueBytes_inv _ _ _ _ GU) as (LX & _). rewrite b2i_z2b in LX by lia.
  destruct (mSplitRest_strong size ar growcap (mMakePolynomialsWithBuffAndRandomizer ks) (fun i d b => makePolynomialsWithBuffAndRandomizer i d b ks) xs (fun _ => []) secret parts threshold m
    G MO IS NS L0 ltac:(lia) (fills_randomizer ks)) as (m1 & tr & p & t & F & _ & _ & _ & _ & _ & _ & X).
  { intros tr. rewrite <- (splitRest_randomizer fuel) by assumption.
    destruct (SplitWithRandomizerBufs_ok fuel ar growcap ks (nextB m) tr (fun _ => []) (mcontents m secret) parts threshold xs G CK GU ltac:(lia)) as (a & b & E & _). eexists. exact E. }
  rewrite F in H. inversion H; subst m1 out. clear H. cbv zeta in X. destruct X as (bt & bp & old & old2 & pol & coef & X1 & X2 & X3 & X4 & X5 & X6 & X7 & X8 & X9 & X10).
  rewrite <- (usable_length m secret U) in *. replace (Z.to_nat threshold) with (Z.to_nat (threshold - 1) + 1) by lia.
  eapply (leaves_intro _ _ _ _ _ (fun i d b => makePolynomialsWithBuffAndRandomizer i d b ks) bt bp old old2 pol coef); try eassumption. intros ? ? ? ?. apply pmk_randomizer.
Qed.

Lemma leaves_buffered size t secret m m' : 2 <= size -> 1 <= t -> length (m_bpool m) <= size -> leaves size t secret m m' ->
  exists b b', buffered m' b secret /\ scattered m' b' t secret.
Proof.
  intros SZ T L (bt & bp & P & C1 & C2 & F & S). exists bt, bp.
  assert (LT : length (tl (tl (m_bpool m))) <= size - 2) by (rewrite !tl_length; lia).
  destruct (poolPut_le size (tl (tl (m_bpool m))) bt ltac:(lia)) as [_ Q].
  split; [split; [|split; [nia|exact F]]|split; [|split; [exact C2|exact S]]]; rewrite P.
  - apply poolPut_in, poolPut_new. lia.
  - apply poolPut_new. lia.
Qed.
Lemma leaves_bounded size t secret m m' : length (m_bpool m) <= size -> leaves size t secret m m' -> length (m_bpool m') <= size.
Proof.
  intros L (bt & bp & P & _). rewrite P. apply poolPut_le. apply poolPut_le. rewrite !tl_length. lia.
Qed.

(** ** Functions that do not use the pools *)
Definition withPools (m : memory) (bp ep : list gslice) : memory := {| m_heap := m_heap m; m_bpool := bp; m_epool := ep |}.
Definition poolfree {A} (f : M A) : Prop := forall m bp ep, f (withPools m bp ep) = (withPools (fst (f m)) bp ep, snd (f m)).

Lemma pf_bind {A B} (f : M A) (k : A -> M B) : poolfree f -> (forall a, poolfree (k a)) -> poolfree (mbind f k).
Proof.
  intros F K m bp ep. unfold mbind. rewrite F. destruct (f m) as [m1 [a|e|p| |]]; cbn [fst snd]; try reflexivity. apply K.
Qed.
Lemma pf_ret {A} (a : A) : poolfree (mret a). Proof. intros m bp ep. reflexivity. Qed.
Lemma pf_lift {A} (o : outcome A) : poolfree (mlift o). Proof. intros m bp ep. reflexivity. Qed.
Lemma pf_load s i : poolfree (mload s i). Proof. intros m bp ep. unfold mload. destruct (_ <? _); reflexivity. Qed.
Lemma pf_store s i v : poolfree (mstore s i v). Proof. intros m bp ep. unfold mstore. destruct (_ <? _); reflexivity. Qed.
Lemma pf_write s l : poolfree (mwrite s l). Proof. intros m bp ep. reflexivity. Qed.
Lemma pf_make n : poolfree (mmake n). Proof. intros m bp ep. unfold mmake. cbn [withPools m_heap]. destruct (alloc _ _). reflexivity. Qed.
Lemma pf_foreach {X S} (l : list X) (f : X -> S -> M S) : (forall x s, poolfree (f x s)) -> forall s, poolfree (mforeach l f s).
Proof. intros F. induction l as [|x l IH]; intros s; [apply pf_ret|]. cbn [mforeach]. apply pf_bind; [apply F|apply IH]. Qed.

Ltac pf := repeat first [apply pf_bind|apply pf_foreach|apply pf_ret|apply pf_lift|apply pf_load|apply pf_store|apply pf_write|apply pf_make|intro].

Lemma pf_collect len parts : forall chk, poolfree (mCollectTags len chk parts).
Proof. induction parts as [|p r IH]; intros chk; cbn [mCollectTags]; [apply pf_ret|]. apply pf_bind; [apply pf_load|]. intros a. destruct (mem a chk); [apply pf_lift|]. apply pf_bind; [apply IH|]. intros. apply pf_ret. Qed.
Lemma pf_column j parts : poolfree (mColumn j parts).
Proof. induction parts as [|p r IH]; cbn [mColumn]; [apply pf_ret|]. apply pf_bind; [apply pf_load|]. intros a. apply pf_bind; [apply IH|]. intros. apply pf_ret. Qed.
Lemma pf_interpolate n parts xs x out : poolfree (mInterpolateAll n parts xs x out).
Proof. unfold mInterpolateAll. apply pf_foreach. intros j s. apply pf_bind; [apply pf_column|]. pf. Qed.
Lemma pf_combine parts : poolfree (mCombine parts).
Proof.
  intros m bp ep. unfold mCombine. assert (E : map (mcontents (withPools m bp ep)) parts = map (mcontents m) parts) by reflexivity. rewrite E.
  destruct (checkParts _); [reflexivity|]. cbv zeta.
  match goal with |- ?f _ = _ => enough (poolfree f) as Q by apply Q end.
  apply pf_bind; [apply pf_make|]. intros s. apply pf_bind; [apply pf_collect|]. intros xs. apply pf_bind; [apply pf_interpolate|]. pf.
Qed.
Lemma pf_regenerate fuel stream u parts num : poolfree (mRegenerate fuel stream u parts num).
Proof.
  intros m bp ep. unfold mRegenerate. assert (E : map (mcontents (withPools m bp ep)) parts = map (mcontents m) parts) by reflexivity. rewrite E.
  destruct (checkParts _); [reflexivity|]. cbv zeta.
  match goal with |- ?f _ = _ => enough (poolfree f) as Q by apply Q end.
  apply pf_bind; [apply pf_lift|]. intros k. apply pf_bind; [apply pf_collect|]. intros xs. apply pf_bind; [apply pf_lift|]. intros _.
  apply pf_foreach. intros x s. apply pf_bind; [apply pf_make|]. intros w. apply pf_bind; [apply pf_lift|]. intros nx. apply pf_bind; [apply pf_store|]. intros _.
  apply pf_bind; [apply pf_interpolate|]. pf.
Qed.
Lemma pf_generic perm stream secret parts threshold : poolfree (mSplitGeneric perm stream secret parts threshold).
Proof.
  intros m bp ep. unfold mSplitGeneric. change (mcontents (withPools m bp ep) secret) with (mcontents m secret).
  destruct (checkArgs _ _ _); [reflexivity|]. cbv zeta.
  match goal with |- ?f _ = _ => enough (poolfree f) as Q by apply Q end.
  apply pf_bind; [pf|]. intros out. apply pf_bind; [intros m1 b1 e1; reflexivity|]. intros co. apply pf_bind; [|pf].
  apply pf_foreach. intros x s. apply pf_bind; [apply pf_lift|]. intros t. apply pf_bind; [apply pf_lift|]. intros w m1 b1 e1.
  change (mcontents (withPools m1 b1 e1) w) with (mcontents m1 w). destruct (genericEvaluatePolynomialsAt co t (mcontents m1 w)); try reflexivity.
Qed.

(** a call of a function that does not use the pools leaves every array as it was *)
Lemma poolfree_keeps {A} (f : M A) m : poolfree f -> (forall m0, m_heap m0 = m_heap m -> buffers m0 = [] -> keeps m0 (fst (f m0))) ->
  m_bpool (fst (f m)) = m_bpool m /\ forall a, a < length (m_heap m) -> nth a (m_heap (fst (f m))) [] = nth a (m_heap m) [].
Proof.
  intros PF H. split.
  - pose proof (PF m (m_bpool m) (m_epool m)) as Q. replace (withPools m (m_bpool m) (m_epool m)) with m in Q by (destruct m; reflexivity).
    apply (f_equal fst) in Q. cbn [fst] in Q. apply (f_equal m_bpool) in Q. exact Q.
  - intros a La. specialize (H (withPools m [] []) eq_refl eq_refl). rewrite PF in H. cbn [fst] in H. destruct H as (_ & _ & H).
    specialize (H a La). destruct H as [H _]; [intros []|]. exact H.
Qed.

Lemma usable_strip m m0 s : m_heap m0 = m_heap m -> buffers m0 = [] -> usable m s -> usable m0 s.
Proof.
  intros H B [L U]. split; [exact L|]. intros C. destruct (U C) as (U1 & U2 & _). rewrite H. split; [exact U1|]. split; [exact U2|]. unfold pooled. rewrite B. intros [].
Qed.
Lemma mem_ok_strip m0 : buffers m0 = [] -> mem_ok m0.
Proof. intros B. unfold mem_ok. rewrite B. split; constructor. Qed.

Lemma poolfree_call {A} (f : M A) m (mk : memory -> memory * outcome (list gslice)) : poolfree f -> (forall m, fst (mk m) = fst (f m)) ->
  (forall m0, m_heap m0 = m_heap m -> buffers m0 = [] -> exists v, call_ok m0 (mk m0) v) ->
  m_bpool (fst (mk m)) = m_bpool m /\ forall a, a < length (m_heap m) -> nth a (m_heap (fst (mk m))) [] = nth a (m_heap m) [].
Proof.
  intros PF E H. rewrite E. apply poolfree_keeps; [exact PF|]. intros m0 H0 B. destruct (H m0 H0 B) as (v & K & _). rewrite <- E. exact K.
Qed.

Lemma clientStep_noPool size ar growcap c op : op_ok op -> noPoolOp op -> client_ok c ->
  m_bpool (fst (clientStep size ar growcap c op)) = m_bpool (fst c) /\
  forall a, pooled (fst c) a -> nth a (m_heap (fst (clientStep size ar growcap c op))) [] = nth a (m_heap (fst c)) [].
Proof.
  intros OK NP [MO U]. destruct c as [m env]. cbn [fst snd] in *. unfold clientStep.
  assert (LT : forall a, pooled m a -> a < length (m_heap m)) by (intros a Q; apply (inv_lt [] m a); [exact MO|exact Q]).
  assert (CALL : forall call, callOf size ar growcap env op = Some call ->
    m_bpool (fst (call m)) = m_bpool m /\ forall a, a < length (m_heap m) -> nth a (m_heap (fst (call m))) [] = nth a (m_heap m) []).
  { intros call E. destruct op as [data|k i v|k extra v|k i j|perm stream k parts threshold|fuel ks k parts threshold|perm stream k parts threshold|ps|fuel stream u ps num]; cbn [callOf noPoolOp op_ok] in *; try discriminate E; try (destruct NP; fail); inversion E; subst call; clear E.
    - apply (poolfree_call _ m _ (pf_generic perm stream (nthSlice env k) parts threshold)); [reflexivity|]. intros m0 H0 B. eexists.
      apply mSplitGeneric_call; [exact OK|apply mem_ok_strip, B|]. eapply usable_strip; [exact H0|exact B|]. apply usable_nthSlice, U.
    - apply (poolfree_call _ m (fun m => one (mCombine (map (nthSlice env) ps) m)) (pf_combine (map (nthSlice env) ps))); [reflexivity|]. intros m0 H0 B. eexists.
      apply mCombine_call; [apply mem_ok_strip, B|]. apply Forall_map, Forall_forall. intros p _. eapply usable_strip; [exact H0|exact B|]. apply usable_nthSlice, U.
    - apply (poolfree_call _ m _ (pf_regenerate fuel stream u (map (nthSlice env) ps) num)); [reflexivity|]. intros m0 H0 B. eexists.
      apply mRegenerate_call; [apply mem_ok_strip, B|]. apply Forall_map, Forall_forall. intros p _. eapply usable_strip; [exact H0|exact B|]. apply usable_nthSlice, U. }
  destruct (callOf size ar growcap env op) as [call|] eqn:E.
  - destruct (CALL call eq_refl) as [C1 C2]. destruct (call m) as [m' o]. cbn [fst] in *. assert (forall a, pooled m a -> nth a (m_heap m') [] = nth a (m_heap m) []) by auto.
    destruct o; cbn [fst]; split; assumption.
  - clear CALL. destruct op as [data|k i v|k extra v|k i j| | | | | ]; cbn [callOf] in E; try discriminate E.
    + unfold alloc. cbn [fst setHeap m_bpool m_heap]. split; [reflexivity|]. intros a Q. apply app_nth1, LT, Q.
    + pose proof (usable_nthSlice m env k U) as Uk. unfold mstore. destruct (Nat.ltb_spec i (sl_len (nthSlice env k))) as [L|L]; cbn [fst]; [|auto].
      destruct Uk as [X Y]. destruct (Y ltac:(lia)) as (Y1 & Y2 & Y3). cbn [setHeap m_bpool m_heap]. split; [reflexivity|]. intros a Q.
      unfold poke. rewrite nth_set by exact Y1. destruct (Nat.eqb_spec a (sl_arr (nthSlice env k))) as [->|D]; [contradiction|reflexivity].
    + pose proof (usable_nthSlice m env k U) as Uk. unfold append1. destruct (Nat.ltb_spec (sl_len (nthSlice env k)) (sl_cap (nthSlice env k))) as [L|L]; cbn [fst setHeap m_bpool m_heap]; (split; [reflexivity|]); intros a Q.
      * destruct Uk as [X Y]. destruct (Y ltac:(lia)) as (Y1 & Y2 & Y3). unfold poke. rewrite nth_set by exact Y1. destruct (Nat.eqb_spec a (sl_arr (nthSlice env k))) as [->|D]; [contradiction|reflexivity].
      * apply app_nth1, LT, Q.
    + destruct (reslice (nthSlice env k) i j); cbn [fst]; auto.
Qed.

Lemma bpool_pooled m b : In b (m_bpool m) -> 0 < sl_cap b -> pooled m (sl_arr b).
Proof.
  intros I C. unfold pooled, buffers. apply in_app_arrays. left. unfold arraysOf. apply in_map. apply filter_In. split; [exact I|]. apply Nat.ltb_lt, C.
Qed.

Lemma clientRun_noPool size ar growcap ops : grow_ok growcap -> Forall op_ok ops -> Forall noPoolOp ops -> forall c, client_ok c ->
  m_bpool (fst (clientRun size ar growcap c ops)) = m_bpool (fst c) /\
  forall b, In b (m_bpool (fst c)) -> 0 < sl_cap b -> nth (sl_arr b) (m_heap (fst (clientRun size ar growcap c ops))) [] = nth (sl_arr b) (m_heap (fst c)) [].
Proof.
  intros G. induction ops as [|op ops IH]; intros F1 F2 c C; [split; reflexivity|].
  pose proof (Forall_inv F1) as O1. pose proof (Forall_inv F2) as O2. apply Forall_inv_tail in F1, F2.
  cbn [clientRun fold_left]. fold (clientRun size ar growcap (clientStep size ar growcap c op) ops).
  destruct (clientStep_noPool size ar growcap c op O1 O2 C) as [S1 S2].
  destruct (IH F1 F2 _ (clientStep_ok size ar growcap c op G O1 C)) as [R1 R2]. split; [rewrite R1; exact S1|].
  intros b Ib Cb. rewrite R2; [|rewrite S1; exact Ib|exact Cb]. apply S2, bpool_pooled; assumption.
Qed.

Lemma buffered_keep m m' b l : m_bpool m' = m_bpool m -> (forall b, In b (m_bpool m) -> 0 < sl_cap b -> nth (sl_arr b) (m_heap m') [] = nth (sl_arr b) (m_heap m) []) ->
  buffered m b l -> buffered m' b l.
Proof.
  intros P K (I & C & F). split; [rewrite P; exact I|]. split; [exact C|]. destruct l as [|v l]; [reflexivity|]. rewrite K; [exact F|exact I|cbn [length] in C; lia].
Qed.
Lemma scattered_keep m m' b t l : 0 < t -> m_bpool m' = m_bpool m -> (forall b, In b (m_bpool m) -> 0 < sl_cap b -> nth (sl_arr b) (m_heap m') [] = nth (sl_arr b) (m_heap m) []) ->
  scattered m b t l -> scattered m' b t l.
Proof.
  intros T P K (I & C & F). split; [rewrite P; exact I|]. split; [exact C|]. intros p Lp. rewrite K; [apply F, Lp|exact I|nia].
Qed.

(** the pool never holds more than [size] buffers *)
Lemma clientStep_bounded size ar growcap c op : grow_ok growcap -> op_ok op -> client_ok c -> length (m_bpool (fst c)) <= size ->
  length (m_bpool (fst (clientStep size ar growcap c op))) <= size.
Proof.
  intros G OK C L.
  assert (D : noPoolOp op \/ ~ noPoolOp op) by (destruct op; cbn [noPoolOp]; tauto). destruct D as [D|D].
  { rewrite (proj1 (clientStep_noPool size ar growcap c op OK D C)). exact L. }
  destruct c as [m env]. destruct C as [MO U]. cbn [fst snd] in *.
  destruct op as [data|k i v|k extra v|k i j|perm stream k parts threshold|fuel ks k parts threshold| | |]; cbn [noPoolOp] in D; try (exfalso; apply D; exact I); unfold clientStep; cbn [callOf].
  - destruct (mSplit size ar growcap perm stream (nthSlice env k) parts threshold m) as [m' [sl|e|p| |]] eqn:E; cbn [fst].
    1: eapply leaves_bounded; [exact L|]; eapply mSplit_leaves; try eassumption; apply usable_nthSlice, U.
    all: pose proof (mSplit_call size ar growcap perm stream [] [] (fun _ => []) (nthSlice env k) parts threshold m G OK MO (usable_nthSlice m env k U)) as [_ Q]; rewrite E in Q; cbn [snd] in Q;
      unfold mSplit in E; destruct (checkArgs (mcontents m (nthSlice env k)) parts threshold) as [e'|] eqn:CK; [inversion E; subst; exact L|];
      pose proof CK as (T & PP & NE)%checkArgs_None;
      rewrite Split_ok in Q by (try assumption; rewrite OK; lia); discriminate Q.
  - destruct (mSplitWithRandomizer size fuel ar growcap ks (nthSlice env k) parts threshold m) as [m' [sl|e|p| |]] eqn:E; cbn [fst].
    1: eapply leaves_bounded; [exact L|]; eapply mSplitWithRandomizer_leaves; try eassumption; apply usable_nthSlice, U.
    all: pose proof (mSplitWithRandomizer_call size fuel ar growcap ks [] (fun _ => []) (nthSlice env k) parts threshold m G MO (usable_nthSlice m env k U)) as [_ Q]; rewrite E in Q; cbn [snd] in Q;
      unfold mSplitWithRandomizer in E; destruct (checkArgs (mcontents m (nthSlice env k)) parts threshold) as [e'|] eqn:CK; [inversion E; subst; exact L|];
      destruct (GetUniqueBytes fuel ks (z2b parts)) as [xs|e2|p2| |] eqn:GU; unfold mbind, mlift in E; try (inversion E; subst; exact L);
      pose proof CK as (T & PP & NE)%checkArgs_None;
      destruct (GetUniqueBytes_inv _ _ _ _ GU) as (LX & _); rewrite b2i_z2b in LX by lia;
      destruct (SplitWithRandomizerBufs_ok fuel ar growcap ks (nextStale m) [] (fun _ => []) (mcontents m (nthSlice env k)) parts threshold xs G CK GU ltac:(lia)) as (a & b & E2 & _);
      unfold SplitWithRandomizer in Q; rewrite E2 in Q; discriminate Q.
Qed.
Lemma clientRun_bounded size ar growcap ops : grow_ok growcap -> Forall op_ok ops -> forall c, client_ok c -> length (m_bpool (fst c)) <= size ->
  length (m_bpool (fst (clientRun size ar growcap c ops))) <= size.
Proof.
  intros G. induction ops as [|op ops IH]; intros F c C L; [exact L|]. pose proof (Forall_inv F) as O1. apply Forall_inv_tail in F.
  cbn [clientRun fold_left]. apply IH; [exact F|apply clientStep_ok; assumption|apply clientStep_bounded; assumption].
Qed.
