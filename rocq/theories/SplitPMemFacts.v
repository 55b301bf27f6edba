(** SplitP on memory does what SplitP does on values, step by step (C64). *)
From Coq Require Import List NArith ZArith Lia Arith Bool.
From Coq.Init Require Import Byte.
From Verif Require Import GoSem Bytes GoFacts Polynomial Shamir SplitFacts SplitP Memory MemCalls SpecMemCalls MemFacts MemTop SplitPMem.
Import ListNotations.

Lemma Forall2_nth_error {A B} (R : A -> B -> Prop) l m : Forall2 R l m -> forall k,
  match nth_error l k with Some a => exists b, nth_error m k = Some b /\ R a b | None => nth_error m k = None end.
Proof. induction 1 as [|a b l m H F IH]; intros [|k]; cbn [nth_error]; eauto. apply IH. Qed.
Lemma Forall2_length' {A B} (R : A -> B -> Prop) l m : Forall2 R l m -> length l = length m.
Proof. induction 1; cbn [length]; lia. Qed.
Lemma Forall2_set {A B} (R : A -> B -> Prop) l m k a b : Forall2 R l m -> R a b -> Forall2 R (firstn k l ++ a :: skipn (S k) l) (firstn k m ++ b :: skipn (S k) m).
Proof.
  intros F H. revert k. induction F as [|x y l m Hx F IH]; intros k.
  - rewrite !firstn_nil, !skipn_nil. cbn [app]. constructor; [exact H|constructor].
  - destruct k as [|k]; cbn [firstn skipn app].
    + constructor; assumption.
    + constructor; [exact Hx|]. apply IH.
Qed.

Section Sim.
Context (m0 : memory) (secret : gslice) (n : nat) (degree : byte) (xs : list byte) (stream : nat -> byte).
Hypothesis U : usable m0 secret.
Let N := sl_len secret.
Hypothesis N0 : 0 < N.
Let o := length (m_heap m0).
Definition rowAt (o N i : nat) : gslice := {| sl_arr := o + i; sl_off := 0; sl_len := N + 1; sl_cap := N + 1 |}.
Let out := map (rowAt o N) (seq 0 n).
Definition memWith (rows : list (list byte)) : memory := setHeap m0 (m_heap m0 ++ rows).

Definition relw (w : worker) (mw : mworker) : Prop :=
  w_crt w = mw_crt mw /\ w_cur w = mw_cur mw /\ w_done w = mw_done mw /\ w_vals w = skipn (mw_pos mw) (mcontents m0 (mw_values mw)) /\
  length (mcontents m0 (mw_values mw)) = sl_len (mw_values mw) /\ sl_arr (mw_values mw) < o.
Definition Rel (s : pstate) (ms : mpstate) : Prop :=
  p_main s = mp_main ms /\ Forall2 relw (p_workers s) (mp_workers ms) /\ p_rpos s = mp_rpos ms /\ mp_mem ms = memWith (p_out s) /\
  length (p_out s) = n /\ forall i, i < n -> length (nth i (p_out s) []) = N + 1.

Lemma secret_len : length (mcontents m0 secret) = N.
Proof. apply usable_length, U. Qed.
Lemma secret_arr : sl_arr secret < o.
Proof. destruct U as [A B]. apply B. unfold N in N0. lia. Qed.
Lemma contents_with rows s : sl_arr s < o -> mcontents (memWith rows) s = mcontents m0 s.
Proof. intros H. unfold mcontents, memWith, contents. cbn [setHeap m_heap]. rewrite app_nth1 by exact H. reflexivity. Qed.
Lemma done_same ws mws : Forall2 relw ws mws -> forallb w_done ws = forallb mw_done mws.
Proof. induction 1 as [|w mw ws mws (_ & _ & H & _) _ IH]; [reflexivity|]. cbn [forallb]. rewrite H, IH. reflexivity. Qed.

Lemma main_sim s ms : Rel s ms ->
  match mainStep (mcontents m0 secret) s with
  | Blocked => mmainStep secret ms = MBlocked
  | Next s' => exists ms', mmainStep secret ms = MNext ms' /\ Rel s' ms'
  | Crash p => mmainStep secret ms = MCrash p
  end.
Proof.
  intros (R1 & R2 & R3 & R4 & R5 & R6). unfold mainStep, mmainStep. rewrite <- R1.
  assert (ES : secretLen (mcontents m0 secret) = msecretLen secret) by (unfold secretLen, msecretLen; rewrite secret_len; reflexivity).
  assert (EC : forall i, chunkEnd (mcontents m0 secret) i = mchunkEnd secret i) by (intros i; unfold chunkEnd, mchunkEnd; rewrite ES; reflexivity).
  destruct (p_main s) as [i| |].
  - rewrite ES. destruct (i <? msecretLen secret)%N eqn:Ei.
    + rewrite EC. cbv zeta.
      assert (LE : N.to_nat (mchunkEnd secret i) <= N).
      { assert (Q : (msecretLen secret <= N.of_nat N)%N) by (unfold msecretLen, u32; apply N.mod_le; discriminate).
        unfold mchunkEnd. cbv zeta. destruct (N.ltb_spec (msecretLen secret) (u32 (i + 1024))); lia. }
      unfold slice, mslice, mlift, reslice. rewrite secret_len.
      assert (LC : N.to_nat (mchunkEnd secret i) <= sl_cap secret) by (destruct U as [A _]; unfold N in LE; lia).
      destruct (Nat.leb_spec (N.to_nat i) (N.to_nat (mchunkEnd secret i))) as [L|L]; [|reflexivity].
      destruct (Nat.leb_spec (N.to_nat (mchunkEnd secret i)) N) as [L2|L2]; [|lia].
      destruct (Nat.leb_spec (N.to_nat (mchunkEnd secret i)) (sl_cap secret)) as [L3|L3]; [|lia].
      cbn [andb crashOr mcrashOr]. eexists. split; [reflexivity|].
      split; [reflexivity|]. split.
      { cbn [p_workers mp_workers]. apply Forall2_app; [exact R2|]. constructor; [|constructor].
        fold (window secret (N.to_nat i) (N.to_nat (mchunkEnd secret i))).
        assert (CW : mcontents m0 (window secret (N.to_nat i) (N.to_nat (mchunkEnd secret i))) = firstn (N.to_nat (mchunkEnd secret i) - N.to_nat i) (skipn (N.to_nat i) (mcontents m0 secret)))
          by (apply contents_window; assumption).
        unfold relw. cbn [w_crt w_cur w_done w_vals mw_crt mw_values mw_pos mw_cur mw_done skipn]. rewrite CW.
        repeat split. { rewrite firstn_length, skipn_length, secret_len. cbn [window sl_len]. lia. } { apply secret_arr. } }
      split; [exact R3|]. split; [exact R4|]. split; [exact R5|exact R6].
    + eexists. split; [reflexivity|]. split; [reflexivity|]. split; [exact R2|]. split; [exact R3|]. split; [exact R4|]. split; [exact R5|exact R6].
  - rewrite <- (done_same _ _ R2). destruct (forallb w_done (p_workers s)); [|reflexivity].
    eexists. split; [reflexivity|]. split; [reflexivity|]. split; [exact R2|]. split; [exact R3|]. split; [exact R4|]. split; [exact R5|exact R6].
  - reflexivity.
Qed.

(** the memory with the rows after a store *)
Lemma store_row rows i c y : length rows = n -> i < n -> length (nth i rows []) = N + 1 -> c < N + 1 ->
  mstore (rowAt o N i) c y (memWith rows) = (memWith (firstn i rows ++ (firstn c (nth i rows []) ++ y :: skipn (S c) (nth i rows [])) :: skipn (S i) rows), Ret tt).
Proof.
  intros L Hi Lr Hc. unfold mstore, memWith. cbn [rowAt sl_len sl_arr sl_off setHeap m_heap].
  assert (B : (c <? N + 1) = true) by (apply Nat.ltb_lt; exact Hc). rewrite B. f_equal. unfold setHeap. cbn [m_heap m_bpool m_epool]. f_equal.
  unfold poke, set. rewrite Nat.add_0_l. rewrite app_nth2 by (unfold o; lia). replace (o + i - length (m_heap m0)) with i by (unfold o; lia).
  rewrite (firstn_app (o + i)), (firstn_all2 (n := o + i) (m_heap m0)) by (unfold o; lia). replace (o + i - length (m_heap m0)) with i by (unfold o; lia).
  rewrite (skipn_app (S (o + i))), (skipn_all2 (n := S (o + i)) (m_heap m0)) by (unfold o; lia). replace (S (o + i) - length (m_heap m0)) with (S i) by (unfold o; lia).
  rewrite <- app_assoc. reflexivity.
Qed.

Lemma worker_sim k s ms : Rel s ms ->
  match workerStep n degree xs stream k s with
  | Blocked => mworkerStep n degree xs stream out k ms = MBlocked
  | Next s' => exists ms', mworkerStep n degree xs stream out k ms = MNext ms' /\ Rel s' ms'
  | Crash p => mworkerStep n degree xs stream out k ms = MCrash p
  end.
Proof.
  intros (R1 & R2 & R3 & R4 & R5 & R6). unfold workerStep, mworkerStep.
  pose proof (Forall2_nth_error _ _ _ R2 k) as NE. destruct (nth_error (p_workers s) k) as [w|] eqn:Ew; [|rewrite NE; reflexivity].
  destruct NE as (mw & Emw & W1 & W2 & W3 & W4 & W5 & W6). rewrite Emw. rewrite <- W3. destruct (w_done w); [reflexivity|].
  assert (Lk : k < length (p_workers s)) by (apply nth_error_Some; rewrite Ew; discriminate).
  pose proof (Forall2_length' _ _ _ R2) as LL.
  assert (Upd : forall w' mw' rp rows, relw w' mw' -> length rows = n -> (forall i, i < n -> length (nth i rows []) = N + 1) ->
    match setWorker s k w' rp rows with
    | Blocked => msetWorker ms k mw' rp (memWith rows) = MBlocked
    | Next s' => exists ms', msetWorker ms k mw' rp (memWith rows) = MNext ms' /\ Rel s' ms'
    | Crash p => msetWorker ms k mw' rp (memWith rows) = MCrash p
    end).
  { intros w' mw' rp rows RW LR LR2. unfold setWorker, msetWorker. unfold upd. destruct (Nat.ltb_spec k (length (p_workers s))); [|lia]. destruct (Nat.ltb_spec k (length (mp_workers ms))); [|lia].
    cbn [crashOr mcrashOr]. eexists. split; [reflexivity|]. split; [exact R1|]. split; [cbn [p_workers mp_workers]; apply Forall2_set; assumption|].
    split; [reflexivity|]. split; [reflexivity|]. split; assumption. }
  rewrite <- W2. destruct (w_cur w) as [[p i]|].
  - destruct (Nat.ltb_spec i n) as [Hi|Hi].
    + unfold mlift, mbind. destruct (tagOf xs i) as [x|e|q| |]; cbn [bind crashOr mcrashOr]; try reflexivity.
      destruct (evaluate p x) as [y|e|q| |]; cbn [bind crashOr mcrashOr]; try reflexivity.
      rewrite (idx_ok out i nilSlice) by (unfold out; rewrite map_length, seq_length; exact Hi). assert (NO : nth i out nilSlice = rowAt o N i) by (unfold out; apply nth_map_seq; exact Hi). rewrite NO. clear NO.
      unfold upd2. rewrite (idx_ok (p_out s) i []) by lia. cbn [bind]. unfold upd at 1. rewrite (R6 i Hi). rewrite <- W1.
      destruct (Nat.ltb_spec (N.to_nat (w_crt w)) (N + 1)) as [Hc|Hc].
      * cbn [bind]. unfold upd at 1. destruct (Nat.ltb_spec i (length (p_out s))) as [Hi2|Hi2]; [|lia]. cbn [crashOr].
        rewrite R4, store_row by (try apply R6; assumption). cbn [mcrashOr]. rewrite <- R3. apply Upd.
        -- split; [reflexivity|]. split; [reflexivity|]. split; [reflexivity|]. split; [exact W4|]. split; assumption.
        -- rewrite app_length, firstn_length. cbn [length]. rewrite skipn_length. lia.
        -- intros j Hj. destruct (Nat.lt_trichotomy j i) as [H|[->|H]].
           ++ rewrite app_nth1 by (rewrite firstn_length; lia). rewrite nth_firstn by exact H. apply R6, Hj.
           ++ rewrite app_nth2 by (rewrite firstn_length; lia). rewrite firstn_length. replace (i - Nat.min i (length (p_out s))) with 0 by lia. cbn [nth].
              rewrite app_length, firstn_length. cbn [length]. rewrite skipn_length, (R6 i Hi). lia.
           ++ rewrite app_nth2 by (rewrite firstn_length; lia). rewrite firstn_length. replace (j - Nat.min i (length (p_out s))) with (S (j - S i)) by lia. cbn [nth].
              rewrite nth_skipn. replace (S i + (j - S i)) with j by lia. apply R6, Hj.
      * cbn [bind crashOr]. unfold mstore. cbn [rowAt sl_len]. destruct (Nat.ltb_spec (N.to_nat (w_crt w)) (N + 1)); [lia|]. reflexivity.
    + rewrite R4, <- W1, <- R3. apply Upd; [|exact R5|exact R6].
      split; [reflexivity|]. split; [reflexivity|]. split; [reflexivity|]. split; [|split; assumption]. cbn [w_vals mw_pos mw_values]. rewrite W4.
      clear. generalize (mcontents m0 (mw_values mw)). generalize (mw_pos mw). intros q. induction q as [|q IH]; intros [|a l]; try reflexivity. apply IH.
  - destruct (Nat.ltb_spec (mw_pos mw) (sl_len (mw_values mw))) as [Hp|Hp].
    + assert (EV : w_vals w = nth (mw_pos mw) (mcontents m0 (mw_values mw)) x00 :: skipn (S (mw_pos mw)) (mcontents m0 (mw_values mw))).
      { rewrite W4. assert (Q : mw_pos mw < length (mcontents m0 (mw_values mw))) by lia. clear -Q. revert Q. generalize (mcontents m0 (mw_values mw)), (mw_pos mw). clear.
        induction l as [|a l IH]; intros q Hq; [cbn [length] in Hq; lia|]. destruct q as [|q]; [reflexivity|]. cbn [skipn nth]. apply IH. cbn [length] in Hq. lia. }
      rewrite EV. rewrite R4.
      assert (EL : mload (mw_values mw) (mw_pos mw) (memWith (p_out s)) = (memWith (p_out s), Ret (nth (mw_pos mw) (mcontents m0 (mw_values mw)) x00))).
      { rewrite mload_ok by (rewrite contents_with by exact W6; exact W5). rewrite contents_with by exact W6. f_equal. apply idx_ok. lia. }
      rewrite EL. cbn [mcrashOr]. rewrite <- R3. destruct (makePolynomial _ degree _) as [p|e|q| |]; cbn [crashOr mcrashOr]; try reflexivity.
      apply Upd; [|exact R5|exact R6]. split; [exact W1|]. split; [reflexivity|]. split; [reflexivity|]. split; [|split; assumption].
      cbn [w_vals mw_pos mw_values]. rewrite <- EV. exact W4.
    + assert (EV : w_vals w = []) by (rewrite W4; apply skipn_all2; lia). rewrite EV, R4, <- R3. apply Upd; [|exact R5|exact R6].
      split; [exact W1|]. split; [reflexivity|]. split; [reflexivity|]. split; [|split; assumption]. cbn [w_vals mw_pos mw_values]. symmetry. apply skipn_all2. lia.
Qed.

Lemma step_sim th s ms : Rel s ms ->
  match pstep (mcontents m0 secret) n degree xs stream th s with
  | Blocked => mpstep secret n degree xs stream out th ms = MBlocked
  | Next s' => exists ms', mpstep secret n degree xs stream out th ms = MNext ms' /\ Rel s' ms'
  | Crash p => mpstep secret n degree xs stream out th ms = MCrash p
  end.
Proof. intros R. destruct th as [|k]; [apply main_sim, R|apply worker_sim, R]. Qed.

Lemma exec_sim s sched s' : execution (mcontents m0 secret) n degree xs stream s sched s' -> forall ms, Rel s ms ->
  exists ms', mexecution secret n degree xs stream out ms sched ms' /\ Rel s' ms'.
Proof.
  induction 1 as [s|s th s1 sched s' E X IH]; intros ms R; [exists ms; split; [constructor|exact R]|].
  pose proof (step_sim th s ms R) as Q. rewrite E in Q. destruct Q as (ms1 & E1 & R1). destruct (IH ms1 R1) as (ms' & X' & R').
  exists ms'. split; [econstructor; eassumption|exact R'].
Qed.
Lemma exec_sim_rev ms sched ms' : mexecution secret n degree xs stream out ms sched ms' -> forall s, Rel s ms ->
  exists s', execution (mcontents m0 secret) n degree xs stream s sched s' /\ Rel s' ms'.
Proof.
  induction 1 as [ms|ms th ms1 sched ms' E X IH]; intros s R; [exists s; split; [constructor|exact R]|].
  pose proof (step_sim th s ms R) as Q. destruct (pstep (mcontents m0 secret) n degree xs stream th s) as [|s1|p] eqn:E1; [congruence| |congruence].
  destruct Q as (ms2 & E2 & R2). assert (ms2 = ms1) by congruence. subst ms2. destruct (IH s1 R2) as (s' & X' & R').
  exists s'. split; [econstructor; eassumption|exact R'].
Qed.
End Sim.

(** the layout *)
Lemma mLayoutRows_ok N xs n m : n <= length xs -> exists rows, layoutRows N n xs = Ret rows /\ length rows = n /\ (forall i, i < n -> length (nth i rows []) = N + 1) /\
  mLayoutRows N n xs m = (memWith m rows, Ret (map (rowAt (length (m_heap m)) N) (seq 0 n))).
Proof.
  intros Hn. exists (map (fun i => zeros N ++ [badd (nth i xs x00) x01]) (seq 0 n)). split; [apply layoutRows_ok, Hn|]. split; [rewrite map_length, seq_length; reflexivity|].
  split; [intros i Hi; rewrite nth_map_seq by exact Hi; rewrite app_length, zeros_length; reflexivity|].
  unfold mLayoutRows. set (row := fun i => zeros N ++ [badd (nth i xs x00) x01]).
  assert (H : forall k a, a + k <= length xs -> mforeach (seq a k) (fun i out => mdo w <- mmake (N + 1); mdo t <- mlift (tagOf xs i); mdo _ <- mstore w N t; mret (out ++ [w]))
      (map (rowAt (length (m_heap m)) N) (seq 0 a)) (memWith m (map row (seq 0 a)))
    = (memWith m (map row (seq 0 (a + k))), Ret (map (rowAt (length (m_heap m)) N) (seq 0 (a + k))))).
  { induction k as [|k IH]; intros a L; [rewrite Nat.add_0_r; reflexivity|]. cbn [seq mforeach].
    assert (Lh : length (m_heap m ++ map row (seq 0 a)) = length (m_heap m) + a) by (rewrite app_length, map_length, seq_length; reflexivity).
    assert (E : (mdo w <- mmake (N + 1); mdo t <- mlift (tagOf xs a); mdo _ <- mstore w N t; mret (map (rowAt (length (m_heap m)) N) (seq 0 a) ++ [w])) (memWith m (map row (seq 0 a)))
      = (memWith m (map row (seq 0 (S a))), Ret (map (rowAt (length (m_heap m)) N) (seq 0 (S a))))).
    { unfold mbind, mmake, alloc, mlift. cbn [memWith setHeap m_heap]. rewrite tagOf_ok by lia. rewrite Lh, zeros_length.
      unfold mstore. cbn [sl_len sl_arr sl_off setHeap m_heap]. assert (B : (N <? N + 1) = true) by (apply Nat.ltb_lt; lia). rewrite B.
      unfold mret. rewrite !seq_S, !map_app. cbn [map Nat.add]. f_equal. unfold memWith, setHeap. cbn [m_heap m_bpool m_epool]. f_equal.
      unfold poke. rewrite app_nth2 by (rewrite Lh; lia). rewrite Lh, Nat.sub_diag. cbn [nth].
      unfold set at 1. rewrite firstn_app, firstn_all2 by (rewrite Lh; lia). rewrite Lh, Nat.sub_diag. cbn [firstn].
      rewrite skipn_app, skipn_all2 by (rewrite Lh; lia). rewrite Lh. replace (S (length (m_heap m) + a) - (length (m_heap m) + a)) with 1 by lia. cbn [skipn].
      rewrite app_nil_r, <- app_assoc. f_equal. f_equal. f_equal. unfold set, row, zeros.
      rewrite repeat_app. rewrite firstn_app, firstn_all2 by (rewrite repeat_length; lia). rewrite repeat_length, Nat.sub_diag. cbn [firstn repeat]. rewrite app_nil_r.
      rewrite skipn_all2 by (rewrite app_length, repeat_length; cbn [length]; lia). reflexivity. }
    rewrite (mbind_ret _ _ _ _ _ E). replace (a + S k) with (S a + k) by lia. apply IH. lia. }
  specialize (H n 0 ltac:(lia)). cbn [seq map Nat.add] in H. rewrite <- H. f_equal. unfold memWith. rewrite app_nil_r. symmetry. apply setHeap_same.
Qed.

Lemma memWith_keeps m rows : mem_ok m -> keeps m (memWith m rows).
Proof.
  intros MO. apply keeps_alloc; [exact MO|]. induction rows as [|r rows IH] using rev_ind; [rewrite app_nil_r; apply step_refl|].
  rewrite app_assoc. eapply step_trans; [exact IH|apply (step_alloc (fun _ => False))|cbv beta; tauto].
Qed.
Lemma rows_slices m N n rows : mem_ok m -> length rows = n -> (forall i, i < n -> length (nth i rows []) = N + 1) ->
  let out := map (rowAt (length (m_heap m)) N) (seq 0 n) in
  map (mcontents (memWith m rows)) out = rows /\ Forall (fresh m (memWith m rows)) out /\ separate out.
Proof.
  intros MO L LR out.
  assert (NR : forall i, i < n -> nth (length (m_heap m) + i) (m_heap m ++ rows) [] = nth i rows []).
  { intros i Hi. rewrite app_nth2 by lia. f_equal. lia. }
  split; [|split].
  - apply (nth_ext _ _ [] []); unfold out; rewrite !map_length, seq_length; [lia|]. intros i Hi. rewrite map_map, nth_map_seq by exact Hi.
    unfold mcontents, contents, memWith. cbn [rowAt sl_len sl_arr sl_off setHeap m_heap skipn]. rewrite NR by exact Hi. apply firstn_all2. rewrite LR by exact Hi. lia.
  - apply Forall_forall. intros s Hs. apply in_map_iff in Hs as (i & <- & Hi). apply in_seq in Hi. split; [|cbn [rowAt sl_arr]; lia].
    split; cbn [rowAt sl_len sl_cap sl_arr sl_off]; [lia|]. intros _. cbn [memWith setHeap m_heap]. split; [rewrite app_length; lia|]. split; [rewrite NR by lia; rewrite LR by lia; lia|].
    intros Q. apply (inv_lt [] m) in Q; [lia|exact MO].
  - intros i j Hi Hj. unfold out in *. rewrite map_length, seq_length in Hj. rewrite !nth_map_seq by lia. cbn [rowAt sl_arr]. lia.
Qed.

Lemma mSplitP_call perm stream secret parts threshold m sched : length perm = 255 -> mem_ok m -> usable m secret ->
  (forall r, mSplitP perm stream secret parts threshold m sched r ->
     exists v, SplitP perm stream (mcontents m secret) parts threshold sched v /\ call_ok m r v) /\
  (forall v, SplitP perm stream (mcontents m secret) parts threshold sched v ->
     exists r, mSplitP perm stream secret parts threshold m sched r /\ call_ok m r v).
Proof.
  intros LP MO U. destruct (checkArgs (mcontents m secret) parts threshold) as [e|] eqn:CK.
  { assert (C : call_ok m (m, Fail e) (Fail e)) by (split; [apply keeps_refl, MO|reflexivity]). split.
    - intros r H. inversion H; subst; try congruence. eexists. split; [apply SP_fail, CK|]. assert (e0 = e) by congruence. subst e0. exact C.
    - intros v H. inversion H; subst; try congruence. eexists. split; [apply MSP_fail; exact CK|]. assert (e0 = e) by congruence. subst e0. exact C. }
  pose proof CK as (T & PP & NE)%checkArgs_None.
  assert (L0 : 0 < sl_len secret). { rewrite <- (usable_length m secret U). destruct (mcontents m secret); [congruence|cbn [length]; lia]. }
  destruct (mLayoutRows_ok (sl_len secret) (map i2b perm) (Z.to_nat parts) m ltac:(rewrite map_length; lia)) as (rows & E1 & L1 & LR & E2).
  assert (R0 : Rel m secret (Z.to_nat parts) (pinit rows) (mpinit (memWith m rows))).
  { split; [reflexivity|]. split; [constructor|]. split; [reflexivity|]. split; [reflexivity|]. split; assumption. }
  assert (E1' : layoutRows (length (mcontents m secret)) (Z.to_nat parts) (map i2b perm) = Ret rows) by (rewrite (usable_length m secret U); exact E1).
  assert (CR : forall s ms, Rel m secret (Z.to_nat parts) s ms ->
    call_ok m (mp_mem ms, Ret (map (rowAt (length (m_heap m)) (sl_len secret)) (seq 0 (Z.to_nat parts)))) (Ret (p_out s)) /\ keeps m (mp_mem ms)).
  { intros s ms (_ & _ & _ & RM & RL & RR). rewrite RM. pose proof (memWith_keeps m (p_out s) MO) as K. split; [|exact K]. split; [exact K|]. cbn [fst snd].
    destruct (rows_slices m (sl_len secret) (Z.to_nat parts) (p_out s) MO RL RR) as (A & B & C). cbv zeta in A, B, C. split; [rewrite A; reflexivity|]. split; assumption. }
  split.
  - intros r H. inversion H as [e CKe|m1 p CKp EL|m1 out sch s CKr EL X MR|m1 out sch s th p CKr EL X MR]; subst; try congruence.
    + assert (Q : out = map (rowAt (length (m_heap m)) (sl_len secret)) (seq 0 (Z.to_nat parts)) /\ m1 = memWith m rows) by (rewrite E2 in EL; split; congruence). destruct Q as [-> ->].
      destruct (exec_sim_rev m secret (Z.to_nat parts) _ _ _ U L0 _ _ _ X (pinit rows) R0) as (s' & X' & R').
      exists (Ret (p_out s')). split; [apply (SP_return _ _ _ _ _ rows); try assumption; rewrite (proj1 R'); exact MR|]. apply CR, R'.
    + assert (Q : out = map (rowAt (length (m_heap m)) (sl_len secret)) (seq 0 (Z.to_nat parts)) /\ m1 = memWith m rows) by (rewrite E2 in EL; split; congruence). destruct Q as [-> ->].
      destruct (exec_sim_rev m secret (Z.to_nat parts) _ _ _ U L0 _ _ _ X (pinit rows) R0) as (s' & X' & R').
      pose proof (step_sim m secret (Z.to_nat parts) (z2b (threshold - 1)) (map i2b perm) stream U L0 th s' s R') as Q.
      destruct (pstep (mcontents m secret) (Z.to_nat parts) (z2b (threshold - 1)) (map i2b perm) stream th s') as [|s1|q] eqn:EQ; [congruence|destruct Q as (ms1 & Q & _); congruence|].
      assert (q = p) by congruence. subst q. exists (Panic p). split; [eapply SP_crash; eassumption|]. split; [apply (CR s' s R')|reflexivity].
  - intros v H. inversion H as [e CKe|p CKp EL|out sch s CKr EL X MR|out sch s th p CKr EL X MR]; subst; try congruence.
    + assert (out = rows) by congruence. subst out.
      destruct (exec_sim m secret (Z.to_nat parts) _ _ _ U L0 _ _ _ X (mpinit (memWith m rows)) R0) as (ms & X' & R').
      eexists. split; [eapply MSP_return; [exact CK|exact E2|exact X'|rewrite <- (proj1 R'); exact MR]|]. apply CR, R'.
    + assert (out = rows) by congruence. subst out.
      destruct (exec_sim m secret (Z.to_nat parts) _ _ _ U L0 _ _ _ X (mpinit (memWith m rows)) R0) as (ms & X' & R').
      pose proof (step_sim m secret (Z.to_nat parts) (z2b (threshold - 1)) (map i2b perm) stream U L0 th s ms R') as Q. rewrite MR in Q.
      eexists. split; [eapply MSP_crash; [exact CK|exact E2|exact X'|exact Q]|]. split; [apply (CR s ms R')|reflexivity].
Qed.
