(** Proofs of the properties of the buffer pool and of concurrent calls (C43, C50). *)
From Coq Require Import List NArith ZArith Lia Arith Bool Permutation.
From Coq.Init Require Import Byte.
From Verif Require Import GoSem Bytes Spec GoFacts Vector Csprng Pool Polynomial Shamir SplitFacts CombineFacts Derived RandomizerFacts Concurrency SpecConc ConcFacts ConcSplit ExData Pf1 Pf4.
Import ListNotations.

(*PROPS
From Coq Require Import List NArith ZArith Lia Arith Bool Permutation.
From Coq.Init Require Import Byte.
From Verif Require Import GoSem Bytes Spec Vector Csprng Pool Polynomial Shamir Concurrency SpecConc ExData Pf9.
Import ListNotations.
*)

(** C43: a pool made with [NewBytesBufferPool(size)] never holds more buffers than [size], or NumCPU*1024 when [size <= 0],
    whatever the goroutines do. *)
Lemma C43_bounded_pf : forall (A : Type) (numCPU sizeArg : Z) np (threads : list (prog A)) tr s,
  (1 <= numCPU)%Z ->
  gexec (Z.to_nat (poolSize numCPU sizeArg)) (ginit np threads) tr s ->
  forall pl, (Z.of_nat (length (nth pl (g_pools s) [])) <= if (0 <? sizeArg)%Z then sizeArg else numCPU * 1024)%Z.
Proof.
  intros A numCPU sizeArg np threads tr s HC H pl. pose proof (pool_bounded _ _ _ _ _ H pl) as B. unfold poolSize in B.
  destruct (Z.leb_spec sizeArg 0), (Z.ltb_spec 0 sizeArg); lia.
Qed.

(** C43: no operation ever blocks: a goroutine that has not finished can take its next step in every reachable state. *)
Lemma C43_never_blocks_pf : forall (A : Type) size np (threads : list (prog A)) tr s th p,
  gexec size (ginit np threads) tr s -> nth_error (g_threads s) th = Some p -> (forall o, p <> PDone o) ->
  exists s' ev, gstep size s th = Some (s', ev).
Proof. intros A size np threads tr s th p _ P N. exact (gstep_progress size s th p P N). Qed.

(** C43: FIFO. The buffers taken out of a pool so far are the buffers stored so far, in the same order, up to those still in it. *)
Lemma C43_fifo_pf : forall (A : Type) size np (threads : list (prog A)) tr s pl,
  gexec size (ginit np threads) tr s -> pl < np ->
  stored pl tr = taken pl tr ++ nth pl (g_pools s) [].
Proof. intros A size np threads tr s pl H Hp. exact (pool_fifo _ _ _ _ _ H pl Hp). Qed.

Lemma occurs_known {A} size np (threads : list (prog A)) tr s b : Forall (well_behaved []) threads -> gexec size (ginit np threads) tr s -> occurs b tr -> b < length (g_bufs s).
Proof.
  intros W H. remember (ginit np threads) as s0 eqn:E0. induction H as [s|s tr s1 th ev s2 H IH St]; intros (t & e & I0 & M); [destruct I0|]. subst s.
  destruct (exclusive_exec _ _ _ _ _ W H) as (X & B & K1 & K2). destruct (gstep_effect _ _ _ _ _ St) as (p & P & E). pose proof (B _ _ P) as WB.
  assert (Mo : length (g_bufs s1) <= length (g_bufs s2)) by (inversion E; subst; cbn [g_bufs]; rewrite ?setNth_length, ?app_length; lia).
  apply in_app_or in I0 as [I0|[I0|[]]]; [enough (b < length (g_bufs s1)) by lia; apply IH; [reflexivity|exists t, e; split; assumption]|].
  injection I0 as <- <-. inversion E; subst; cbn [g_bufs] in *; cbn beta iota in M; try contradiction; subst b.
  - match goal with Q : nth _ _ _ = _ :: _ |- _ => apply pool_nth_in in Q as (_ & Q); apply K1; exact Q end.
  - rewrite app_length. cbn. lia.
  - apply (K2 th). exact (proj1 WB).
  - apply (K2 th). exact (proj1 WB).
Qed.

(** C43: what a step at a pool tells about the history: a Get that hits takes the oldest stored buffer; a Get that misses happens
    when everything stored has been taken, and delivers a buffer never seen before; a Put stores unless the pool holds [size] buffers. *)
Lemma C43_operations_pf : forall (A : Type) size np (threads : list (prog A)) tr th ev s,
  Forall (well_behaved []) threads ->
  gexec size (ginit np threads) (tr ++ [(th, ev)]) s ->
  match ev with
  | EvHit pl b => pl < np -> exists rest, stored pl tr = taken pl tr ++ b :: rest
  | EvMiss pl b => (pl < np -> stored pl tr = taken pl tr) /\ ~ occurs b tr
  | EvPut pl b => (pl < np -> length (stored pl tr) < length (taken pl tr) + size) /\ In b (heldBy tr th)
  | EvDrop pl b => (pl < np -> length (stored pl tr) = length (taken pl tr) + size) /\ In b (heldBy tr th)
  | EvLocal => True
  end.
Proof.
  intros A size np threads tr th ev s W H. inversion H as [|s0 tr0 s1 th0 ev0 s2 H1 St E1 E2]; [destruct tr; discriminate|].
  apply app_inj_tail in E2 as (-> & E2). injection E2 as -> ->. subst.
  destruct (exclusive_exec _ _ _ _ _ W H1) as (X & B & K). destruct (gstep_effect _ _ _ _ _ St) as (p & P & E).
  pose proof (B _ _ P) as WB. pose proof (pool_fifo _ _ _ _ _ H1) as F. pose proof (pool_bounded _ _ _ _ _ H1) as Bd.
  inversion E; subst; try exact I.
  - intros Hp. exists ch. rewrite F by exact Hp. congruence.
  - split; [intros Hp; rewrite F by exact Hp; match goal with Q : nth _ _ _ = [] |- _ => rewrite Q end; apply app_nil_r|].
    intros Hb. apply (occurs_known _ _ _ _ _ _ W H1) in Hb. lia.
  - split; [intros Hp; rewrite F, app_length by exact Hp; lia|]. exact (proj1 WB).
  - split; [intros Hp; rewrite F, app_length by exact Hp; specialize (Bd pl); lia|]. exact (proj1 WB).
Qed.

(** C43: if every client puts back and accesses only buffers it holds, then in every reachable state no buffer is held by two
    clients, or both pooled and held, or pooled twice. *)
Lemma C43_exclusive_pf : forall (A : Type) size np (threads : list (prog A)) tr s,
  Forall (well_behaved []) threads -> gexec size (ginit np threads) tr s -> exclusive tr s.
Proof. intros A size np threads tr s W H. apply (exclusive_exec _ _ _ _ _ W H). Qed.

(** C43: then there is no data race: the next operations of two goroutines never touch the same buffer, and a goroutine's step leaves the
    contents of the buffers that others hold unchanged. *)
Lemma C43_no_race_pf : forall (A : Type) size np (threads : list (prog A)) tr s th th' p p' b,
  Forall (well_behaved []) threads -> gexec size (ginit np threads) tr s -> th <> th' ->
  nth_error (g_threads s) th = Some p -> nth_error (g_threads s) th' = Some p' ->
  (touches p = Some b -> touches p' <> Some b) /\
  (In b (heldBy tr th') -> forall s' ev, gstep size s th = Some (s', ev) -> nth b (g_bufs s') [] = nth b (g_bufs s) []).
Proof.
  intros A size np threads tr s th th' p p' b W H N P P'. destruct (exclusive_exec _ _ _ _ _ W H) as (X & B & K). split.
  - intros T T'. pose proof (touched_held _ _ _ (B _ _ P) T) as Hb. pose proof (touched_held _ _ _ (B _ _ P') T') as Hb'.
    destruct X as (_ & _ & _ & X). apply N. exact (X _ _ _ Hb Hb').
  - intros Hb s' ev St. apply (other_bufs _ _ _ _ _ _ St X B K th'); [congruence|exact Hb].
Qed.

(** C43: and every client computes what it computes alone: a finished goroutine has an outcome it can have when it runs with private buffers. *)
Lemma C43_isolated_pf : forall (A : Type) size np (threads : list (prog A)) tr s th p o,
  Forall (well_behaved []) threads -> gexec size (ginit np threads) tr s ->
  nth_error threads th = Some p -> nth_error (g_threads s) th = Some (PDone o) -> returns_alone p o.
Proof. intros A size np threads tr s th p o W H P D. exact (isolation _ _ _ _ _ W H th p o P D). Qed.

(*COPY
(** Two clients that get a buffer, write to it, and put it back: a run in which they alternate. *)
Definition ex_client (v : byte) : prog byte :=
  PGet 0 (fun b => PAlloc b 2 (PStore b 1 v (PLoad b 1 (fun r => PPut 0 b (PDone (Ret r)))))).
Definition ex_run {A} (size : nat) (s : gstate A) (ths : list nat) : option (gstate A * list (nat * event)) :=
  fold_left (fun acc th => match acc with
    | Some (s, tr) => match gstep size s th with Some (s', ev) => Some (s', tr ++ [(th, ev)]) | None => None end
    | None => None end) ths (Some (s, [])).
Example C43_clients_ok : Forall (well_behaved []) [ex_client x05; ex_client x06; ex_client x07].
Proof. repeat constructor; cbn; intros; repeat split; auto. Qed.
(** goroutines 0 and 1 overlap and get different buffers; 2 comes later and gets the one put back first; with a pool of size 1
    the second Put is dropped *)
Example C43_run :
  match ex_run 1 (ginit 1 [ex_client x05; ex_client x06; ex_client x07]) [0; 1; 0; 1; 1; 0; 1; 0; 1; 0; 2] with
  | Some (s, tr) =>
      filter (fun '(_, ev) => match ev with EvLocal => false | _ => true end) tr =
        [(0, EvMiss 0 0); (1, EvMiss 0 1); (1, EvPut 0 1); (0, EvDrop 0 0); (2, EvHit 0 1)] /\
      heldBy tr 2 = [1] /\ firstn 2 (g_threads s) = [PDone (Ret x05); PDone (Ret x06)]
  | None => False end.
Proof. vm_compute. repeat split. Qed.
(** a client that puts a buffer back twice breaks the rule, and exclusiveness fails *)
Definition ex_bad : prog byte := PGet 0 (fun b => PPut 0 b (PPut 0 b (PDone (Ret x00)))).
Example C43_bad_client :
  match ex_run 8 (ginit 1 [ex_bad; ex_client x06; ex_client x07]) [0; 0; 0; 1; 2] with
  | Some (s, tr) => heldBy tr 1 = [0] /\ heldBy tr 2 = [0]
  | None => False end.
Proof. vm_compute. split; reflexivity. Qed.
END*)

(** ** Concurrent calls of the library *)
Lemma goroutines_ok ar growcap callss : Forall (well_behaved []) (map (fun calls => goroutine ar growcap calls []) callss).
Proof. apply Forall_map, Forall_forall. intros calls _. apply wb_goroutine. Qed.

Lemma callsTo_correct ar growcap c o : grow_ok growcap -> draws_ok c -> callsTo ar growcap c o -> correct_outcome ar growcap c o.
Proof.
  intros G D (polB & trB & ->). destruct c; cbn [correct_outcome draws_ok] in *.
  - destruct (checkArgs secret parts threshold) as [e|] eqn:Ck; [unfold Split, SplitBufs; rewrite Ck; reflexivity|].
    assert (Lp : (parts <= Z.of_nat (List.length perm))%Z).
    { apply Permutation_length in D. rewrite seq_length in D. rewrite D. apply checkArgs_None in Ck. lia. }
    rewrite !Split_ok by assumption. reflexivity.
  - destruct (checkArgs secret parts threshold) as [e|] eqn:Ck.
    { unfold SplitWithRandomizer, SplitWithRandomizerBufs. rewrite Ck. reflexivity. }
    pose proof Ck as V. apply valid_checkArgs in V. destruct (GetUniqueBytes fuel ks (z2b parts)) as [xs|e|p| |] eqn:Ex.
    2,3,4,5: unfold SplitWithRandomizer, SplitWithRandomizerBufs; rewrite Ck, Ex; reflexivity.
    pose proof (SWR_ok fuel ar growcap ks polB trB (fun _ => []) secret parts threshold xs G V Ex) as R.
    pose proof (SWR_ok fuel ar growcap ks [] [] (fun _ => []) secret parts threshold xs G V Ex) as R'. rewrite R'.
    destruct (C18_randomizer_combine_pf _ _ _ _ _ _ _ _ _ _ _ G R) as (L & _ & _ & C).
    rewrite R in *. split; [rewrite !map_tag_shares; reflexivity|]. split; [exact L|exact C].
Qed.

(** C50: any number of goroutines, each making any sequence of Split and SplitWithRandomizer calls over the shared pools, in any
    interleaving: when a goroutine is done, each of its calls has returned what it returns when it is made alone; the only other way it can
    have ended is that one of its calls panics, or hangs, also when made alone. *)
Lemma C50_concurrent_calls_pf : forall ar growcap size callss tr s th calls o,
  grow_ok growcap -> Forall (Forall draws_ok) callss ->
  gexec size (ginit 2 (map (fun calls => goroutine ar growcap calls []) callss)) tr s ->
  nth_error callss th = Some calls -> nth_error (g_threads s) th = Some (PDone o) ->
  (exists results, o = Ret results /\ Forall2 (correct_outcome ar growcap) calls results) \/
  (exists c bad, In c calls /\ correct_outcome ar growcap c bad /\ (forall r, bad <> Ret r) /\ (forall e, bad <> Fail e)).
Proof.
  intros ar growcap size callss tr s th calls o G D H P Q.
  assert (R : returns_alone (goroutine ar growcap calls []) o).
  { apply (isolation _ _ _ _ _ (goroutines_ok ar growcap callss) H th); [|exact Q]. rewrite nth_error_map, P. reflexivity. }
  assert (Dc : Forall draws_ok calls) by (rewrite Forall_forall in D; apply D; eapply nth_error_In, P).
  destruct R as (own' & h' & R). pose proof (aw_sound _ _ _ _ _ _ R _ (aw_goroutine ar growcap G calls [] [] (fun _ => []))) as X.
  cbn beta in X. assert (BAD : (exists c, In c calls /\ exists o', callsTo ar growcap c o' /\ o = pfail o' /\ (forall r, o' <> Ret r) /\ (forall e, o' <> Fail e)) ->
     exists c bad, In c calls /\ correct_outcome ar growcap c bad /\ (forall r, bad <> Ret r) /\ (forall e, bad <> Fail e)).
  { intros (c & Hc & o' & Co & _ & N1 & N2). exists c, o'. split; [exact Hc|]. split; [|split; assumption].
    apply callsTo_correct; [exact G| |exact Co]. rewrite Forall_forall in Dc. apply Dc, Hc. }
  destruct o as [results|?|?| |]; [left|right; apply BAD, X..].
  destruct X as (new & -> & F). exists new. split; [reflexivity|]. clear - G Dc F. induction F; constructor; inversion Dc; subst; auto.
  apply callsTo_correct; assumption.
Qed.

(** C50: goroutines that only call Split never end in a panic: they record the outcome of every call, and for valid arguments any
    [threshold] of the recorded shares combine to that call's own secret. *)
Lemma C50_concurrent_split_pf : forall ar growcap size callss tr s th calls o,
  grow_ok growcap -> Forall (Forall draws_ok) callss ->
  (forall c, In c (concat callss) -> exists perm stream secret parts threshold, c = CSplit perm stream secret parts threshold) ->
  gexec size (ginit 2 (map (fun calls => goroutine ar growcap calls []) callss)) tr s ->
  nth_error callss th = Some calls -> nth_error (g_threads s) th = Some (PDone o) ->
  exists results, o = Ret results /\ length results = length calls /\
    forall i perm stream secret parts threshold, nth_error calls i = Some (CSplit perm stream secret parts threshold) ->
      (forall e, arg_error secret parts threshold e <-> nth_error results i = Some (Fail e)) /\
      (valid_args secret parts threshold -> exists shares, nth_error results i = Some (Ret shares) /\ length shares = Z.to_nat parts /\
         forall is, selection (Z.to_nat parts) (Z.to_nat threshold) is -> Combine (pick [] shares is) = Ret secret).
Proof.
  intros ar growcap size callss tr s th calls o G D OS H P Q.
  assert (Dc : Forall draws_ok calls) by (rewrite Forall_forall in D; apply D; eapply nth_error_In, P).
  destruct (C50_concurrent_calls_pf _ _ _ _ _ _ _ _ _ G D H P Q) as [(results & -> & F)|(c & bad & Hc & Co & N1 & N2)].
  - exists results. split; [reflexivity|]. split; [symmetry; clear - F; induction F; cbn; congruence|]. intros i perm stream secret parts threshold Hi.
    assert (Dp : Permutation perm (seq 0 255)).
    { rewrite Forall_forall in Dc. apply (Dc (CSplit perm stream secret parts threshold)). eapply nth_error_In, Hi. }
    assert (R : nth_error results i = Some (Split ar growcap perm stream [] [] (fun _ => []) secret parts threshold)).
    { clear - F Hi. revert i Hi. induction F as [|c r cs rs Hcr F IH]; intros [|i] Hi; cbn [nth_error] in *; try discriminate.
      - injection Hi as ->. cbn [correct_outcome] in Hcr. congruence.
      - apply IH, Hi. }
    rewrite R. split.
    + intros e. rewrite <- (C03_split_errors_pf ar growcap perm stream [] [] (fun _ => []) secret parts threshold e G Dp). split; congruence.
    + intros V. destruct (C01_split_combine_pf ar growcap perm stream [] [] (fun _ => []) secret parts threshold G Dp V) as (shares & E & L & C).
      exists shares. rewrite E. repeat split; assumption.
  - exfalso. assert (Hcc : In c (concat callss)) by (apply in_concat; exists calls; split; [eapply nth_error_In, P|exact Hc]).
    destruct (OS c Hcc) as (perm & stream & secret & parts & threshold & ->). cbn [correct_outcome] in Co.
    assert (Dp : Permutation perm (seq 0 255)) by (rewrite Forall_forall in Dc; exact (Dc _ Hc)).
    destruct (checkArgs secret parts threshold) as [e|] eqn:Ck.
    + apply (N2 e). rewrite Co. unfold Split, SplitBufs. rewrite Ck. reflexivity.
    + apply valid_checkArgs in Ck. destruct (C01_split_combine_pf ar growcap perm stream [] [] (fun _ => []) secret parts threshold G Dp Ck) as (shares & E & _).
      apply (N1 shares). rewrite Co. exact E.
Qed.

(** C50: concurrent calls need no lock and come to an end: there is no infinite execution, no deadlock, and no race in the buffers. *)
Lemma C50_no_deadlock_pf : forall ar growcap size callss tr s,
  gexec size (ginit 2 (map (fun calls => goroutine ar growcap calls []) callss)) tr s ->
  Acc (fun s2 s1 => exists th ev, gstep size s1 th = Some (s2, ev)) s /\
  ((forall th, gstep size s th = None) -> forall th p, nth_error (g_threads s) th = Some p -> exists o, p = PDone o) /\
  (forall th th' p p' b, th <> th' -> nth_error (g_threads s) th = Some p -> nth_error (g_threads s) th' = Some p' ->
     touches p = Some b -> touches p' <> Some b).
Proof.
  intros ar growcap size callss tr s H. split; [exact (gnext_wf size s)|]. split.
  - intros N th p P. destruct p as [o|pl k|pl b k|b k|b n k|b i k|b i v k]; [exists o; reflexivity|exfalso..].
    all: edestruct (gstep_progress size s th _ P) as (s' & ev & St); [discriminate|]; rewrite N in St; discriminate.
  - intros th th' p p' b Nt P P'. exact (proj1 (C43_no_race_pf _ _ _ _ _ _ _ _ _ _ b (goroutines_ok ar growcap callss) H Nt P P')).
Qed.

(*COPY
(** Two goroutines, splitting "hello" in different ways, in strict alternation: both finish, with shares that combine. *)
Fixpoint ex_alternate {A} (fuel : nat) (s : gstate A) (th : nat) : gstate A :=
  match fuel with
  | O => s
  | Datatypes.S f => match gstep 4 s th with
    | Some (s', _) => ex_alternate f s' (1 - th)
    | None => match gstep 4 s (1 - th) with Some (s', _) => ex_alternate f s' th | None => s end
    end
  end.
Lemma ex_alternate_exec {A} fuel : forall (s0 s : gstate A) tr th, gexec 4 s0 tr s -> exists tr', gexec 4 s0 tr' (ex_alternate fuel s th).
Proof.
  induction fuel as [|f IH]; intros s0 s tr th H; cbn [ex_alternate]; [exists tr; exact H|].
  destruct (gstep 4 s th) as [[s' ev]|] eqn:E; [eapply IH, ge_snoc; eassumption|].
  destruct (gstep 4 s (1 - th)) as [[s' ev]|] eqn:E'; [eapply IH, ge_snoc; eassumption|exists tr; exact H].
Qed.
Definition ex_callss : list (list ccall) :=
  [[CSplit ex_perm ex_stream ex_secret 5 3; CSplit ex_perm ex_stream [] 5 3]; [CSplit (rev ex_perm) ex_stream (rev ex_secret) 4 2]].
Example C50_run : exists tr s,
  gexec 4 (ginit 2 (map (fun calls => goroutine ex_ar growcap117 calls []) ex_callss)) tr s /\
  match g_threads s with
  | [PDone (Ret [Ret sh0; Fail e]); PDone (Ret [Ret sh1])] =>
      Combine (pick [] sh0 [4; 0; 2]) = Ret ex_secret /\ e = EEmptySecret /\ Combine (pick [] sh1 [3; 1]) = Ret (rev ex_secret)
  | _ => False
  end.
Proof.
  destruct (ex_alternate_exec 2000 _ (ginit 2 (map (fun calls => goroutine ex_ar growcap117 calls []) ex_callss)) [] 0 (ge_nil _ _)) as (tr & H).
  exists tr. eexists. split; [exact H|]. vm_compute. repeat split.
Qed.
Example C50_draws : Forall (Forall draws_ok) ex_callss.
Proof.
  assert (R : Permutation (rev ex_perm) (seq 0 255)) by (symmetry; apply Permutation_rev).
  unfold ex_callss; repeat (apply Forall_cons || apply Forall_nil);
    first [exact ex_perm_ok | exact R].
Qed.
END*)
