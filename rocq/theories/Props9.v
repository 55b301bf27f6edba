(** Theorems: the properties of the buffer pool and of concurrent calls (C43, C50).
    Generated from Pf9.v by tools/genprops.py: every theorem is proved there as the lemma of the same name with suffix _pf. *)
From Coq Require Import List NArith ZArith Lia Arith Bool Permutation.
From Coq.Init Require Import Byte.
From Verif Require Import GoSem Bytes Spec Vector Csprng Pool Polynomial Shamir Concurrency SpecConc ExData Pf9.
Import ListNotations.

(** C43: a pool made with [NewBytesBufferPool(size)] never holds more buffers than [size], or NumCPU*1024 when [size <= 0],
    whatever the goroutines do. *)
Theorem C43_bounded : forall (A : Type) (numCPU sizeArg : Z) np (threads : list (prog A)) tr s,
  (1 <= numCPU)%Z ->
  gexec (Z.to_nat (poolSize numCPU sizeArg)) (ginit np threads) tr s ->
  forall pl, (Z.of_nat (length (nth pl (g_pools s) [])) <= if (0 <? sizeArg)%Z then sizeArg else numCPU * 1024)%Z.
Proof. exact C43_bounded_pf. Qed.
Print Assumptions C43_bounded.

(** C43: no operation ever blocks: a goroutine that has not finished can take its next step in every reachable state. *)
Theorem C43_never_blocks : forall (A : Type) size np (threads : list (prog A)) tr s th p,
  gexec size (ginit np threads) tr s -> nth_error (g_threads s) th = Some p -> (forall o, p <> PDone o) ->
  exists s' ev, gstep size s th = Some (s', ev).
Proof. exact C43_never_blocks_pf. Qed.
Print Assumptions C43_never_blocks.

(** C43: FIFO. The buffers taken out of a pool so far are the buffers stored so far, in the same order, up to those still in it. *)
Theorem C43_fifo : forall (A : Type) size np (threads : list (prog A)) tr s pl,
  gexec size (ginit np threads) tr s -> pl < np ->
  stored pl tr = taken pl tr ++ nth pl (g_pools s) [].
Proof. exact C43_fifo_pf. Qed.
Print Assumptions C43_fifo.

(** C43: what a step at a pool tells about the history: a Get that hits takes the oldest stored buffer; a Get that misses happens
    when everything stored has been taken, and delivers a buffer never seen before; a Put stores unless the pool holds [size] buffers. *)
Theorem C43_operations : forall (A : Type) size np (threads : list (prog A)) tr th ev s,
  Forall (well_behaved []) threads ->
  gexec size (ginit np threads) (tr ++ [(th, ev)]) s ->
  match ev with
  | EvHit pl b => pl < np -> exists rest, stored pl tr = taken pl tr ++ b :: rest
  | EvMiss pl b => (pl < np -> stored pl tr = taken pl tr) /\ ~ occurs b tr
  | EvPut pl b => (pl < np -> length (stored pl tr) < length (taken pl tr) + size) /\ In b (heldBy tr th)
  | EvDrop pl b => (pl < np -> length (stored pl tr) = length (taken pl tr) + size) /\ In b (heldBy tr th)
  | EvLocal => True
  end.
Proof. exact C43_operations_pf. Qed.
Print Assumptions C43_operations.

(** C43: if every client puts back and accesses only buffers it holds, then in every reachable state no buffer is held by two
    clients, or both pooled and held, or pooled twice. *)
Theorem C43_exclusive : forall (A : Type) size np (threads : list (prog A)) tr s,
  Forall (well_behaved []) threads -> gexec size (ginit np threads) tr s -> exclusive tr s.
Proof. exact C43_exclusive_pf. Qed.
Print Assumptions C43_exclusive.

(** C43: then there is no data race: the next operations of two goroutines never touch the same buffer, and a goroutine's step leaves the
    contents of the buffers that others hold unchanged. *)
Theorem C43_no_race : forall (A : Type) size np (threads : list (prog A)) tr s th th' p p' b,
  Forall (well_behaved []) threads -> gexec size (ginit np threads) tr s -> th <> th' ->
  nth_error (g_threads s) th = Some p -> nth_error (g_threads s) th' = Some p' ->
  (touches p = Some b -> touches p' <> Some b) /\
  (In b (heldBy tr th') -> forall s' ev, gstep size s th = Some (s', ev) -> nth b (g_bufs s') [] = nth b (g_bufs s) []).
Proof. exact C43_no_race_pf. Qed.
Print Assumptions C43_no_race.

(** C43: and every client computes what it computes alone: a finished goroutine has an outcome it can have when it runs with private buffers. *)
Theorem C43_isolated : forall (A : Type) size np (threads : list (prog A)) tr s th p o,
  Forall (well_behaved []) threads -> gexec size (ginit np threads) tr s ->
  nth_error threads th = Some p -> nth_error (g_threads s) th = Some (PDone o) -> returns_alone p o.
Proof. exact C43_isolated_pf. Qed.
Print Assumptions C43_isolated.

(** Two clients that get a buffer, write to it, and put it back: a run in which they alternate. *)
Definition ex_client (v : byte) : prog byte :=
  PGet 0 (fun b => PAlloc b 2 (PStore b 1 v (PLoad b 1 (fun r => PPut 0 b (PDone (Ret r)))))).
Definition ex_run {A} (size : nat) (s : gstate A) (ths : list nat) : option (gstate A * list (nat * event)) :=
  fold_left (fun acc th => match acc with
    | Some (s, tr) => match gstep size s th with Some (s', ev) => Some (s', tr ++ [(th, ev)]) | None => None end
    | None => None end) ths (Some (s, [])).
Example C43_clients_ok : Forall (well_behaved []) [ex_client x05; ex_client x06; ex_client x07].
Proof. repeat constructor; cbn; intros; repeat split; auto. Qed.
(** goroutines 0 and 1 overlap and get different buffers; 2 comes later and gets the one put back first; with a pool of size 1
    the second Put is dropped *)
Example C43_run :
  match ex_run 1 (ginit 1 [ex_client x05; ex_client x06; ex_client x07]) [0; 1; 0; 1; 1; 0; 1; 0; 1; 0; 2] with
  | Some (s, tr) =>
      filter (fun '(_, ev) => match ev with EvLocal => false | _ => true end) tr =
        [(0, EvMiss 0 0); (1, EvMiss 0 1); (1, EvPut 0 1); (0, EvDrop 0 0); (2, EvHit 0 1)] /\
      heldBy tr 2 = [1] /\ firstn 2 (g_threads s) = [PDone (Ret x05); PDone (Ret x06)]
  | None => False end.
Proof. vm_compute. repeat split. Qed.
(** a client that puts a buffer back twice breaks the rule, and exclusiveness fails *)
Definition ex_bad : prog byte := PGet 0 (fun b => PPut 0 b (PPut 0 b (PDone (Ret x00)))).
Example C43_bad_client :
  match ex_run 8 (ginit 1 [ex_bad; ex_client x06; ex_client x07]) [0; 0; 0; 1; 2] with
  | Some (s, tr) => heldBy tr 1 = [0] /\ heldBy tr 2 = [0]
  | None => False end.
Proof. vm_compute. split; reflexivity. Qed.

(** C50: any number of goroutines, each making any sequence of Split and SplitWithRandomizer calls over the shared pools, in any
    interleaving: when a goroutine is done, each of its calls has returned what it returns when it is made alone; the only other way it can
    have ended is that one of its calls panics, or hangs, also when made alone. *)
Theorem C50_concurrent_calls : forall ar growcap size callss tr s th calls o,
  grow_ok growcap -> Forall (Forall draws_ok) callss ->
  gexec size (ginit 2 (map (fun calls => goroutine ar growcap calls []) callss)) tr s ->
  nth_error callss th = Some calls -> nth_error (g_threads s) th = Some (PDone o) ->
  (exists results, o = Ret results /\ Forall2 (correct_outcome ar growcap) calls results) \/
  (exists c bad, In c calls /\ correct_outcome ar growcap c bad /\ (forall r, bad <> Ret r) /\ (forall e, bad <> Fail e)).
Proof. exact C50_concurrent_calls_pf. Qed.
Print Assumptions C50_concurrent_calls.

(** C50: goroutines that only call Split never end in a panic: they record the outcome of every call, and for valid arguments any
    [threshold] of the recorded shares combine to that call's own secret. *)
Theorem C50_concurrent_split : forall ar growcap size callss tr s th calls o,
  grow_ok growcap -> Forall (Forall draws_ok) callss ->
  (forall c, In c (concat callss) -> exists perm stream secret parts threshold, c = CSplit perm stream secret parts threshold) ->
  gexec size (ginit 2 (map (fun calls => goroutine ar growcap calls []) callss)) tr s ->
  nth_error callss th = Some calls -> nth_error (g_threads s) th = Some (PDone o) ->
  exists results, o = Ret results /\ length results = length calls /\
    forall i perm stream secret parts threshold, nth_error calls i = Some (CSplit perm stream secret parts threshold) ->
      (forall e, arg_error secret parts threshold e <-> nth_error results i = Some (Fail e)) /\
      (valid_args secret parts threshold -> exists shares, nth_error results i = Some (Ret shares) /\ length shares = Z.to_nat parts /\
         forall is, selection (Z.to_nat parts) (Z.to_nat threshold) is -> Combine (pick [] shares is) = Ret secret).
Proof. exact C50_concurrent_split_pf. Qed.
Print Assumptions C50_concurrent_split.

(** C50: concurrent calls need no lock and come to an end: there is no infinite execution, no deadlock, and no race in the buffers. *)
Theorem C50_no_deadlock : forall ar growcap size callss tr s,
  gexec size (ginit 2 (map (fun calls => goroutine ar growcap calls []) callss)) tr s ->
  Acc (fun s2 s1 => exists th ev, gstep size s1 th = Some (s2, ev)) s /\
  ((forall th, gstep size s th = None) -> forall th p, nth_error (g_threads s) th = Some p -> exists o, p = PDone o) /\
  (forall th th' p p' b, th <> th' -> nth_error (g_threads s) th = Some p -> nth_error (g_threads s) th' = Some p' ->
     touches p = Some b -> touches p' <> Some b).
Proof. exact C50_no_deadlock_pf. Qed.
Print Assumptions C50_no_deadlock.

(** Two goroutines, splitting "hello" in different ways, in strict alternation: both finish, with shares that combine. *)
Fixpoint ex_alternate {A} (fuel : nat) (s : gstate A) (th : nat) : gstate A :=
  match fuel with
  | O => s
  | Datatypes.S f => match gstep 4 s th with
    | Some (s', _) => ex_alternate f s' (1 - th)
    | None => match gstep 4 s (1 - th) with Some (s', _) => ex_alternate f s' th | None => s end
    end
  end.
Lemma ex_alternate_exec {A} fuel : forall (s0 s : gstate A) tr th, gexec 4 s0 tr s -> exists tr', gexec 4 s0 tr' (ex_alternate fuel s th).
Proof.
  induction fuel as [|f IH]; intros s0 s tr th H; cbn [ex_alternate]; [exists tr; exact H|].
  destruct (gstep 4 s th) as [[s' ev]|] eqn:E; [eapply IH, ge_snoc; eassumption|].
  destruct (gstep 4 s (1 - th)) as [[s' ev]|] eqn:E'; [eapply IH, ge_snoc; eassumption|exists tr; exact H].
Qed.
Definition ex_callss : list (list ccall) :=
  [[CSplit ex_perm ex_stream ex_secret 5 3; CSplit ex_perm ex_stream [] 5 3]; [CSplit (rev ex_perm) ex_stream (rev ex_secret) 4 2]].
Example C50_run : exists tr s,
  gexec 4 (ginit 2 (map (fun calls => goroutine ex_ar growcap117 calls []) ex_callss)) tr s /\
  match g_threads s with
  | [PDone (Ret [Ret sh0; Fail e]); PDone (Ret [Ret sh1])] =>
      Combine (pick [] sh0 [4; 0; 2]) = Ret ex_secret /\ e = EEmptySecret /\ Combine (pick [] sh1 [3; 1]) = Ret (rev ex_secret)
  | _ => False
  end.
Proof.
  destruct (ex_alternate_exec 2000 _ (ginit 2 (map (fun calls => goroutine ex_ar growcap117 calls []) ex_callss)) [] 0 (ge_nil _ _)) as (tr & H).
  exists tr. eexists. split; [exact H|]. vm_compute. repeat split.
Qed.
Example C50_draws : Forall (Forall draws_ok) ex_callss.
Proof.
  assert (R : Permutation (rev ex_perm) (seq 0 255)) by (symmetry; apply Permutation_rev).
  unfold ex_callss; repeat (apply Forall_cons || apply Forall_nil);
    first [exact ex_perm_ok | exact R].
Qed.
