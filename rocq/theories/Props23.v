(** Proofs about concurrent use of the whole library (C70).
    Generated from Pf23.v by tools/genprops.py: every theorem is proved there as the lemma of the same name with suffix _pf. *)
From Coq Require Import List NArith ZArith Lia Arith Bool Permutation.
From Coq.Init Require Import Byte.
From Verif Require Import GoSem Bytes Spec SpecKr Vector Csprng Pool Polynomial Shamir Libs AES Krawczyk Concurrency SpecConc ConcAll SpecConcAll ExData Pf23.
Import ListNotations.

(** C70. Any number of goroutines, each making any number of calls of any of the functions, with arguments that may depend on what its earlier calls
    returned, over the shared pools and in any interleaving: when a goroutine is done, each call it made has returned what it returns when it is
    made alone, and it has stopped because it wanted to or because its next call panics, or hangs, also when made alone. *)
Theorem C70_concurrent_api : forall b size clients tr s th n next o,
  grow_ok (b_grow b) ->
  (forall n next, In (n, next) clients -> forall results c, next results = Some c -> api_draws_ok c) ->
  gexec size (ginit 2 (map (fun cl => client b (fst cl) (snd cl) []) clients)) tr s ->
  nth_error clients th = Some (n, next) -> nth_error (g_threads s) th = Some (PDone o) ->
  exists results calls, calls_made next [] results = Some calls /\ Forall (fun co => correct_answer b (fst co) (snd co)) calls /\
    ((o = Ret results /\ (length results = n \/ next results = None)) \/
     (exists c bad, length results < n /\ next results = Some c /\ correct_answer b c bad /\ fatal bad /\ fatal o)).
Proof. exact C70_concurrent_api_pf. Qed.
Print Assumptions C70_concurrent_api.

(** C70: there is no infinite execution, no deadlock, and no race in the pool buffers. *)
Theorem C70_no_deadlock : forall b size clients tr s,
  gexec size (ginit 2 (map (fun cl => client b (fst cl) (snd cl) []) clients)) tr s ->
  Acc (fun s2 s1 => exists th ev, gstep size s1 th = Some (s2, ev)) s /\
  ((forall th, gstep size s th = None) -> forall th p, nth_error (g_threads s) th = Some p -> exists o, p = PDone o) /\
  (forall th th' p p' b, th <> th' -> nth_error (g_threads s) th = Some p -> nth_error (g_threads s) th' = Some p' ->
     touches p = Some b -> touches p' <> Some b).
Proof. exact C70_no_deadlock_pf. Qed.
Print Assumptions C70_no_deadlock.

(** Three goroutines: one splits "hello" with krawczyk.Split and combines three of the shares it got; one splits with SplitWithRandomizerOld
    and combines; one asks SplitGeneric for too many parts and then regenerates. A run in which they take turns. *)
Definition ex_build : build := {| b_arch := ArchGeneric; b_grow := growcap117; b_cipher := fun key blk => map (bxor x5a) blk; b_zp := true; b_rd := fun _ => 3 |}.
Definition ex_clients : list (nat * (list (outcome result) -> option apicall)) :=
  [(2, fun rs => match rs with
       | [] => Some (AKrSplit ex_stream ex_perm ex_stream ex_secret 5 3)
       | [Ret (RShares sh)] => Some (AKrCombine (map (fun s => Some (s, [])) (pick [] sh [4; 0; 2])) 5 3)
       | _ => None end);
   (9, fun rs => match rs with
       | [] => Some (ASplitWithRandomizerOld ex_stream (rev ex_secret) 4 2)
       | [Ret (RShares sh)] => Some (ACombine (pick [] sh [3; 1]))
       | _ => None end);
   (9, fun rs => match rs with
       | [] => Some (ASplitGeneric ex_perm ex_stream ex_secret 500 3)
       | [_] => Some (ASplitWithRandomizer 100 ex_stream ex_secret 4 3)
       | _ => None end)].
Fixpoint ex_turns {A} (fuel : nat) (s : gstate A) (th : nat) : gstate A :=
  match fuel with
  | O => s
  | Datatypes.S f => match gstep 4 s th with Some (s', _) => ex_turns f s' ((th + 1) mod 3) | None => ex_turns f s ((th + 1) mod 3) end
  end.
Lemma ex_turns_exec {A} fuel : forall (s0 s : gstate A) tr th, gexec 4 s0 tr s -> exists tr', gexec 4 s0 tr' (ex_turns fuel s th).
Proof.
  induction fuel as [|f IH]; intros s0 s tr th H; cbn [ex_turns]; [exists tr; exact H|].
  destruct (gstep 4 s th) as [[s' ev]|] eqn:E; [eapply IH, ge_snoc; eassumption|eapply IH, H].
Qed.
Example C70_run : exists tr s,
  gexec 4 (ginit 2 (map (fun cl => client ex_build (fst cl) (snd cl) []) ex_clients)) tr s /\
  match g_threads s with
  | [PDone (Ret [Ret (RShares _); Ret (RSecret a)]); PDone (Ret [Ret (RShares _); Ret (RSecret b)]); PDone (Ret [Fail e; Ret (RShares _)])] =>
      a = ex_secret /\ b = rev ex_secret /\ e = EPartsTooMany
  | _ => False
  end.
Proof.
  destruct (ex_turns_exec 4000 _ (ginit 2 (map (fun cl => client ex_build (fst cl) (snd cl) []) ex_clients)) [] 0 (ge_nil _ _)) as (tr & H).
  exists tr. eexists. split; [exact H|]. vm_compute. repeat split.
Qed.
Example C70_draws : forall n next, In (n, next) ex_clients -> forall results c, next results = Some c -> api_draws_ok c.
Proof.
  intros n next [E | [E | [E | []]]]; injection E as _ <-; intros [|[[sh|sec]|e|p| |] [|r rs]] c H; try discriminate; injection H as <-; try exact I; exact ex_perm_ok.
Qed.
