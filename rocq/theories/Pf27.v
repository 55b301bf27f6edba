(** Proofs for C74. *)
(*PROPS
From Coq Require Import List NArith ZArith Lia Arith Bool Permutation.
From Coq.Init Require Import Byte.
From Verif Require Import GoSem Bytes Spec Vector Pool Shamir Krawczyk Concurrency SpecConc ConcAll SpecConcAll SpecPools ExData Pf27.
Import ListNotations.
*)
From Coq Require Import List NArith ZArith Lia Arith Bool Permutation.
From Coq.Init Require Import Byte.
From Verif Require Import GoSem Bytes Concurrency SpecConc ConcFacts ConcAll SpecConcAll SpecPools PoolFacts PoolMachine.
Import ListNotations.

Lemma clients_inv b size (clients : list (nat * (list (outcome result) -> option apicall))) tr s :
  gexec size (ginit 2 (map (fun cl => client b (fst cl) (snd cl) []) clients)) tr s -> exists H, inv size (length clients) tr s H.
Proof.
  intros X. eapply inv_exec; [|intros p Hp|exact X]; [apply map_length|]. apply in_map_iff in Hp as (cl & <- & _). apply pq_client.
Qed.

(** C74. At every moment of every execution, no goroutine has put more buffers into a pool than it got from it, and none has more than two buffers of the
    first pool and one of the second. *)
Lemma C74_bounded_pf : forall b size clients tr s th pl,
  gexec size (ginit 2 (map (fun cl => client b (fst cl) (snd cl) []) clients)) tr s ->
  puts tr th pl <= gets tr th pl <= puts tr th pl + most pl.
Proof.
  intros b size clients tr s th pl X. destruct (clients_inv _ _ _ _ _ X) as (H & I). rewrite (i_cnt _ _ _ _ _ I th pl).
  destruct (nth_error H th) as [h|] eqn:E.
  - rewrite (nth_error_nth H th [] E). pose proof (i_lim _ _ _ _ _ I th h pl E). lia.
  - rewrite nth_overflow by (apply nth_error_None, E). cbn. lia.
Qed.

(** C74: a goroutine that has come to the end of its calls, whether they returned shares or errors, has put back every buffer it got, into the pool
    it got it from. *)
Lemma C74_no_leak_pf : forall b size clients tr s th o pl,
  gexec size (ginit 2 (map (fun cl => client b (fst cl) (snd cl) []) clients)) tr s ->
  nth_error (g_threads s) th = Some (PDone o) -> ~ fatal o -> gets tr th pl = puts tr th pl.
Proof.
  intros b size clients tr s th o pl X P F. destruct (clients_inv _ _ _ _ _ X) as (H & I). rewrite (i_cnt _ _ _ _ _ I th pl).
  destruct (nth_error H th) as [h|] eqn:E.
  - rewrite (nth_error_nth H th [] E). destruct (i_pq _ _ _ _ _ I th _ h P E) as [K| ->]; [contradiction|]. cbn. lia.
  - rewrite nth_overflow by (apply nth_error_None, E). cbn. lia.
Qed.

(** C74: a buffer stays with one pool: it is never taken from one pool and put into the other. *)
Lemma C74_own_pool_pf : forall b size clients tr s t t' ev ev' pl pl' buf,
  gexec size (ginit 2 (map (fun cl => client b (fst cl) (snd cl) []) clients)) tr s ->
  In (t, ev) tr -> In (t', ev') tr -> about ev = Some (pl, buf) -> about ev' = Some (pl', buf) -> pl = pl'.
Proof.
  intros b size clients tr s t t' ev ev' pl pl' buf X H1 H2 A1 A2. destruct (clients_inv _ _ _ _ _ X) as (H & I).
  exact (i_own _ _ _ _ _ I pl pl' buf (i_ev _ _ _ _ _ I _ _ _ _ H1 A1) (i_ev _ _ _ _ _ I _ _ _ _ H2 A2)).
Qed.

(** C74: however many calls are made, the buffers allocated for a pool and not dropped again are at most two (for the second pool: one) per goroutine;
    and when the pool has room for that many, none is ever dropped, so that no more than that many are ever allocated. *)
Lemma C74_no_growth_pf : forall b size clients tr s pl,
  gexec size (ginit 2 (map (fun cl => client b (fst cl) (snd cl) []) clients)) tr s ->
  NoDup (created tr pl) /\ length (created tr pl) <= length (dropped tr pl) + most pl * length clients /\
  (most pl * length clients <= size -> dropped tr pl = [] /\ length (created tr pl) <= most pl * length clients).
Proof.
  intros b size clients tr s pl X. destruct (clients_inv _ _ _ _ _ X) as (H & I). pose proof (i_few _ _ _ _ _ I pl) as F. split; [apply (i_nodup _ _ _ _ _ I)|]. split; [exact F|].
  intros Hs. pose proof (i_drop _ _ _ _ _ I pl Hs) as D. rewrite D in F. split; [exact D|]. exact F.
Qed.

(** C74: when all goroutines have come to the end of their calls, every buffer that was allocated for a pool is in that pool, once, unless it was dropped. *)
Lemma C74_all_back_pf : forall b size clients tr s pl,
  gexec size (ginit 2 (map (fun cl => client b (fst cl) (snd cl) []) clients)) tr s ->
  (forall th p, nth_error (g_threads s) th = Some p -> exists o, p = PDone o /\ ~ fatal o) ->
  Permutation (created tr pl) (nth pl (g_pools s) [] ++ dropped tr pl).
Proof.
  intros b size clients tr s pl X D. destruct (clients_inv _ _ _ _ _ X) as (H & I). rewrite (i_perm _ _ _ _ _ I pl).
  assert (E : concat H = []).
  { assert (A : forall h, In h H -> h = []).
    { intros h Hh. apply In_nth_error in Hh as (th & E). destruct (i_len _ _ _ _ _ I) as (L & _ & _).
      destruct (nth_error (g_threads s) th) as [p|] eqn:P; [|apply nth_error_None in P; assert (th < length H) by (apply nth_error_Some; rewrite E; discriminate); lia].
      destruct (D th p P) as (o & -> & F). destruct (i_pq _ _ _ _ _ I th _ h P E) as [K| ->]; [contradiction|reflexivity]. }
    clear - A. induction H as [|h H IH]; [reflexivity|]. cbn [concat]. rewrite (A h (or_introl eq_refl)). apply IH. intros g Hg. apply A. right. exact Hg. }
  rewrite E. cbn. rewrite app_nil_r. reflexivity.
Qed.

(*COPY
(** Two goroutines taking turns, the pools of size 1: both split with SplitWithRandomizer; the second then asks for an impossible threshold. Four buffers are
    allocated for the first pool and three for the second; at the end each pool holds one, the others were dropped when the pool was full. *)
Definition ex_pool_build : build := {| b_arch := ArchGeneric; b_grow := growcap117; b_cipher := fun key blk => blk; b_zp := true; b_rd := fun _ => 3 |}.
Definition ex_pool_clients : list (nat * (list (outcome result) -> option apicall)) :=
  [(1, fun rs => Some (ASplitWithRandomizer 100 ex_stream [x61] 2 2));
   (2, fun rs => match rs with [] => Some (ASplitWithRandomizer 100 ex_stream [x62] 2 2) | _ => Some (ASplitWithRandomizer 100 ex_stream [x61] 3 9) end)].
Fixpoint ex_pool_turns {A} (fuel : nat) (tr : history) (s : gstate A) (th : nat) : history * gstate A :=
  match fuel with
  | O => (tr, s)
  | Datatypes.S f => match gstep 1 s th with Some (s', ev) => ex_pool_turns f (tr ++ [(th, ev)]) s' ((th + 1) mod 2) | None => ex_pool_turns f tr s ((th + 1) mod 2) end
  end.
Lemma ex_pool_exec {A} fuel : forall (s0 s : gstate A) tr th, gexec 1 s0 tr s -> let (tr', s') := ex_pool_turns fuel tr s th in gexec 1 s0 tr' s'.
Proof.
  induction fuel as [|f IH]; intros s0 s tr th H; cbn [ex_pool_turns]; [exact H|].
  destruct (gstep 1 s th) as [[s' ev]|] eqn:E; [apply IH; eapply ge_snoc; eassumption|apply IH, H].
Qed.
Example C74_run : exists tr s,
  gexec 1 (ginit 2 (map (fun cl => client ex_pool_build (fst cl) (snd cl) []) ex_pool_clients)) tr s /\
  (forall th p, nth_error (g_threads s) th = Some p -> exists o, p = PDone o /\ ~ fatal o) /\
  length (created tr 0) = 4 /\ length (created tr 1) = 3 /\ length (dropped tr 0) = 3 /\ length (dropped tr 1) = 2 /\ map (@length nat) (g_pools s) = [1; 1] /\
  gets tr 0 0 = 2 /\ gets tr 1 1 = 2.
Proof.
  pose proof (ex_pool_exec 200 _ (ginit 2 (map (fun cl => client ex_pool_build (fst cl) (snd cl) []) ex_pool_clients)) [] 0 (ge_nil _ _)) as H.
  destruct (ex_pool_turns 200 _ _ _) as (tr, s) eqn:E in H. exists tr, s. split; [exact H|]. revert E. vm_compute. intros E. injection E as <- <-.
  split; [|repeat split]. intros [|[|th]] p P; cbn in P; [injection P as <-..|destruct th; discriminate]; eexists; (split; [reflexivity|intros []]).
Qed.
END*)
