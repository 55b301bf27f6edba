(** Proofs about concurrent calls on the shared random source (C71). *)
From Coq Require Import List NArith ZArith Lia Arith Bool Permutation.
From Coq.Init Require Import Byte.
From Verif Require Import GoSem Bytes Spec SpecKr Vector Csprng Pool Polynomial Shamir SplitP SplitPFacts SplitPMore SplitPTop Libs Krawczyk MathRand MathRandFacts RandAttack SpecRand ConcRand SpecConcRand ConcRandFacts ConcRandSecret
  ConcRandSafe ConcRandEnd Pf1 Pf2 Pf6.
Import ListNotations.

(*PROPS
From Coq Require Import List NArith ZArith Lia Arith Bool Permutation.
From Coq.Init Require Import Byte.
From Verif Require Import GoSem Bytes Spec SpecKr Vector Csprng Pool Polynomial Shamir SplitP Libs AES Krawczyk MathRand SpecRand ConcRand SpecConcRand ExData Pf24.
Import ListNotations.
*)

(** C71, results: any number of goroutines draw from the random source, which may be in any state; goroutine [i] is a client that makes up to
    [n] calls, the others are arbitrary programs (they too may draw words, read bytes, and even seed the source anew). Whatever the
    interleaving, if the client has come to its end, it made its calls one after the other as [next] says, and each of them had an outcome it
    can have when it is alone, for some permutation of 0..254 and some bytes. *)
Lemma C71_results_pf : forall b n next cooked r threads sched s i o,
  rrun cooked {| z_rng := r; z_threads := threads |} sched s ->
  nth_error threads i = Some (rClient b n next []) ->
  nth_error (z_threads s) i = Some (RDone o) ->
  exists results calls, o = Ret results /\ calls_of next [] results = Some calls /\
    client_complete n next results /\ forall c oc, In (c, oc) calls -> ordinary b c oc.
Proof.
  intros b n next cooked r threads sched s i o H Hi Ho.
  destruct (client_results b n next cooked _ sched s i o H Hi Ho) as (results & l & E & Hc & F & C).
  exists results, l. split; [exact E|]. split; [exact Hc|]. split; [exact C|]. intros c oc Hin. rewrite Forall_forall in F. exact (F (c, oc) Hin).
Qed.

(** C71, results: an outcome a Split can have when it is alone, with valid arguments, is a list of shares from which enough of them give the
    secret back. *)
Lemma C71_split_ordinary_pf : forall b secret parts threshold o,
  grow_ok (e_grow b) -> valid_args secret parts threshold ->
  ordinary b (XSplit secret parts threshold) o \/ ordinary b (XSplitGeneric secret parts threshold) o ->
  exists shares, o = Ret shares /\ length shares = Z.to_nat parts /\
    forall is, selection (Z.to_nat parts) (Z.to_nat threshold) is -> Combine (pick [] shares is) = Ret secret.
Proof.
  intros b secret parts threshold o G V [(perm & stream & P & ->)|(perm & stream & P & ->)].
  - exact (C01_split_combine_pf (e_arch b) (e_grow b) perm stream [] [] (fun _ => []) secret parts threshold G P V).
  - exact (C11_generic_combine_pf perm stream secret parts threshold P V).
Qed.

(** ... the same for SplitP, if the schedule of its goroutines brings it to its end. *)
Lemma C71_splitp_ordinary_pf : forall b sched secret parts threshold shares,
  (N.of_nat (length secret) <= 4294967296 - 1024)%N ->
  ordinary b (XSplitP sched secret parts threshold) (Ret shares) ->
  length shares = Z.to_nat parts /\
  forall is, selection (Z.to_nat parts) (Z.to_nat threshold) is -> Combine (pick [] shares is) = Ret secret.
Proof.
  intros b sched secret parts threshold shares HL H. cbn [ordinary] in H. destruct (checkArgs secret parts threshold) eqn:E; [discriminate|].
  destruct H as (perm & stream & P & H). destruct (SplitPRun perm stream secret parts threshold sched) as [o'|] eqn:R; [|discriminate]. subst o'.
  apply SplitPRun_spec in R. destruct (C12_any_schedule_pf perm stream secret parts threshold sched shares P HL R) as (A & _ & _ & B). auto.
Qed.

(** ... and for krawczyk.Split with krawczyk.Combine. *)
Lemma C71_krawczyk_ordinary_pf : forall b rd secret parts threshold o,
  (forall i, 0 < rd i) -> grow_ok (e_grow b) -> kr_valid_args (e_zp b) secret parts threshold ->
  ordinary b (XKrSplit secret parts threshold) o ->
  exists shares, o = Ret shares /\ length shares = Z.to_nat parts /\
    forall ss is, selection (Z.to_nat parts) (Z.to_nat threshold) is -> somes ss = pick [] shares is ->
      krCombine (e_cipher b) (e_zp b) rd ss parts threshold = Ret secret.
Proof.
  intros b rd secret parts threshold o Hrd G V (krand & perm & stream & P & ->).
  exact (C32_split_combine_pf (e_cipher b) (e_zp b) rd (e_arch b) (e_grow b) krand perm stream [] [] (fun _ => []) secret parts threshold Hrd G P V).
Qed.

(** C71, progress: goroutines that make finitely many calls of Split, SplitGeneric, SplitP, krawczyk.Split and NewCSPRNG on a source that was
    seeded and then used in any way come to their end under every schedule: no infinite sequence of turns can be carried out, and as long as
    a goroutine is not finished it can take a turn. *)
Lemma C71_all_end_pf : forall cooked r threads,
  length cooked = 607 -> reachable cooked r ->
  (forall p, In p threads -> exists b n next, p = rClient b n next [] /\ forall results shares num, next results <> Some (XRegenerate shares num)) ->
  (forall turns : nat -> nat, exists m, forall s, ~ rrun cooked {| z_rng := r; z_threads := threads |} (map turns (seq 0 m)) s) /\
  (forall sched s i p, rrun cooked {| z_rng := r; z_threads := threads |} sched s -> nth_error (z_threads s) i = Some p ->
     (exists o, p = RDone o) \/ exists s', rrun cooked s [i] s').
Proof.
  intros cooked r threads L R H. split.
  - apply (allEnd_stops cooked threads); [|exact (reach_wf cooked r L R)]. apply allEnd_all. apply Forall_forall. intros p Hp.
    destruct (H p Hp) as (b & n & next & -> & Hn). apply ends_client. exact Hn.
  - intros sched s i p _ Hi. destruct s as [r1 ts]. cbn [z_threads] in Hi. destruct p as [o|k|l k|sd k]; [left; eauto|right..].
    + destruct (rngInt63 r1) as [x r2] eqn:E. eexists. eapply rr_step; [exact Hi|cbn [rop]; rewrite E; reflexivity|apply rr_nil].
    + destruct (rngRead l r1) as [x r2] eqn:E. eexists. eapply rr_step; [exact Hi|cbn [rop]; rewrite E; reflexivity|apply rr_nil].
    + eexists. eapply rr_step; [exact Hi|reflexivity|apply rr_nil].
Qed.

(** C71: alone, Split draws from the source as the sequential function does (C51): it returns the same shares and leaves the source in the same
    state. *)
Lemma C71_alone_pf : forall cooked fuel ar growcap polB trB evBufs r secret parts threshold shares r',
  grow_ok growcap ->
  SplitRand fuel ar growcap polB trB evBufs r secret parts threshold = Ret (shares, r') ->
  exists sched, rrun cooked {| z_rng := r; z_threads := [rSplit ar growcap secret parts threshold RDone] |} sched
    {| z_rng := r'; z_threads := [RDone (Ret shares)] |}.
Proof.
  intros cooked fuel ar growcap polB trB evBufs r secret parts threshold shares r' G H.
  exact (leads_split cooked fuel ar growcap polB trB evBufs r secret parts threshold shares r' RDone r' (RDone (Ret shares)) G H (leads_refl cooked r' _)).
Qed.

(** C71, secrecy: an attacker starts goroutines that split one of two secrets of its choice, decides at every moment which goroutine makes its
    next draw, sees all words drawn for the permutations, the size of every read and, once a goroutine is finished, the shares it asked for
    (fewer than the threshold, unless the two secrets are equal); everything it does may depend on what it saw. The bytes that are read come
    from an ideal source of [M] bytes, enough for all reads. Then whatever the attacker concludes after [n] actions, it concludes for equally
    many random strings when the left secrets are split and when the right ones are. *)
Lemma C71_secrecy_pf : forall ar growcap words att conclude n B M,
  grow_ok growcap ->
  (forall h q, att h = Begin q -> fair_request q /\ Z.to_nat (q_threshold q) * length (q_left q) <= B) -> n * B <= M ->
  count (fun r => conclude (game ar growcap true att n (fresh_world words r) [])) (all_strings M) =
  count (fun r => conclude (game ar growcap false att n (fresh_world words r) [])) (all_strings M).
Proof.
  intros ar growcap words att conclude n B M G F HM. unfold fresh_world. apply (game_equal ar growcap G att conclude B); [|constructor|exact HM].
  intros h. destruct (att h) as [q|i] eqn:E; [|exact I]. exact (F h q E).
Qed.

(*COPY
(** Two clients on one generator: one splits twice and regenerates, the other splits with krawczyk; a third program seeds the generator
    anew in between. Their draws alternate; both clients end with shares. *)
Definition ex_setup : setup := {| e_arch := ex_ar; e_grow := growcap117; e_cipher := fun key blk => map (bxor x5a) blk; e_zp := true |}.
Definition ex_table : list N := map (fun i => (N.of_nat i * N.of_nat i + 1)%N) (seq 1 607).
Definition ex_threads : list (rprog outcomes) :=
  [rClient ex_setup 3 (fun rs => match rs with
       | [] => Some (XSplit ex_secret 5 3)
       | [Ret shares] => Some (XRegenerate (pick [] shares [4; 0; 2]) 2)
       | [_; _] => Some (XSplitP [0; 1; 0; 1; 1; 1; 1; 1; 1; 1; 1; 0] [x68; x69] 2 2)
       | _ => None end) [];
   rClient ex_setup 9 (fun rs => match rs with [] => Some (XKrSplit ex_secret 4 2) | [_] => Some XNewCSPRNG | _ => None end) [];
   RInt63 (fun x => RSeed (Z.of_N x) (RDone (Ret [])))].
Fixpoint ex_turns (fuel : nat) (s : rstate outcomes) (th : nat) : rstate outcomes :=
  match fuel with
  | O => s
  | S f => match nth_error (z_threads s) th with
    | Some p => match rop ex_table p (z_rng s) with
      | Some (p', r') => ex_turns f {| z_rng := r'; z_threads := firstn th (z_threads s) ++ p' :: skipn (S th) (z_threads s) |} ((th + 1) mod 3)
      | None => ex_turns f s ((th + 1) mod 3)
      end
    | None => s
    end
  end.
Lemma ex_turns_run fuel : forall s th, exists sched, rrun ex_table s sched (ex_turns fuel s th).
Proof.
  induction fuel as [|f IH]; intros s th; cbn [ex_turns]; [exists []; constructor|].
  destruct (nth_error (z_threads s) th) as [p|] eqn:E; [|exists []; constructor].
  destruct (rop ex_table p (z_rng s)) as [[p' r']|] eqn:Eo; [|apply IH].
  destruct (IH {| z_rng := r'; z_threads := firstn th (z_threads s) ++ p' :: skipn (S th) (z_threads s) |} ((th + 1) mod 3)) as (sched & R).
  exists (th :: sched). destruct s as [r ts]. cbn [z_rng z_threads] in *. exact (rr_step _ _ _ _ _ _ _ _ _ E Eo R).
Qed.
Example C71_run : exists sched s, rrun ex_table {| z_rng := rngSeed ex_table 42; z_threads := ex_threads |} sched s /\
  match z_threads s with
  | [RDone (Ret [Ret a; Ret b; Ret c]); RDone (Ret [Ret d; Ret [keyIv]]); RDone _] =>
      Combine (pick [] a [1; 2; 3]) = Ret ex_secret /\ Combine (pick [] (b ++ a) [0; 4; 1]) = Ret ex_secret /\ Combine c = Ret [x68; x69] /\ length d = 4 /\ length keyIv = 32
  | _ => False
  end.
Proof.
  destruct (ex_turns_run 1600 {| z_rng := rngSeed ex_table 42; z_threads := ex_threads |} 0) as (sched & R).
  exists sched. eexists. split; [exact R|]. vm_compute. repeat split.
Qed.

(** An attacker that starts two goroutines splitting "hello" or "world" 2-of-3, lets them draw in turn, and depending on what it saw starts a
    third; the two worlds look different for some random strings. *)
Definition ex_request (by_ : splitter) (show : list nat) : request :=
  {| q_by := by_; q_left := ex_secret; q_right := [x77; x6f; x72; x6c; x64]; q_parts := 3; q_threshold := 2; q_show := show |}.
Definition ex_attack (h : list seen) : action :=
  match h with
  | [] => Begin (ex_request BySplit [2])
  | [_] => Begin (ex_request ByGeneric [0])
  | SShares (Some ((x00 :: _) :: _)) :: _ => Begin (ex_request BySplit [])
  | _ => Advance (length h mod 2)
  end.
Example C71_attack : (forall h q, ex_attack h = Begin q -> fair_request q /\ Z.to_nat (q_threshold q) * length (q_left q) <= 10) /\
  exists h1 h2, game ex_ar growcap117 true ex_attack 516 (fresh_world (fun i => (N.of_nat i * N.of_nat i)%N) (repeat x07 100)) [] = h1 /\
    game ex_ar growcap117 false ex_attack 516 (fresh_world (fun i => (N.of_nat i * N.of_nat i)%N) (repeat x07 100)) [] = h2 /\ h1 <> h2 /\
    match h1 with SShares (Some [_]) :: SShares (Some [_]) :: _ => True | _ => False end.
Proof.
  split.
  - assert (F : forall by_ show, coalition 3 2 show -> fair_request (ex_request by_ show) /\ Z.to_nat (q_threshold (ex_request by_ show)) * length (q_left (ex_request by_ show)) <= 10).
    { intros by_ show C. split; [|vm_compute; lia]. split; [split; [discriminate|]; cbn; lia|]. split; [reflexivity|]. split; [left; exact C|]. cbn. lia. }
    assert (C : coalition 3 2 [2] /\ coalition 3 2 [0] /\ coalition 3 2 []).
    { split; [|split]; (split; [repeat constructor; intros []|]; split; [|cbn; lia]); intros i Hi; cbn in Hi; intuition lia. }
    intros [|[| | |[[|[|[] l] v]|]|] [|h1 h]] q E; try discriminate E; injection E as <-; apply F; apply C.
  - eexists _, _. split; [vm_compute; reflexivity|]. split; [vm_compute; reflexivity|]. split; [discriminate|exact I].
Qed.
END*)
