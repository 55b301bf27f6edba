(** Proofs about concurrent use of the whole library (C70). *)
From Coq Require Import List NArith ZArith Lia Arith Bool Permutation.
From Coq.Init Require Import Byte.
From Verif Require Import GoSem Bytes Spec SpecKr GoFacts Vector Csprng CsprngFacts Pool Polynomial Shamir SplitFacts CombineFacts Derived RandomizerFacts Libs Krawczyk KrawczykFacts
  KrawczykCombine Concurrency SpecConc ConcFacts ConcSplit ConcAll SpecConcAll ConcAllFacts Pf1 Pf4 Pf6 Pf9.
Import ListNotations.

(*PROPS
From Coq Require Import List NArith ZArith Lia Arith Bool Permutation.
From Coq.Init Require Import Byte.
From Verif Require Import GoSem Bytes Spec SpecKr Vector Csprng Pool Polynomial Shamir Libs AES Krawczyk Concurrency SpecConc ConcAll SpecConcAll ExData Pf23.
Import ListNotations.
*)

Lemma Split_pools ar growcap perm stream polB trB secret parts threshold : grow_ok growcap -> Permutation perm (seq 0 255) ->
  Split ar growcap perm stream polB trB (fun _ => []) secret parts threshold = Split ar growcap perm stream [] [] (fun _ => []) secret parts threshold.
Proof.
  intros G D. exact (callsTo_correct ar growcap (CSplit perm stream secret parts threshold) _ G D (ex_intro _ polB (ex_intro _ trB eq_refl))).
Qed.

Lemma krSplitWith_ext E zp key share share' secret parts threshold : (forall s, share s parts threshold = share' s parts threshold) ->
  krSplitWith E zp key share secret parts threshold = krSplitWith E zp key share' secret parts threshold.
Proof.
  intros H. unfold krSplitWith. destruct (krCheck _ _ _); [reflexivity|]. destruct (encrypt E secret key) as [c|?|?| |]; cbn [bind]; try reflexivity.
  destruct (rsNew _ _ _); [reflexivity|]. cbv zeta. destruct (rsSplit _ _ c) as [e1|?|?| |]; cbn [bind]; try reflexivity.
  destruct (rsEncode _ _ e1) as [e2|?|?| |]; cbn [bind]; try reflexivity. destruct (foreach _ _ e2); cbn [bind]; try reflexivity. rewrite H. reflexivity.
Qed.

(** the sequential SplitWithRandomizer on two pools *)
Lemma SWR_pools fuel ar growcap ks polB trB secret parts threshold : grow_ok growcap ->
  match SplitWithRandomizer fuel ar growcap ks polB trB (fun _ => []) secret parts threshold, SplitWithRandomizer fuel ar growcap ks [] [] (fun _ => []) secret parts threshold with
  | Ret sh, Ret sh' => map tag sh = map tag sh' /\ map (@length byte) sh = map (@length byte) sh'
  | o, o' => o = o'
  end.
Proof.
  intros G. destruct (checkArgs secret parts threshold) as [e|] eqn:Ck.
  { unfold SplitWithRandomizer, SplitWithRandomizerBufs. rewrite Ck. reflexivity. }
  pose proof Ck as V. apply valid_checkArgs in V. destruct (GetUniqueBytes fuel ks (z2b parts)) as [xs|e|p| |] eqn:Ex.
  2,3,4,5: unfold SplitWithRandomizer, SplitWithRandomizerBufs; rewrite Ck, Ex; reflexivity.
  rewrite !(SWR_ok fuel ar growcap ks _ _ (fun _ => []) secret parts threshold xs G V Ex). split; [rewrite !map_tag_shares; reflexivity|].
  rewrite !map_map. apply map_ext. intros x. unfold share_at. rewrite !app_length, !map_length, !polysOf_length. reflexivity.
Qed.

Lemma skipn_tag (s : list byte) k : length s = k + 1 -> skipn k s = [tag s].
Proof.
  intros H. assert (N : s <> []) by (intros ->; cbn in H; lia). rewrite (app_removelast_last x00 N) in H |- *. set (l := removelast s) in *. rewrite app_length in H. cbn in H.
  rewrite skipn_app, skipn_all2 by lia. replace (k - length l) with 0 by lia. cbn. unfold tag. rewrite last_last. reflexivity.
Qed.

Lemma krSWR_shape fuel E zp ar growcap ks polB trB secret parts threshold : grow_ok growcap ->
  let key := Read ks (zeros 16) in
  let r := SplitWithRandomizer fuel ar growcap ks polB trB (fun _ => []) (krMeta key (length secret)) parts threshold in
  let whole := krSplitWithRandomizer fuel E zp ar growcap ks polB trB (fun _ => []) secret parts threshold in
  (exists e, kr_arg_error zp secret parts threshold e /\ whole = Fail e) \/
  match r with
  | Ret ms => whole = Ret (map (krShare E key secret (Z.to_nat threshold) ms) (seq 0 (Z.to_nat parts))) /\ (forall m, In m ms -> length m = 21) /\ length ms = Z.to_nat parts
  | o => whole = o
  end.
Proof.
  intros G key r whole. assert (Hk : length key = 16) by (unfold key, Read; rewrite xorStreamFrom_length; apply zeros_length).
  set (share := SplitWithRandomizer fuel ar growcap ks polB trB (fun _ => [])) in *.
  destruct (krSplitWith_stuck E zp key share secret parts threshold Hk) as [(e & A & _ & X)|(Hs & HL & H1 & H4 & Hz & enc & Le & X)]; [left; exists e; split; [exact A|exact X]|].
  right. unfold r. destruct (share (krMeta key (length secret)) parts threshold) as [ms|?|?| |] eqn:Sh; try exact X.
  destruct (SWR_sharing _ _ _ _ _ _ _ _ _ _ _ G Sh) as (V' & L & polys & tags & S).
  assert (V : kr_valid_args zp secret parts threshold) by (destruct V' as (_ & V2 & V3 & V4); repeat split; try assumption).
  assert (L21 : forall i, i < Z.to_nat parts -> length (nth i ms []) = 21).
  { intros i Hi. rewrite (is_sharing_lengths _ _ _ _ _ i S) by lia. rewrite krMeta_length by exact Hk. reflexivity. }
  split; [apply (krSplitWith_ok E zp key share secret parts threshold ms V Hk Sh L), L21|]. split; [|exact L].
  intros m Hm. apply (In_nth _ _ []) in Hm as (i & Hi & <-). apply L21. lia.
Qed.

Lemma krSWR_pools fuel E zp ar growcap ks polB trB secret parts threshold : grow_ok growcap ->
  match krSplitWithRandomizer fuel E zp ar growcap ks polB trB (fun _ => []) secret parts threshold,
        krSplitWithRandomizer fuel E zp ar growcap ks [] [] (fun _ => []) secret parts threshold with
  | Ret sh, Ret sh' => map (skipn 20) sh = map (skipn 20) sh'
  | o, o' => o = o'
  end.
Proof.
  intros G. destruct (krSWR_shape fuel E zp ar growcap ks polB trB secret parts threshold G) as [(e & A & ->)|S1].
  { apply (C40_errors_pf fuel E zp ar growcap ks [] [] (fun _ => []) secret parts threshold e G) in A. rewrite A. reflexivity. }
  destruct (krSWR_shape fuel E zp ar growcap ks [] [] secret parts threshold G) as [(e & A & ->)|S2].
  { apply (C40_errors_pf fuel E zp ar growcap ks polB trB (fun _ => []) secret parts threshold e G) in A. rewrite A. reflexivity. }
  cbv zeta in S1, S2.
  pose proof (SWR_pools fuel ar growcap ks polB trB (krMeta (Read ks (zeros 16)) (length secret)) parts threshold G) as Q.
  destruct (SplitWithRandomizer fuel ar growcap ks polB trB (fun _ => []) (krMeta (Read ks (zeros 16)) (length secret)) parts threshold) as [ms|?|?| |];
    destruct (SplitWithRandomizer fuel ar growcap ks [] [] (fun _ => []) (krMeta (Read ks (zeros 16)) (length secret)) parts threshold) as [ms'|?|?| |]; try discriminate Q.
  2,3,4,5: rewrite S1, S2; injection Q as <- || idtac; reflexivity.
  destruct S1 as (-> & M1 & L1). destruct S2 as (-> & M2 & L2). destruct Q as (QT & _). rewrite !map_map. apply map_ext_in. intros i Hi. apply in_seq in Hi. unfold krShare.
  assert (A1 : length (nth i ms []) = 21) by (apply M1, nth_In; lia). assert (A2 : length (nth i ms' []) = 21) by (apply M2, nth_In; lia).
  rewrite !(skipn_app 20), A1, A2. f_equal. rewrite (skipn_tag (nth i ms []) 20 A1), (skipn_tag (nth i ms' []) 20 A2). f_equal.
  apply (f_equal (fun l => nth i l (tag []))) in QT. rewrite !map_nth in QT. exact QT.
Qed.

Lemma apiTo_correct b c o : grow_ok (b_grow b) -> api_draws_ok c -> apiTo b c o -> correct_answer b c o.
Proof.
  intros G D (polB & trB & ->). destruct c; cbn [correct_answer api_draws_ok] in *; try reflexivity.
  - f_equal. apply Split_pools; assumption.
  - pose proof (callsTo_correct (b_arch b) (b_grow b) (CSplitWithRandomizer fuel ks secret parts threshold) _ G I (ex_intro _ polB (ex_intro _ trB eq_refl))) as C.
    cbn [correct_outcome] in C. destruct (SplitWithRandomizer fuel (b_arch b) (b_grow b) ks polB trB _ secret parts threshold) as [sh|?|?| |]; cbn [omap bind];
      [destruct (SplitWithRandomizer fuel (b_arch b) (b_grow b) ks [] [] _ secret parts threshold) as [sh'|?|?| |]; [exact C|discriminate..]|rewrite <- C; reflexivity..].
  - f_equal. unfold krSplit. apply krSplitWith_ext. intros s. apply Split_pools; assumption.
  - pose proof (krSWR_pools fuel (b_cipher b) (b_zp b) (b_arch b) (b_grow b) ks polB trB secret parts threshold G) as Q.
    pose proof (fun sh rd H => C40_randomizer_combine_pf fuel (b_cipher b) (b_zp b) rd (b_arch b) (b_grow b) ks polB trB (fun _ => []) secret parts threshold sh H G) as C.
    destruct (krSplitWithRandomizer fuel (b_cipher b) (b_zp b) (b_arch b) (b_grow b) ks polB trB (fun _ => []) secret parts threshold) as [sh|?|?| |]; cbn [omap bind];
      [destruct (krSplitWithRandomizer fuel (b_cipher b) (b_zp b) (b_arch b) (b_grow b) ks [] [] (fun _ => []) secret parts threshold) as [sh'|?|?| |]; [|discriminate..]|rewrite <- Q; reflexivity..].
    split; [exact Q|]. split; [exact (proj1 (C sh (fun _ => 1) (fun _ => Nat.lt_0_1) eq_refl))|]. intros rd is Hrd Hi.
    apply (proj2 (C sh rd Hrd eq_refl) _ is Hi). induction (pick [] sh is) as [|x l IH]; [reflexivity|]. cbn [map somes]. rewrite IH. reflexivity.
Qed.

Lemma clients_ok b (clients : list (nat * (list (outcome result) -> option apicall))) : Forall (well_behaved []) (map (fun cl => client b (fst cl) (snd cl) []) clients).
Proof. apply Forall_map, Forall_forall. intros cl _. apply wb_client. Qed.

(** C70. Any number of goroutines, each making any number of calls of any of the functions, with arguments that may depend on what its earlier calls
    returned, over the shared pools and in any interleaving: when a goroutine is done, each call it made has returned what it returns when it is
    made alone, and it has stopped because it wanted to or because its next call panics, or hangs, also when made alone. *)
Lemma C70_concurrent_api_pf : forall b size clients tr s th n next o,
  grow_ok (b_grow b) ->
  (forall n next, In (n, next) clients -> forall results c, next results = Some c -> api_draws_ok c) ->
  gexec size (ginit 2 (map (fun cl => client b (fst cl) (snd cl) []) clients)) tr s ->
  nth_error clients th = Some (n, next) -> nth_error (g_threads s) th = Some (PDone o) ->
  exists results calls, calls_made next [] results = Some calls /\ Forall (fun co => correct_answer b (fst co) (snd co)) calls /\
    ((o = Ret results /\ (length results = n \/ next results = None)) \/
     (exists c bad, length results < n /\ next results = Some c /\ correct_answer b c bad /\ fatal bad /\ fatal o)).
Proof.
  intros b size clients tr s th n next o G D H P Q.
  assert (R : returns_alone (client b n next []) o).
  { apply (isolation _ _ _ _ _ (clients_ok b clients) H th); [|exact Q]. rewrite nth_error_map, P. reflexivity. }
  assert (Dc : forall results c, next results = Some c -> api_draws_ok c) by (apply (D n), nth_error_In with th, P).
  destruct R as (own' & h' & R). pose proof (aw_sound _ _ _ _ _ _ R _ (aw_client b next G n [] [] (fun _ => []))) as (results & calls & C1 & C2 & C3).
  exists results, calls. cbn [app] in C3. split; [exact C1|]. split.
  - assert (K : forall results done calls, calls_made next done results = Some calls -> Forall (fun co => apiTo b (fst co) (snd co) /\ ~ fatal (snd co)) calls -> Forall (fun co => correct_answer b (fst co) (snd co)) calls).
    { clear - G Dc. induction results as [|r rs IH]; intros done calls C F; cbn [calls_made] in C; [injection C as <-; constructor|].
      destruct (next done) as [c|] eqn:En; [|discriminate]. destruct (calls_made next (done ++ [r]) rs) as [l|] eqn:El; [|discriminate]. injection C as <-.
      inversion F as [|? ? (F1 & _) F2]; subst. constructor; [apply apiTo_correct; [exact G|exact (Dc _ _ En)|exact F1]|]. exact (IH _ _ El F2). }
    exact (K results [] calls C1 C2).
  - destruct C3 as [C3|(c & bad & L & En & A & F & E)]; [left; exact C3|right]. exists c, bad. split; [exact L|]. split; [exact En|].
    split; [apply apiTo_correct; [exact G|exact (Dc _ _ En)|exact A]|]. split; [exact F|]. subst o. destruct bad; try contradiction; exact I.
Qed.

(** C70: there is no infinite execution, no deadlock, and no race in the pool buffers. *)
Lemma C70_no_deadlock_pf : forall b size clients tr s,
  gexec size (ginit 2 (map (fun cl => client b (fst cl) (snd cl) []) clients)) tr s ->
  Acc (fun s2 s1 => exists th ev, gstep size s1 th = Some (s2, ev)) s /\
  ((forall th, gstep size s th = None) -> forall th p, nth_error (g_threads s) th = Some p -> exists o, p = PDone o) /\
  (forall th th' p p' b, th <> th' -> nth_error (g_threads s) th = Some p -> nth_error (g_threads s) th' = Some p' ->
     touches p = Some b -> touches p' <> Some b).
Proof.
  intros b size clients tr s H. split; [exact (gnext_wf size s)|]. split.
  - intros N th p P. destruct p as [o|pl k|pl b0 k|b0 k|b0 n k|b0 i k|b0 i v k]; [exists o; reflexivity|exfalso..].
    all: edestruct (gstep_progress size s th _ P) as (s' & ev & St); [discriminate|]; rewrite N in St; discriminate.
  - intros th th' p p' b0 Nt P P'. exact (proj1 (C43_no_race_pf _ _ _ _ _ _ _ _ _ _ b0 (clients_ok b clients) H Nt P P')).
Qed.

(*COPY
(** Three goroutines: one splits "hello" with krawczyk.Split and combines three of the shares it got; one splits with SplitWithRandomizerOld
    and combines; one asks SplitGeneric for too many parts and then regenerates. A run in which they take turns. *)
Definition ex_build : build := {| b_arch := ArchGeneric; b_grow := growcap117; b_cipher := fun key blk => map (bxor x5a) blk; b_zp := true; b_rd := fun _ => 3 |}.
Definition ex_clients : list (nat * (list (outcome result) -> option apicall)) :=
  [(2, fun rs => match rs with
       | [] => Some (AKrSplit ex_stream ex_perm ex_stream ex_secret 5 3)
       | [Ret (RShares sh)] => Some (AKrCombine (map (fun s => Some (s, [])) (pick [] sh [4; 0; 2])) 5 3)
       | _ => None end);
   (9, fun rs => match rs with
       | [] => Some (ASplitWithRandomizerOld ex_stream (rev ex_secret) 4 2)
       | [Ret (RShares sh)] => Some (ACombine (pick [] sh [3; 1]))
       | _ => None end);
   (9, fun rs => match rs with
       | [] => Some (ASplitGeneric ex_perm ex_stream ex_secret 500 3)
       | [_] => Some (ASplitWithRandomizer 100 ex_stream ex_secret 4 3)
       | _ => None end)].
Fixpoint ex_turns {A} (fuel : nat) (s : gstate A) (th : nat) : gstate A :=
  match fuel with
  | O => s
  | Datatypes.S f => match gstep 4 s th with Some (s', _) => ex_turns f s' ((th + 1) mod 3) | None => ex_turns f s ((th + 1) mod 3) end
  end.
Lemma ex_turns_exec {A} fuel : forall (s0 s : gstate A) tr th, gexec 4 s0 tr s -> exists tr', gexec 4 s0 tr' (ex_turns fuel s th).
Proof.
  induction fuel as [|f IH]; intros s0 s tr th H; cbn [ex_turns]; [exists tr; exact H|].
  destruct (gstep 4 s th) as [[s' ev]|] eqn:E; [eapply IH, ge_snoc; eassumption|eapply IH, H].
Qed.
Example C70_run : exists tr s,
  gexec 4 (ginit 2 (map (fun cl => client ex_build (fst cl) (snd cl) []) ex_clients)) tr s /\
  match g_threads s with
  | [PDone (Ret [Ret (RShares _); Ret (RSecret a)]); PDone (Ret [Ret (RShares _); Ret (RSecret b)]); PDone (Ret [Fail e; Ret (RShares _)])] =>
      a = ex_secret /\ b = rev ex_secret /\ e = EPartsTooMany
  | _ => False
  end.
Proof.
  destruct (ex_turns_exec 4000 _ (ginit 2 (map (fun cl => client ex_build (fst cl) (snd cl) []) ex_clients)) [] 0 (ge_nil _ _)) as (tr & H).
  exists tr. eexists. split; [exact H|]. vm_compute. repeat split.
Qed.
Example C70_draws : forall n next, In (n, next) ex_clients -> forall results c, next results = Some c -> api_draws_ok c.
Proof.
  intros n next [E | [E | [E | []]]]; injection E as _ <-; intros [|[[sh|sec]|e|p| |] [|r rs]] c H; try discriminate; injection H as <-; try exact I; exact ex_perm_ok.
Qed.
END*)
