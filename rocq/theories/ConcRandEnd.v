(** Concurrent calls come to an end; one call alone is the sequential function (C71). *)
From Coq Require Import List NArith ZArith Lia Arith Bool Permutation.
From Coq.Init Require Import Byte.
From Verif Require Import GoSem Bytes Spec SpecKr Vector Csprng Pool Polynomial Shamir SplitP Libs Krawczyk MathRand GoFacts GF VectorFacts PolynomialFacts SplitFacts CombineFacts RegenFacts Secrecy Derived
  MathRandFacts SpecRand ConcRand SpecConcRand ConcRandFacts ConcRandSecret ConcRandSafe.
Import ListNotations.

Definition high (x : N) : Prop := (2 ^ 31 - 256 <= x / 2 ^ 32)%N.

Inductive ends {A} : rprog A -> Prop :=
  | e_done o : ends (RDone o)
  | e_int k (again : N -> bool) : (forall x, again x = true -> high x /\ k x = RInt63 k) -> (forall x, again x = false -> ends (k x)) -> ends (RInt63 k)
  | e_read l k : (forall c, ends (k c)) -> ends (RRead l k).

Section Ends.
Context {A : Type}.
Lemma ends_reject max (k : N -> rprog A) : (2 ^ 31 - 256 <= max)%N -> (forall v, ends (k v)) -> ends (rReject max k).
Proof.
  intros Hm H. rewrite rReject_eq. apply (e_int _ (fun x => (max <? x / 2 ^ 32)%N)); intros x Hx; rewrite Hx; [|apply H].
  split; [apply N.ltb_lt in Hx; unfold high; lia|apply rReject_eq].
Qed.
Lemma ends_intn m (k : N -> rprog A) : (0 < m <= 256)%N -> (forall v, (v < m)%N -> ends (k v)) -> ends (rIntn m k).
Proof.
  intros Hm H. unfold rIntn. destruct (N.land m (m - 1) =? 0)%N.
  - apply (e_int _ (fun _ => false)); [discriminate|]. intros x _. apply H. pose proof (land_le (x / 2 ^ 32) (m - 1)). lia.
  - apply ends_reject; [pose proof (N.mod_lt (2 ^ 31) m ltac:(lia)); lia|]. intros v. apply H. apply N.mod_lt. lia.
Qed.
Lemma ends_permFrom fin N (k : list nat -> rprog A) : N <= 256 -> (forall perm, Permutation perm (seq 0 N) -> ends (k perm)) ->
  forall c i m, i + c = N -> length m = N -> Permutation (firstn i m) (seq 0 i) -> ends (rPermFrom fin (seq i c) m k).
Proof.
  intros HN H. induction c as [|c IH]; intros i m Hic Lm P.
  - cbn [seq rPermFrom]. apply H. rewrite Nat.add_0_r in Hic. subst i. rewrite firstn_all2 in P by lia. exact P.
  - cbn [seq rPermFrom]. apply ends_intn; [lia|]. intros v Hv.
    assert (Hj : N.to_nat v <= i) by lia. rewrite (idx_ok m (N.to_nat v) 0) by lia. cbn [bind]. rewrite upd_ok by lia. cbn [bind].
    rewrite upd_ok by (rewrite set_nth_length; lia). cbn [rlift].
    apply IH; [lia|rewrite !set_nth_length by (rewrite ?set_nth_length; lia); exact Lm|].
    apply perm_swap_fact; [exact Hj|lia|exact P].
Qed.
Lemma ends_perm fin (k : list nat -> rprog A) : (forall perm, ends (k perm)) -> ends (rPerm fin 255 k).
Proof. intros H. unfold rPerm. apply (ends_permFrom fin 255 k); [lia|auto|reflexivity|apply repeat_length|apply Permutation_refl]. Qed.
Lemma ends_reads d c : forall l (k : list byte -> rprog A), (forall bytes, ends (k bytes)) -> ends (rReads c d l k).
Proof. induction c as [|c IH]; intros l k H; cbn [rReads]; [apply H|]. constructor. intros b. apply IH. exact H. Qed.
Lemma ends_lift {X} (o : outcome X) (fin : outcome (list (list byte)) -> rprog A) (k : X -> rprog A) :
  (forall a, ends (k a)) -> (forall o, ends (fin o)) -> ends (rlift o fin k).
Proof. intros. destruct o; cbn [rlift]; auto. Qed.
Lemma ends_split ar growcap secret parts threshold (fin : outcome (list (list byte)) -> rprog A) : (forall o, ends (fin o)) ->
  ends (rSplit ar growcap secret parts threshold fin).
Proof. intros H. unfold rSplit. destruct (checkArgs _ _ _); [apply H|]. apply ends_perm. intros perm. constructor. intros c. apply H. Qed.

Lemma ends_call b c (fin : outcome (list (list byte)) -> rprog A) : (forall sh num, c <> XRegenerate sh num) -> (forall o, ends (fin o)) -> ends (rCall b c fin).
Proof.
  intros Hc H. destruct c as [secret parts threshold|secret parts threshold|sched secret parts threshold|secret parts threshold|shares num|]; cbn [rCall].
  - apply ends_split, H.
  - unfold rSplitGeneric. destruct (checkArgs _ _ _); [apply H|]. apply ends_perm. intros perm. constructor. intros c. apply H.
  - unfold rSplitP. destruct (checkArgs _ _ _); [apply H|]. apply ends_perm. intros perm. apply ends_reads. intros c. apply H.
  - unfold rKrSplit. destruct (krCheck _ _ _); [apply H|]. constructor. intros key. apply ends_lift; [|exact H]. intros enc.
    destruct (rsNew _ _ _); [apply H|]. cbv zeta. apply ends_lift; [|exact H]. intros enc2. apply ends_split. intros o. apply ends_lift; [|exact H]. intros ms. apply H.
  - exfalso. exact (Hc shares num eq_refl).
  - unfold rNewCSPRNG. constructor. intros c. apply H.
Qed.
End Ends.

Lemma ends_client b next : (forall rs sh num, next rs <> Some (XRegenerate sh num)) -> forall n results, ends (rClient b n next results).
Proof.
  intros Hn. induction n as [|n IH]; intros results; cbn [rClient]; [constructor|].
  destruct (next results) as [c|] eqn:E; [|constructor]. apply ends_call; [intros sh num ->; exact (Hn _ _ _ E)|].
  intros o. destruct o; try apply IH; constructor.
Qed.

(** ** no run of high words is longer than [permFuel] *)
Lemma high_run_ends r : rng_wf r -> ~ (forall k, k <= permFuel -> high (out r k mod 2 ^ 63)%N).
Proof.
  destruct permFuel_eq as (M & EM & HM). generalize dependent permFuel. intros F -> W H.
  assert (G : forall k, k <= 607 * M -> (0 < gap r k <= 2 ^ 40)%N).
  { intros k Hk. specialize (H k ltac:(lia)). unfold gap. unfold high in H.
    pose proof (N.mod_lt (out r k) (2 ^ 63) ltac:(discriminate)) as B.
    set (y := (out r k mod 2 ^ 63)%N) in *. clearbody y.
    assert (Hy : ((2 ^ 31 - 256) * 2 ^ 32 <= y)%N).
    { apply N.le_trans with (2 ^ 32 * (y / 2 ^ 32))%N; [rewrite N.mul_comm; apply N.mul_le_mono_l; exact H|apply N.mul_div_le; discriminate]. }
    change ((2 ^ 31 - 256) * 2 ^ 32)%N with 9223370937343148032%N in Hy. change (2 ^ 40)%N with 1099511627776%N.
    change (2 ^ 63)%N with 9223372036854775808%N in *. lia. }
  pose proof (gap_grows r (607 * M) W G M (Nat.le_refl _)) as Q.
  specialize (G (607 * M) (Nat.le_refl _)). lia.
Qed.

(** ** the threads together *)
Inductive allEnd {A} : list (rprog A) -> Prop :=
  | ae ts (again : nat -> N -> bool) :
      (forall i sd k, nth_error ts i <> Some (RSeed sd k)) ->
      (forall i k x, nth_error ts i = Some (RInt63 k) -> again i x = true -> high x /\ k x = RInt63 k) ->
      (forall i k x, nth_error ts i = Some (RInt63 k) -> again i x = false -> allEnd (firstn i ts ++ k x :: skipn (S i) ts)) ->
      (forall i l k c, nth_error ts i = Some (RRead l k) -> allEnd (firstn i ts ++ k c :: skipn (S i) ts)) -> allEnd ts.

Lemma allEnd_cons {A} (p : rprog A) : ends p -> forall ts, allEnd ts -> allEnd (p :: ts).
Proof.
  intros Hp. induction Hp as [o|k again Ha Hk IHk|l k Hk IHk]; intros ts Hts; induction Hts as [ts agains H0 H1 H2 IH2 H3 IH3].
  - apply (ae _ (fun i x => match i with O => false | S j => agains j x end)); intros [|i]; cbn [nth_error firstn skipn app]; try discriminate; eauto.
  - apply (ae _ (fun i x => match i with O => again x | S j => agains j x end)); intros [|i]; cbn [nth_error firstn skipn app]; try discriminate; eauto.
    + intros k' x E. injection E as <-. apply Ha.
    + intros k' x E. injection E as <-. intros E. apply IHk; [exact E|]. apply (ae ts agains); assumption.
  - apply (ae _ (fun i x => match i with O => false | S j => agains j x end)); intros [|i]; cbn [nth_error firstn skipn app]; try discriminate; eauto.
    intros l' k' c E. injection E as <- <-. apply IHk. apply (ae ts agains); assumption.
Qed.
Lemma allEnd_all {A} (ts : list (rprog A)) : Forall ends ts -> allEnd ts.
Proof.
  intros H. induction H as [|p ts Hp H IH]; [|apply allEnd_cons; assumption].
  apply (ae [] (fun _ _ => false)); intros [|i]; cbn [nth_error]; discriminate.
Qed.

Lemma set_same {X} (l : list X) : forall i x, nth_error l i = Some x -> firstn i l ++ x :: skipn (S i) l = l.
Proof.
  induction l as [|a l IH]; intros [|i] x H; cbn [nth_error] in H; try discriminate; [injection H as <-; reflexivity|].
  change (a :: (firstn i l ++ x :: skipn (S i) l) = a :: l). f_equal. apply IH, H.
Qed.

Definition stops {A} (cooked : list N) (s : rstate A) : Prop := forall f : nat -> nat, exists m, forall s', ~ rrun cooked s (map f (seq 0 m)) s'.

Lemma rrun_cons {A} cooked r (ts : list (rprog A)) i sched s' : rrun cooked {| z_rng := r; z_threads := ts |} (i :: sched) s' ->
  exists p p' r', nth_error ts i = Some p /\ rop cooked p r = Some (p', r') /\
    rrun cooked {| z_rng := r'; z_threads := firstn i ts ++ p' :: skipn (S i) ts |} sched s'.
Proof. intros R. inversion R; subst. eauto 6. Qed.

Lemma stops_intro {A} cooked (r : rng) (ts : list (rprog A)) :
  (forall i p p' r', nth_error ts i = Some p -> rop cooked p r = Some (p', r') -> stops cooked {| z_rng := r'; z_threads := firstn i ts ++ p' :: skipn (S i) ts |}) ->
  stops cooked {| z_rng := r; z_threads := ts |}.
Proof.
  intros H f. destruct (nth_error ts (f 0)) as [p|] eqn:E.
  - destruct (rop cooked p r) as [[p' r']|] eqn:Eo.
    + destruct (H _ _ _ _ E Eo (fun j => f (S j))) as (m & Hm). exists (S m). intros s' R. cbn [seq map] in R. rewrite <- seq_shift, map_map in R.
      apply rrun_cons in R as (q & q' & r2 & E1 & E2 & R). rewrite E in E1. injection E1 as <-. rewrite Eo in E2. injection E2 as <- <-. eapply Hm. exact R.
    + exists 1. intros s' R. cbn [seq map] in R. apply rrun_cons in R as (q & q' & r2 & E1 & E2 & R). congruence.
  - exists 1. intros s' R. cbn [seq map] in R. apply rrun_cons in R as (q & q' & r2 & E1 & E2 & R). congruence.
Qed.

Lemma allEnd_stops {A} cooked (ts : list (rprog A)) : allEnd ts -> forall r, rng_wf r -> stops cooked {| z_rng := r; z_threads := ts |}.
Proof.
  intros H. induction H as [ts again H0 H1 H2 IH2 H3 IH3].
  assert (Inner : forall d r j, rng_wf r -> j + d = S permFuel -> (forall k, k < j -> high (out r k mod 2 ^ 63)%N) ->
     stops cooked {| z_rng := Nat.iter j step r; z_threads := ts |}).
  { induction d as [|d IH]; intros r j W Hj Hh.
    - exfalso. apply (high_run_ends r W). intros k Hk. apply Hh. lia.
    - apply stops_intro. intros i p p' r' Hi Ho. destruct p as [o|k|l k|sd k]; cbn [rop] in Ho.
      + discriminate.
      + assert (Ei : rngInt63 (Nat.iter j step r) = ((out r j mod 2 ^ 63)%N, Nat.iter (S j) step r)).
        { unfold rngInt63, out. rewrite iter_S. unfold step at 3. destruct (rngUint64 (Nat.iter j step r)); reflexivity. }
        rewrite Ei in Ho. clear Ei. remember (out r j mod 2 ^ 63)%N as x eqn:Ex. injection Ho as <- <-. destruct (again i x) eqn:Ea.
        * destruct (H1 _ _ _ Hi Ea) as (Hx & Ek). rewrite Ek, (set_same ts i _ Hi). apply (IH r (S j)); [exact W|lia|].
          intros k' Hk'. destruct (Nat.eq_dec k' j) as [->|]; [rewrite <- Ex; exact Hx|apply Hh; lia].
        * apply (IH2 _ _ _ Hi Ea). apply (iter_wf r (S j)), W.
      + rewrite rngRead_spec in Ho. injection Ho as <- <-. apply (IH3 _ _ _ _ Hi). apply wf_skip, iter_wf, W.
      + exfalso. exact (H0 _ _ _ Hi). }
  intros r W. apply (Inner (S permFuel) r 0 W); [lia|lia].
Qed.

(** ** one call alone *)
Section Alone.
Context {A : Type} (cooked : list N).
Definition alone (r : rng) (p : rprog A) : rstate A := {| z_rng := r; z_threads := [p] |}.
Definition leads (r : rng) (p : rprog A) (r' : rng) (p' : rprog A) : Prop := exists sched, rrun cooked (alone r p) sched (alone r' p').

Lemma leads_refl r p : leads r p r p.
Proof. exists []. constructor. Qed.
Lemma leads_step r p r1 p1 r' p' : rop cooked p r = Some (p1, r1) -> leads r1 p1 r' p' -> leads r p r' p'.
Proof. intros Ho (sched & R). exists (0 :: sched). unfold alone. eapply rr_step; [reflexivity|exact Ho|exact R]. Qed.

Lemma leads_int (k : N -> rprog A) r x r1 r' p' : rngInt63 r = (x, r1) -> leads r1 (k x) r' p' -> leads r (RInt63 k) r' p'.
Proof. intros E L. eapply leads_step; [cbn [rop]; rewrite E; reflexivity|exact L]. Qed.

Lemma leads_reject max (k : N -> rprog A) : forall fuel r v r1 r' p', rngReject fuel max r = Ret (v, r1) -> leads r1 (k v) r' p' -> leads r (rReject max k) r' p'.
Proof.
  induction fuel as [|fuel IH]; intros r v r1 r' p' H L; cbn [rngReject] in H; unfold rngInt31 in H; rewrite rReject_eq;
    destruct (rngInt63 r) as [x r0] eqn:E0; (eapply leads_int; [exact E0|]); destruct (max <? x / 2 ^ 32)%N.
  - discriminate.
  - injection H as <- <-. exact L.
  - eapply IH; eassumption.
  - injection H as <- <-. exact L.
Qed.
Lemma leads_intn fuel n (k : N -> rprog A) r v r1 r' p' : rngIntn fuel r n = Ret (v, r1) -> leads r1 (k v) r' p' -> leads r (rIntn n k) r' p'.
Proof.
  intros H L. unfold rngIntn in H. unfold rIntn. destruct (N.land n (n - 1) =? 0)%N.
  - unfold rngInt31 in H. destruct (rngInt63 r) as [x r0] eqn:E0. eapply leads_int; [exact E0|]. injection H as <- <-. exact L.
  - destruct (rngReject fuel _ r) as [[v0 r0]| | | |] eqn:E; try discriminate. cbn [bind] in H. injection H as <- <-. eapply leads_reject; eassumption.
Qed.
Lemma leads_permFrom fuel fin (k : list nat -> rprog A) is : forall m r perm r1 r' p',
  foreach is
    (fun i '(m, r) =>
       do '(j, r) <- rngIntn fuel r (N.of_nat (i + 1));
       do mj <- idx m (N.to_nat j);
       do m <- upd m i mj;
       do m <- upd m (N.to_nat j) i;
       Ret (m, r)) (m, r) = Ret (perm, r1) ->
  leads r1 (k perm) r' p' -> leads r (rPermFrom fin is m k) r' p'.
Proof.
  induction is as [|i is IH]; intros m r perm r1 r' p' H L; cbn [foreach rPermFrom] in *.
  - injection H as <- <-. exact L.
  - destruct (rngIntn fuel r (N.of_nat (i + 1))) as [[j r2]| | | |] eqn:E; try discriminate. cbn [bind] in H.
    eapply leads_intn; [exact E|]. destruct (idx m (N.to_nat j)) as [mj| | | |]; try discriminate. cbn [bind] in *.
    destruct (upd m i mj) as [m1| | | |]; try discriminate. cbn [bind] in *. destruct (upd m1 (N.to_nat j) i) as [m2| | | |]; try discriminate. cbn [bind rlift] in *.
    eapply IH; eassumption.
Qed.
Lemma leads_split fuel ar growcap polB trB evBufs r secret parts threshold shares r1 fin r' p' : grow_ok growcap ->
  SplitRand fuel ar growcap polB trB evBufs r secret parts threshold = Ret (shares, r1) ->
  leads r1 (fin (Ret shares)) r' p' -> leads r (rSplit ar growcap secret parts threshold fin) r' p'.
Proof.
  intros G H L. unfold SplitRand in H. unfold rSplit. destruct (checkArgs secret parts threshold) eqn:Ec; [discriminate|].
  destruct (rngPerm fuel r 255) as [[perm r2]| | | |] eqn:Ep; try discriminate. cbn [bind] in H.
  destruct (rngPerm_perm _ _ _ _ _ Ep) as (P & _). destruct (perm_coords perm P) as (_ & _ & L255). rewrite map_length in L255.
  apply valid_checkArgs in Ec as (V1 & V2 & V3 & V4). pose proof (proj1 (valid_checkArgs _ _ _) (conj V1 (conj V2 (conj V3 V4)))) as Ec.
  rewrite (Split_ok ar growcap perm _ polB trB evBufs secret parts threshold G Ec) in H by lia. cbn [bind] in H.
  set (n := Z.to_nat threshold * length secret) in *.
  unfold rPerm. unfold rngPerm in Ep. eapply leads_permFrom; [exact Ep|].
  eapply leads_step; [cbn [rop]; rewrite rngRead_spec; reflexivity|].
  rewrite (Split_ok ar growcap perm _ [] [] noBufs secret parts threshold G Ec) by lia. fold n. rewrite take_got by apply take_stream_length.
  injection H as <- <-. exact L.
Qed.
End Alone.
