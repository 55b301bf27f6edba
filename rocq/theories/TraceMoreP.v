(** The records of SplitP and Regenerate (C73). *)
From Coq Require Import List NArith ZArith Lia Arith Bool Permutation.
From Coq.Init Require Import Byte.
From Verif Require Import GoSem Bytes Spec Galois GaloisTables ShamirTables Vector Csprng Pool Polynomial Shamir GoFacts GF VectorFacts PolyFacts PolynomialFacts SplitFacts CombineFacts RegenFacts SplitP SplitPFacts SplitPMore SplitPTop Derived Asm Trace SpecTrace SpecTraceMore TraceFacts CombineTrace TraceMore TraceMoreFacts.
Import ListNotations.
Local Open Scope go_scope.

(** ** one evaluation *)
Lemma tevaluate_records p x : p <> [] -> snd (tevaluate p x) = evalRecords p x.
Proof.
  intros NE. assert (LP : 0 < length p) by (destruct p; [congruence|cbn; lia]).
  unfold tevaluate, evalRecords. rewrite (snd_tbind _ _ tt) by reflexivity. cbn [snd emit app]. f_equal. destruct (beq x x00); [reflexivity|]. cbv zeta.
  destruct (Nat.eqb_spec (length p) 0); [lia|]. rewrite (idx_ok p (length p - 1) x00) by lia. rewrite (snd_tlift _ _ _ eq_refl).
  rewrite (tforeach_records (fun l s => exists k, l = rev (seq 0 k) /\ k <= length p - 1 /\ s = peval (skipn k p) x) _ (fun k => [MulT (peval (skipn (S k) p) x) x])).
  - induction (rev (seq 0 (length p - 1))) as [|k l IH]; [reflexivity|]. cbn [flat_map map app]. rewrite IH. reflexivity.
  - intros i r s (k & E & Lk & ->). destruct k as [|k]; [discriminate E|]. rewrite rev_seq_S in E. inversion E; subst i r. clear E.
    rewrite (idx_ok p k x00) by lia. eexists. split; [|split].
    + rewrite fst_tbind. cbn [fst tlift bind]. rewrite fst_tbind. cbn [fst emit tret bind]. reflexivity.
    + rewrite (snd_tlift _ _ _ eq_refl). reflexivity.
    + exists k. split; [reflexivity|]. split; [lia|].
      assert (SK : skipn k p = nth k p x00 :: skipn (S k) p).
      { assert (Hk : k < length p) by lia. clear -Hk. revert p Hk. induction k as [|k IH]; intros [|b p] L; cbn [length] in L; try lia; [reflexivity|]. change (skipn (S k) (b :: p)) with (skipn k p).
        change (skipn (S (S k)) (b :: p)) with (skipn (S k) p). cbn [nth]. apply IH. lia. }
      rewrite SK. rewrite !peval_heval. cbn [heval]. rewrite GalMultiply_gmul. change (GalAdd ?a ?b) with (gadd a b). ring.
  - exists (length p - 1). split; [reflexivity|]. split; [lia|].
    assert (SK : skipn (length p - 1) p = [nth (length p - 1) p x00]).
    { clear -LP. induction p as [|b p IH]; cbn [length] in LP; [lia|]. destruct p as [|c p]; [reflexivity|]. cbn [length] in *.
      replace (S (S (length p)) - 1) with (S (S (length p) - 1)) by lia. cbn [skipn]. rewrite IH by lia. reflexivity. }
    rewrite SK, peval_heval. cbn [heval]. ring.
Qed.
Lemma evalRecords_tail a b p x : evalRecords (a :: p) x = evalRecords (b :: p) x.
Proof. reflexivity. Qed.

(** ** SplitP: what each goroutine leaves *)
Section Left.
  Variables (secret : list byte) (parts : nat) (degree : byte) (xs : list byte) (stream : nat -> byte) (order : list nat).
  Hypothesis Hdeg : b2i degree < 255.
  Hypothesis Hxs : parts <= length xs.
  Hypothesis Hnd : NoDup order.

  Let polyAt (q : nat) : list byte := drawnPoly secret degree stream q (posIn q order).
  Let tags := tagsOf parts xs.

  Definition todo (k from : nat) : list event := flat_map (fun q => flat_map (evalRecords (polyAt q)) tags) (seq from (bend secret k - from)).
  Definition leftOf (s : pstate) (k : nat) : list event :=
    match nth_error (p_workers s) k with
    | None => todo k (1024 * k)
    | Some w => match w_cur w with
                | None => todo k (N.to_nat (w_crt w))
                | Some (p, i) => flat_map (evalRecords p) (skipn i tags) ++ todo k (S (N.to_nat (w_crt w)))
                end
    end.

  Lemma todo_cons k from : from < bend secret k -> todo k from = flat_map (evalRecords (polyAt from)) tags ++ todo k (S from).
  Proof. intros H. unfold todo. replace (bend secret k - from) with (S (bend secret k - S from)) by lia. reflexivity. Qed.

  Lemma skipn_tags i : i < parts -> skipn i tags = badd (nth i xs x00) x01 :: skipn (S i) tags.
  Proof.
    intros H. assert (LT : length tags = parts) by (unfold tags; apply tagsOf_length; exact Hxs).
    apply nth_ext with x00 x00; [cbn [length]; rewrite !skipn_length; lia|]. intros j Hj. rewrite nth_skipn. destruct j as [|j].
    - rewrite Nat.add_0_r. cbn [nth]. unfold tags. apply nth_tagsOf; assumption.
    - cbn [nth]. rewrite nth_skipn. f_equal. lia.
  Qed.

  Lemma left_step s dr th s' rest k : Inv secret parts degree xs stream s dr -> pstep secret parts degree xs stream th s = Next s' ->
    order = dr ++ drawsOfTh th s ++ rest ->
    leftOf s k = (if th =? S k then pstepRecords parts xs th s else []) ++ leftOf s' k.
  Proof.
    intros I E EO. pose proof (inv_step _ _ _ _ _ Hdeg Hxs _ _ _ _ I E) as I'.
    assert (PW : forall p i w k0, nth_error (p_workers s') k0 = Some w -> w_cur w = Some (p, i) -> p = polyAt (N.to_nat (w_crt w))).
    { intros p i w k0 H1 H2. destruct (I_work _ _ _ _ _ _ _ I' _ _ H1) as (_ & _ & _ & H3). destruct (H3 _ _ H2) as (_ & _ & j & J1 & J2 & _).
      rewrite J2. unfold polyAt. f_equal. symmetry. apply posIn_unique; [exact Hnd|]. rewrite EO, app_assoc. apply nth_error_app_l. exact J1. }
    destruct th as [|k']; cbn [pstep] in E.
    - cbn [Nat.eqb app]. unfold mainStep in E. pose proof (I_main _ _ _ _ _ _ _ I) as Hm. destruct (p_main s) as [i| |] eqn:Em.
      + destruct (N.ltb_spec i (secretLen secret)) as [Hi|Hi].
        * cbv zeta in E. destruct (slice secret _ _) as [vs| | | |]; cbn [crashOr] in E; try discriminate E. injection E as <-. unfold leftOf. cbn [p_workers].
          destruct (Nat.lt_trichotomy k (length (p_workers s))) as [Hk|[Hk|Hk]].
          -- rewrite nth_error_app1 by exact Hk. reflexivity.
          -- rewrite (proj2 (nth_error_None (p_workers s) k)) by lia. rewrite nth_error_app2 by lia. rewrite Hk, Nat.sub_diag. cbn [nth_error w_cur w_crt]. f_equal. rewrite Hm. lia.
          -- rewrite (proj2 (nth_error_None (p_workers s) k)) by lia. rewrite (proj2 (nth_error_None _ k)); [reflexivity|]. rewrite app_length. cbn [length]. lia.
        * injection E as <-. reflexivity.
      + destruct (forallb w_done (p_workers s)); [|discriminate E]. injection E as <-. reflexivity.
      + discriminate E.
    - unfold workerStep in E. unfold pstepRecords. destruct (nth_error (p_workers s) k') as [w|] eqn:Hk; [|discriminate E].
      destruct (w_done w) eqn:Hd; [discriminate E|]. pose proof (nth_error_lt _ _ _ Hk) as Lk.
      destruct (I_work _ _ _ _ _ _ _ I _ _ Hk) as (W1 & W2 & W3 & W4).
      assert (SET : forall nw rp out, setWorker s k' nw rp out = Next s' -> p_workers s' = set_nth (p_workers s) k' nw).
      { intros nw rp out H. unfold setWorker in H. rewrite upd_ok in H by exact Lk. cbn [crashOr] in H. injection H as <-. reflexivity. }
      assert (OTH : forall nw, p_workers s' = set_nth (p_workers s) k' nw -> k <> k' -> leftOf s k = leftOf s' k).
      { intros nw H NE. unfold leftOf. rewrite H, nth_error_set_nth by exact Lk. destruct (Nat.eqb_spec k k'); [congruence|reflexivity]. }
      assert (SAME : forall nw, p_workers s' = set_nth (p_workers s) k' nw -> nth_error (p_workers s') k' = Some nw).
      { intros nw H. rewrite H, nth_error_set_nth by exact Lk. rewrite Nat.eqb_refl. reflexivity. }
      destruct (w_cur w) as [[p i]|] eqn:Hc.
      + destruct (W4 _ _ eq_refl) as (C1 & C2 & j & J1 & J2 & _). destruct (Nat.ltb_spec i parts) as [Li|Li].
        * destruct (do x <- tagOf xs i; do y <- evaluate p x; _) as [out| | | |] eqn:EV; cbn [crashOr] in E; try discriminate E. apply SET in E.
          destruct (Nat.eqb_spec (S k') (S k)) as [EK|NK]; [|cbn [app]; eapply OTH; [exact E|congruence]].
          injection EK as ->. unfold leftOf. rewrite Hk, (SAME _ E), Hc. cbn [w_cur w_crt]. rewrite (skipn_tags i Li). cbn [flat_map]. rewrite <- app_assoc. f_equal.
          rewrite tagOf_ok by lia. rewrite (snd_tlift _ _ _ eq_refl). symmetry. apply tevaluate_records. rewrite J2. discriminate.
        * apply SET in E. destruct (Nat.eqb_spec (S k') (S k)) as [EK|NK]; [|cbn [app]; eapply OTH; [exact E|congruence]].
          injection EK as ->. cbn [app]. unfold leftOf. rewrite Hk, (SAME _ E), Hc. cbn [w_cur w_crt].
          rewrite skipn_all2 by (unfold tags; rewrite tagsOf_length by exact Hxs; exact Li). cbn [flat_map app]. f_equal.
          assert (B1 : bend secret k <= N.to_nat (secretLen secret)) by (unfold bend; lia). pose proof (Nn_lt secret) as B2. unfold u32. rewrite N.mod_small by lia. lia.
      + destruct (w_vals w) as [|v r] eqn:Hv.
        * apply SET in E. destruct (Nat.eqb_spec (S k') (S k)) as [EK|NK]; [|cbn [app]; eapply OTH; [exact E|congruence]].
          injection EK as ->. cbn [app]. unfold leftOf. rewrite Hk, (SAME _ E), Hc. reflexivity.
        * destruct (makePolynomial _ _ _) as [p| | | |]; cbn [crashOr] in E; try discriminate E. apply SET in E.
          destruct (Nat.eqb_spec (S k') (S k)) as [EK|NK]; [|cbn [app]; eapply OTH; [exact E|congruence]].
          injection EK as ->. cbn [app]. pose proof (PW p 0 _ _ (SAME _ E) eq_refl) as EP. cbn [w_crt] in EP.
          unfold leftOf. rewrite Hk, (SAME _ E), Hc. cbn [w_cur w_crt skipn]. rewrite EP. apply todo_cons.
          destruct (Nat.eq_dec (N.to_nat (w_crt w)) (bend secret k)) as [Q|Q]; [rewrite Q, Nat.sub_diag in W2; discriminate W2|lia].
  Qed.

  Lemma left_run sched : forall s dr s' k, Inv secret parts degree xs stream s dr -> execution secret parts degree xs stream s sched s' -> p_main s' = MReturned ->
    order = dr ++ traceDraws secret parts degree xs stream sched s ->
    recordsOf (S k) (schedRecords secret parts degree xs stream sched s) = leftOf s k.
  Proof.
    induction sched as [|th sched IH]; intros s dr s' k I E Em EO.
    - inversion E; subst. cbn [schedRecords recordsOf flat_map]. unfold leftOf. pose proof (I_main _ _ _ _ _ _ _ I) as Hm. rewrite Em in Hm.
      pose proof (I_ret _ _ _ _ _ _ _ I Em) as Hr. rewrite forallb_forall in Hr. destruct (nth_error (p_workers s') k) as [w|] eqn:Hk.
      + destruct (I_work _ _ _ _ _ _ _ I _ _ Hk) as (W1 & W2 & W3 & W4). destruct (W3 (Hr w (nth_error_In _ _ Hk))) as (C1 & C2). rewrite C2. unfold todo. rewrite C1, Nat.sub_diag. reflexivity.
      + apply nth_error_None in Hk. unfold todo. replace (bend secret k - 1024 * k) with 0; [reflexivity|]. unfold bend. lia.
    - inversion E as [|? ? t1 ? ? H1 H2]; subst th0 sched0 s0 s'0. cbn [schedRecords traceDraws] in *. rewrite H1 in *. cbn [recordsOf flat_map fst snd].
      pose proof (inv_step _ _ _ _ _ Hdeg Hxs _ _ _ _ I H1) as I'. change (flat_map _ ?l) with (recordsOf (S k) l).
      rewrite (IH t1 (dr ++ drawsOfTh th s) s' k I' H2 Em) by (rewrite <- app_assoc; exact EO).
      symmetry. eapply left_step; eassumption.
  Qed.
End Left.

Lemma skipn_seq' a s n : skipn a (seq s n) = seq (s + a) (n - a).
Proof.
  apply nth_ext with 0 0; [rewrite skipn_length, !seq_length; reflexivity|]. intros i Hi. rewrite skipn_length, seq_length in Hi. rewrite nth_skipn, !seq_nth by lia. lia.
Qed.
Lemma firstn_seq' a s n : firstn a (seq s n) = seq s (Nat.min a n).
Proof.
  apply nth_ext with 0 0; [rewrite firstn_length, !seq_length; reflexivity|]. intros i Hi. rewrite firstn_length, seq_length in Hi. rewrite nth_firstn, !seq_nth by lia. reflexivity.
Qed.

Lemma inv_trace secret parts degree xs stream : b2i degree < 255 -> parts <= length xs -> forall sched s dr s', Inv secret parts degree xs stream s dr ->
  execution secret parts degree xs stream s sched s' -> Inv secret parts degree xs stream s' (dr ++ traceDraws secret parts degree xs stream sched s).
Proof.
  intros Hd Hx. induction sched as [|th sched IH]; intros s dr s' I E.
  - inversion E; subst. cbn [traceDraws]. rewrite app_nil_r. exact I.
  - inversion E as [|? ? t1 ? ? H1 H2]; subst. cbn [traceDraws]. rewrite H1, app_assoc. eapply IH; [eapply inv_step; eassumption|exact H2].
Qed.

(** the records of a complete call, goroutine by goroutine *)
Lemma SplitP_records perm stream secret parts threshold sched shares :
  Permutation perm (seq 0 255) -> (N.of_nat (length secret) < 4294967296)%N ->
  SplitPRun perm stream secret parts threshold sched = Some (Ret shares) ->
  exists order, let polys := polysP secret (z2b (threshold - 1)) stream order in let tags := tagsOf (Z.to_nat parts) (map i2b perm) in
    valid_args secret parts threshold /\ NoDup order /\ shares = map (share_at polys) tags /\
    forall k, recordsOf (S k) (SplitPRecords perm stream secret parts threshold sched) =
              flat_map (fun p => flat_map (evalRecords p) tags) (firstn 1024 (skipn (1024 * k) polys)).
Proof.
  intros P SM H. apply SplitPRun_spec in H. inversion H as [| |out sched' s Ec El Ex Em|]; subst. apply valid_checkArgs in Ec as V.
  destruct (perm_coords perm P) as (ND & NF & L255). pose proof V as (Hs & H2 & H3 & H4). destruct (valid_deg _ _ _ V) as (D1 & D2).
  assert (Hx : Z.to_nat parts <= length (map i2b perm)) by lia.
  unfold SplitPRecords. rewrite Ec, El. rewrite layoutRows_ok in El by exact Hx. injection El as <-.
  set (D := z2b (threshold - 1)) in *. set (X := map i2b perm) in *. set (n := Z.to_nat parts) in *.
  pose proof (inv_trace secret n D X stream D2 Hx sched _ [] s (inv_init _ _ _ _ _ D2 Hx) Ex) as E3. cbn [app] in E3.
  set (order := traceDraws secret n D X stream sched (pinit (out0 secret n X))) in *.
  exists order. cbv zeta. split; [exact V|]. split; [apply (I_nodup _ _ _ _ _ _ _ E3)|]. split; [apply (final_out _ _ _ _ _ D2 Hx _ _ E3 Em)|].
  intros k. etransitivity; [exact (left_run secret n D X stream order D2 Hx (I_nodup _ _ _ _ _ _ _ E3) sched _ [] s k (inv_init _ _ _ _ _ D2 Hx) Ex Em eq_refl)|].
  unfold leftOf. cbn [pinit p_workers nth_error]. rewrite (proj2 (nth_error_None [] k)) by (cbn [length]; lia). unfold todo, polysP.
  assert (SL : N.to_nat (secretLen secret) = length secret) by (unfold secretLen, u32; rewrite N.mod_small by exact SM; lia).
  assert (Q : firstn 1024 (skipn (1024 * k) (map (polyP secret D stream order) (seq 0 (length secret)))) =
              map (polyP secret D stream order) (seq (1024 * k) (bend secret k - 1024 * k))).
  { rewrite skipn_map, firstn_map. f_equal. unfold bend. rewrite SL. rewrite skipn_seq', firstn_seq'. f_equal. lia. }
  rewrite Q, flat_map_map. apply flat_map_ext_in. intros q Hq. apply in_seq in Hq. unfold polyP, drawnPoly. rewrite SL.
  destruct (Nat.ltb_spec q (length secret)) as [_|Q']; [reflexivity|]. exfalso. unfold bend in Hq. rewrite SL in Hq. lia.
Qed.

(** ** SplitP: the records depend on the random bytes and the schedule only *)
Section Blind.
  Variables (sec1 sec2 : list byte) (parts : nat) (degree : byte) (xs : list byte) (stream : nat -> byte).
  Hypothesis Hdeg : b2i degree < 255.
  Hypothesis Hxs : parts <= length xs.
  Hypothesis Hlen : length sec1 = length sec2.
  Hypothesis Hsmall : (secretLen sec1 <= 4294967296 - 1024)%N.

  Lemma step_blind s1 s2 dr th : same_shape s1 s2 -> Inv sec1 parts degree xs stream s1 dr -> Inv sec2 parts degree xs stream s2 dr ->
    pstepRecords parts xs th s1 = pstepRecords parts xs th s2.
  Proof.
    intros (_ & Ew) I1 I2. destruct th as [|k]; [reflexivity|]. cbn [pstepRecords]. pose proof (map_eq_nth_error _ _ _ k Ew) as Ek.
    destruct (nth_error (p_workers s1) k) as [w1|] eqn:K1, (nth_error (p_workers s2) k) as [w2|] eqn:K2; try discriminate; [|reflexivity].
    cbn [option_map] in Ek. assert (Ek' : shapeW w1 = shapeW w2) by congruence. unfold shapeW in Ek'. injection Ek' as E1 E2 E3 E4. rewrite E4.
    destruct (w_done w2); [reflexivity|].
    destruct (w_cur w1) as [[q1 i1]|] eqn:C1, (w_cur w2) as [[q2 i2]|] eqn:C2; cbn in E3; try discriminate; [|reflexivity].
    injection E3 as <-. destruct (Nat.ltb_spec i1 parts) as [Li|Li]; [|reflexivity]. rewrite tagOf_ok by lia. rewrite !(snd_tlift _ _ _ eq_refl).
    destruct (I_work _ _ _ _ _ _ _ I1 _ _ K1) as (_ & _ & _ & W1). destruct (W1 _ _ C1) as (_ & _ & j1 & J1 & -> & _).
    destruct (I_work _ _ _ _ _ _ _ I2 _ _ K2) as (_ & _ & _ & W2). destruct (W2 _ _ C2) as (_ & _ & j2 & J2 & -> & _).
    rewrite <- E1 in J2. pose proof (posIn_unique _ _ _ (I_nodup _ _ _ _ _ _ _ I1) J1) as U1. pose proof (posIn_unique _ _ _ (I_nodup _ _ _ _ _ _ _ I1) J2) as U2.
    rewrite U1 in U2. subst j2. rewrite !tevaluate_records by discriminate. unfold drawnPoly. apply evalRecords_tail.
  Qed.

  Lemma sched_blind sched : forall s1 s2 s1' dr, same_shape s1 s2 ->
    Inv sec1 parts degree xs stream s1 dr -> Inv sec2 parts degree xs stream s2 dr ->
    execution sec1 parts degree xs stream s1 sched s1' ->
    schedRecords sec1 parts degree xs stream sched s1 = schedRecords sec2 parts degree xs stream sched s2.
  Proof.
    induction sched as [|th sched IH]; intros s1 s2 s1' dr Hs I1 I2 E; [reflexivity|].
    inversion E as [|? ? t1 ? ? H1 H2]; subst. cbn [schedRecords].
    assert (Hx : exists t2, pstep sec2 parts degree xs stream th s2 = Next t2 /\ same_shape t1 t2).
    { destruct th as [|k]; cbn [pstep] in *; [eapply main_shape|eapply worker_shape]; eassumption. }
    destruct Hx as (t2 & H3 & Hs').
    pose proof (inv_step _ _ _ _ _ Hdeg Hxs _ _ _ _ I1 H1) as J1. pose proof (inv_step _ _ _ _ _ Hdeg Hxs _ _ _ _ I2 H3) as J2.
    rewrite <- (draws_shape _ _ th Hs) in J2. rewrite H1, H3, (step_blind _ _ _ th Hs I1 I2). f_equal. eapply IH; eassumption.
  Qed.
End Blind.

Lemma SplitP_blind perm stream sec1 sec2 parts threshold sched shares :
  Permutation perm (seq 0 255) -> (secretLen sec1 <= 4294967296 - 1024)%N -> length sec1 = length sec2 ->
  SplitPRun perm stream sec1 parts threshold sched = Some (Ret shares) ->
  SplitPRecords perm stream sec1 parts threshold sched = SplitPRecords perm stream sec2 parts threshold sched.
Proof.
  intros P SM HL H. apply SplitPRun_spec in H. inversion H as [| |out sched' s Ec El Ex Em|]; subst. apply valid_checkArgs in Ec as V.
  destruct (perm_coords perm P) as (ND & NF & L255). pose proof V as (Hs & H2 & H3 & H4). destruct (valid_deg _ _ _ V) as (D1 & D2).
  assert (Hx : Z.to_nat parts <= length (map i2b perm)) by lia.
  assert (Ec2 : checkArgs sec2 parts threshold = None) by (unfold checkArgs in *; rewrite <- HL; exact Ec).
  unfold SplitPRecords. rewrite Ec, Ec2, !layoutRows_ok by exact Hx. rewrite layoutRows_ok in El by exact Hx. injection El as <-.
  eapply (sched_blind sec1 sec2); try eassumption; [split; reflexivity|apply inv_init; assumption|apply (inv_init sec2); assumption].
Qed.

(** ** Regenerate *)
Lemma tinterpolateAll_branches n parts xs x out r : fst (tinterpolateAll n parts xs x out) = Ret r ->
  branches (snd (tinterpolateAll n parts xs x out)) = repeat (Branch false) (n * (length xs * (length xs - 1))).
Proof.
  unfold tinterpolateAll. intros E. remember (length xs * (length xs - 1)) as m eqn:Em.
  replace (n * m) with (sumOf (fun _ : nat => m) (seq 0 n)) by (rewrite sumOf_const, seq_length; reflexivity).
  eapply tforeach_branches; [|exact E]. intros j s u _ F. apply fst_tbind_inv in F as (ys & Y & F). cbn [fst tlift] in Y. apply fst_tbind_inv in F as (v & V & F).
  rewrite (snd_tlift _ _ ys Y), (snd_tbind _ _ v V). cbn [snd tlift]. rewrite app_nil_r, Em. apply (interp_branches _ _ _ _ V).
Qed.

(** two interpolations at x1 and x2 with the same records: same values, and coordinates that differ by x1 + x2 *)
Lemma interp_shift xs1 ys1 xs2 ys2 x1 x2 r1 r2 : length xs1 = length xs2 -> fst (tinterpolatePolynomial xs1 ys1 x1) = Ret r1 -> fst (tinterpolatePolynomial xs2 ys2 x2) = Ret r2 ->
  length (snd (tinterpolatePolynomial xs1 ys1 x1)) = length (snd (tinterpolatePolynomial xs2 ys2 x2)) /\
  (snd (tinterpolatePolynomial xs1 ys1 x1) = snd (tinterpolatePolynomial xs2 ys2 x2) ->
   forall i, i < length xs1 -> idx ys1 i = idx ys2 i /\ forall j, j < length xs1 -> i <> j -> forall a b, idx xs1 j = Ret a -> idx xs2 j = Ret b -> add x1 a = add x2 b).
Proof.
  intros HL. unfold tinterpolatePolynomial. cbv zeta. rewrite <- HL. intros E1 E2.
  match type of E1 with fst (tforeach _ ?f1 _) = _ => match type of E2 with fst (tforeach _ ?f2 _) = _ =>
    edestruct (tforeach_inj (fun _ _ => True) (fun i => idx ys1 i = idx ys2 i /\ forall j, j < length xs1 -> i <> j -> forall a b, idx xs1 j = Ret a -> idx xs2 j = Ret b -> add x1 a = add x2 b) f1 f2 (seq 0 (length xs1))) as [Q1 Q2];
      [|exact E1|exact E2|] end end.
  - intros i s1 s2 u1 u2 Hi F1 F2. fold (innerStep xs1 x1 i) in F1 |- *. fold (innerStep xs2 x2 i) in F2 |- *.
    apply fst_tbind_inv in F1 as (b1 & G1 & F1). apply fst_tbind_inv in F2 as (b2 & G2 & F2).
    edestruct (tforeach_inj (fun _ _ => True) (fun j => i <> j -> forall a b, idx xs1 j = Ret a -> idx xs2 j = Ret b -> add x1 a = add x2 b) (innerStep xs1 x1 i) (innerStep xs2 x2 i) (seq 0 (length xs1))) as [I1 I2];
      [|exact G1|exact G2|].
    { intros j c1 c2 v1 v2 _ H1 H2. apply inner_rec in H1. apply inner_rec in H2. destruct (Nat.eqb_spec i j) as [e|ne].
      - rewrite H1, H2. split; [reflexivity|]. intros _ _. split; [exact I|]. intros NE. congruence.
      - destruct H1 as (xj & xi & t & e1 & e2 & D1 & D2 & ->). destruct H2 as (xj' & xi' & t' & e1' & e2' & D1' & D2' & ->). split; [reflexivity|].
        intros _ EQ. split; [exact I|]. intros _ a b A B. injection EQ as Q1 Q2 Q3 Q4 Q5 Q6. congruence. }
    apply fst_tbind_inv in F1 as (y1 & Y1 & F1). apply fst_tbind_inv in F2 as (y2 & Y2 & F2). cbn [fst tlift] in Y1, Y2.
    apply fst_tbind_inv in F1 as (g1 & M1 & F1). apply fst_tbind_inv in F2 as (g2 & M2 & F2).
    rewrite (snd_tbind _ _ b1 G1), (snd_tbind _ _ b2 G2), (snd_tlift _ _ y1 Y1), (snd_tlift _ _ y2 Y2), (snd_tbind _ _ g1 M1), (snd_tbind _ _ g2 M2).
    destruct (tmult_rec y1 b1) as (e1 & ->), (tmult_rec y2 b2) as (e2 & ->). cbn [app snd tret]. rewrite !app_length. cbn [length]. split; [lia|]. intros _ EQ. split; [exact I|].
    apply app_inj in EQ as [K1 K2]; [|exact I1]. destruct (I2 I K1) as [_ I3]. cbn [app snd tret] in K2. injection K2 as K2 _ _. rewrite Y1, Y2, K2. split; [reflexivity|].
    intros j Lj NE. apply I3; [apply in_seq; lia|exact NE].
  - split; [exact Q1|]. intros EQ i Hi. destruct (Q2 I EQ) as [_ Q3]. apply Q3, in_seq. lia.
Qed.

Lemma add_shift a b x1 x2 : add x1 a = add x2 b -> b = gadd (gadd x1 x2) a.
Proof.
  unfold add. change bxor with gadd. intros E. transitivity (gadd (gadd x2 x2) b); [rewrite gadd_self, gadd_0_l; reflexivity|].
  transitivity (gadd x2 (gadd x2 b)); [ring|]. rewrite <- E. ring.
Qed.

Lemma tinterpolateAll_shift L p1 p2 x1 x2 o1 o2 r1 r2 : 2 <= L -> 2 <= length p1 -> length p1 = length p2 ->
  (forall p, In p p1 -> length p = L) -> (forall p, In p p2 -> length p = L) ->
  fst (tinterpolateAll (L - 1) p1 (map tag p1) x1 o1) = Ret r1 -> fst (tinterpolateAll (L - 1) p2 (map tag p2) x2 o2) = Ret r2 ->
  length (snd (tinterpolateAll (L - 1) p1 (map tag p1) x1 o1)) = length (snd (tinterpolateAll (L - 1) p2 (map tag p2) x2 o2)) /\
  (snd (tinterpolateAll (L - 1) p1 (map tag p1) x1 o1) = snd (tinterpolateAll (L - 1) p2 (map tag p2) x2 o2) ->
   (forall i j, i < length p1 -> j < L - 1 -> nth j (nth i p1 []) x00 = nth j (nth i p2 []) x00) /\
   map tag p2 = map (gadd (gadd x1 x2)) (map tag p1)).
Proof.
  intros HL H2 LP A3 B3 E1 E2. unfold tinterpolateAll in *.
  match type of E1 with fst (tforeach _ ?f1 _) = _ => match type of E2 with fst (tforeach _ ?f2 _) = _ =>
    edestruct (tforeach_inj (fun _ _ => True) (fun j => forall i, i < length p1 -> nth j (nth i p1 []) x00 = nth j (nth i p2 []) x00 /\
       forall i', i' < length p1 -> i <> i' -> tag (nth i' p2 []) = gadd (gadd x1 x2) (tag (nth i' p1 []))) f1 f2 (seq 0 (L - 1))) as [Q1 Q2];
      [|exact E1|exact E2|] end end.
  - intros j s1 s2 u1 u2 Hj G1 G2. apply in_seq in Hj. rewrite (column_ok p1 L) in * by (assumption || lia). rewrite (column_ok p2 L) in * by (assumption || lia).
    apply fst_tbind_inv in G1 as (ys1 & Y1 & G1). cbn [fst tlift] in Y1. injection Y1 as <-. apply fst_tbind_inv in G2 as (ys2 & Y2 & G2). cbn [fst tlift] in Y2. injection Y2 as <-.
    apply fst_tbind_inv in G1 as (v1 & V1 & G1). apply fst_tbind_inv in G2 as (v2 & V2 & G2).
    rewrite !(snd_tlift _ _ _ eq_refl), (snd_tbind _ _ v1 V1), (snd_tbind _ _ v2 V2). cbn [snd tlift]. rewrite !app_nil_r.
    destruct (interp_shift (map tag p1) (ycol p1 j) (map tag p2) (ycol p2 j) x1 x2 v1 v2) as [I1 I2]; [rewrite !map_length; exact LP|exact V1|exact V2|].
    split; [exact I1|]. intros _ EQ'. split; [exact I|]. specialize (I2 EQ'). rewrite map_length in I2. intros i Hi. destruct (I2 i Hi) as [J1 J2].
    split.
    + unfold ycol in J1. rewrite (idx_ok _ i x00), (idx_ok _ i x00) in J1 by (rewrite map_length; lia). injection J1 as J1.
      rewrite (nth_map' _ p1 i x00 []), (nth_map' _ p2 i x00 []) in J1 by lia. exact J1.
    + intros i' Hi' NE. apply add_shift. apply (J2 i' Hi' NE).
      * rewrite (idx_ok _ i' x00) by (rewrite map_length; lia). rewrite (nth_map' _ p1 i' x00 []) by lia. reflexivity.
      * rewrite (idx_ok _ i' x00) by (rewrite map_length; lia). rewrite (nth_map' _ p2 i' x00 []) by lia. reflexivity.
  - split; [exact Q1|]. intros EQ. destruct (Q2 I EQ) as [_ Q3]. clear Q2. split.
    + intros i j Hi Hj. apply (Q3 j ltac:(apply in_seq; lia) i Hi).
    + apply nth_ext with x00 x00; [rewrite !map_length; congruence|]. intros i Hi. rewrite map_length in Hi. rewrite (nth_map' _ p2 i x00 []) by lia. rewrite map_map, (nth_map' _ p1 i x00 []) by lia.
      set (k := if i =? 0 then 1 else 0). assert (Hk : k <> i /\ k < length p1) by (unfold k; destruct (Nat.eqb_spec i 0); lia).
      destruct (Q3 0 ltac:(apply in_seq; lia) k (proj2 Hk)) as [_ J]. apply (J i); [lia|apply Hk].
Qed.

Definition regenStep (parts : list (list byte)) (newXs : list byte) (k : nat) (newShares : list (list byte)) : T (list (list byte)) :=
  let firstPartLen := length (nth 0 parts []) in
  tdo nx <- tlift (idx newXs k);
  tdo sh <- tlift (upd (zeros firstPartLen) (firstPartLen - 1) nx);
  tdo sh <- tinterpolateAll (firstPartLen - 1) parts (map tag parts) nx sh;
  tlift (upd newShares k sh).

Lemma tRegenerate_inv fuel stream u parts num r : fst (tRegenerate fuel stream u parts num) = Ret r ->
  okParts parts /\ NoDup (map tag parts) /\ (0 <= num)%Z /\ length r = Z.to_nat num /\
  fst (tforeach (seq 0 (Z.to_nat num)) (regenStep parts (take_stream stream (Z.to_nat num))) (repeat [] (Z.to_nat num))) = Ret r /\
  snd (tRegenerate fuel stream u parts num) = snd (tforeach (seq 0 (Z.to_nat num)) (regenStep parts (take_stream stream (Z.to_nat num))) (repeat [] (Z.to_nat num))).
Proof.
  intros E. assert (LR : length r = Z.to_nat num).
  { rewrite tRegenerate_erase in E. destruct (Regenerate_cases fuel stream u parts num) as [(e & _ & _ & Q)|[(_ & _ & Q)|[(_ & _ & Q)|(r' & _ & _ & [Q|Q])]]]; rewrite E in Q; try discriminate Q.
    injection Q as ->. rewrite map_length. apply take_stream_length. }
  unfold tRegenerate in *. destruct (checkParts parts) eqn:CK; [discriminate E|]. apply checkParts_None in CK as OK.
  pose proof OK as (A1 & A2 & A3).
  apply fst_tbind_inv in E as (n & E1 & E). cbn [fst tlift] in E1. rewrite (snd_tlift _ _ _ E1). unfold make_len in E1. destruct (Z.ltb_spec num 0) as [|Hn]; [discriminate E1|]. injection E1 as <-.
  cbv zeta in *. apply fst_tbind_inv in E as (xs & E2 & E). cbn [fst tlift] in E2. rewrite (snd_tlift _ _ _ E2).
  destruct (ListDec.NoDup_dec byte_eq_dec (map tag parts)) as [ND|ND]; [|rewrite collectTags_dup in E2 by (assumption || lia); discriminate E2].
  rewrite collectTags_ok in E2 by (assumption || lia). injection E2 as <-.
  apply fst_tbind_inv in E as (q & E3 & E). cbn [fst tlift] in E3. rewrite (snd_tlift _ _ _ E3).
  split; [exact OK|]. split; [exact ND|]. split; [exact Hn|]. split; [exact LR|]. split; [exact E|reflexivity].
Qed.

Lemma tRegenerate_branches fuel stream u parts num r : fst (tRegenerate fuel stream u parts num) = Ret r ->
  branches (snd (tRegenerate fuel stream u parts num)) =
  repeat (Branch false) (length r * ((length (nth 0 parts []) - 1) * (length parts * (length parts - 1)))).
Proof.
  intros E. apply tRegenerate_inv in E as (OK & ND & Hn & LR & E & ->). rewrite LR.
  remember ((length (nth 0 parts []) - 1) * (length parts * (length parts - 1))) as m eqn:Em.
  replace (Z.to_nat num * m) with (sumOf (fun _ : nat => m) (seq 0 (Z.to_nat num))) by (rewrite sumOf_const, seq_length; reflexivity).
  eapply tforeach_branches; [|exact E]. intros k s v _ F. unfold regenStep in *. cbv zeta in *.
  apply fst_tbind_inv in F as (nx & F1 & F). cbn [fst tlift] in F1. rewrite (snd_tlift _ _ _ F1).
  apply fst_tbind_inv in F as (sh & F2 & F). cbn [fst tlift] in F2. rewrite (snd_tlift _ _ _ F2).
  apply fst_tbind_inv in F as (sh' & F3 & F). rewrite (snd_tbind _ _ _ F3). cbn [snd tlift]. rewrite app_nil_r.
  rewrite (tinterpolateAll_branches _ _ _ _ _ _ F3), map_length, Em. reflexivity.
Qed.

Lemma tRegenerate_shift fuel1 fuel2 st1 st2 u1 u2 p1 p2 num r1 r2 :
  fst (tRegenerate fuel1 st1 u1 p1 num) = Ret r1 -> fst (tRegenerate fuel2 st2 u2 p2 num) = Ret r2 ->
  map (@length byte) p1 = map (@length byte) p2 -> snd (tRegenerate fuel1 st1 u1 p1 num) = snd (tRegenerate fuel2 st2 u2 p2 num) ->
  forall k, k < Z.to_nat num -> let c := gadd (st1 k) (st2 k) in
    map (@removelast byte) p1 = map (@removelast byte) p2 /\ map tag p2 = map (gadd c) (map tag p1).
Proof.
  intros E1 E2 HLs ES k Hk. cbv zeta. apply tRegenerate_inv in E1 as (OK1 & ND1 & Hn & _ & E1 & S1). apply tRegenerate_inv in E2 as (OK2 & ND2 & _ & _ & E2 & S2). rewrite S1, S2 in ES. clear S1 S2.
  assert (LP : length p1 = length p2) by (rewrite <- (map_length (@length byte) p1), HLs, map_length; reflexivity).
  destruct OK1 as (A1 & A2 & A3). destruct OK2 as (B1 & B2 & B3).
  assert (LL : length (nth 0 p2 []) = length (nth 0 p1 [])).
  { transitivity (nth 0 (map (@length byte) p2) 0); [symmetry; apply (nth_map' _ p2 0 0 []); lia|]. rewrite <- HLs. apply (nth_map' _ p1 0 0 []). lia. }
  set (L := length (nth 0 p1 [])) in *. rewrite LL in B2, B3.
  edestruct (tforeach_inj (fun _ _ : list (list byte) => True) (fun k => (forall i j, i < length p1 -> j < L - 1 -> nth j (nth i p1 []) x00 = nth j (nth i p2 []) x00) /\
      map tag p2 = map (gadd (gadd (st1 k) (st2 k))) (map tag p1)) (regenStep p1 (take_stream st1 (Z.to_nat num))) (regenStep p2 (take_stream st2 (Z.to_nat num))) (seq 0 (Z.to_nat num))) as [_ Q]; [|exact E1|exact E2|].
  - intros q s1 s2 v1 v2 Hq F1 F2. apply in_seq in Hq. unfold regenStep in *. cbv zeta in *. rewrite LL in *. fold L in F1 |- *.
    rewrite (idx_ok _ q x00) in * by (rewrite take_stream_length; lia). rewrite (idx_ok (take_stream st2 _) q x00) in * by (rewrite take_stream_length; lia). rewrite !nth_take_stream in * by lia.
    apply fst_tbind_inv in F1 as (n1 & G1 & F1). cbn [fst tlift] in G1. injection G1 as <-. apply fst_tbind_inv in F2 as (n2 & G2 & F2). cbn [fst tlift] in G2. injection G2 as <-.
    rewrite !(snd_tlift _ _ _ eq_refl).
    apply fst_tbind_inv in F1 as (sh1 & G1 & F1). cbn [fst tlift] in G1. apply fst_tbind_inv in F2 as (sh2 & G2 & F2). cbn [fst tlift] in G2. rewrite (snd_tlift _ _ _ G1), (snd_tlift _ _ _ G2).
    apply fst_tbind_inv in F1 as (t1 & T1 & F1). apply fst_tbind_inv in F2 as (t2 & T2 & F2). rewrite (snd_tbind _ _ _ T1), (snd_tbind _ _ _ T2). cbn [snd tlift]. rewrite !app_nil_r.
    destruct (tinterpolateAll_shift L p1 p2 (st1 q) (st2 q) sh1 sh2 t1 t2 A2 A1 LP A3 B3 T1 T2) as [I1 I2]. split; [exact I1|]. intros _ EQ. split; [exact I|exact (I2 EQ)].
  - destruct (Q I ES) as [_ Q']. destruct (Q' k) as [P1 P2]; [apply in_seq; lia|]. split; [|exact P2].
    apply nth_ext with [] []; [rewrite !map_length; exact LP|]. intros i Hi. rewrite map_length in Hi. rewrite (nth_map' _ p1 i [] []), (nth_map' _ p2 i [] []) by lia.
    assert (LA : length (nth i p1 []) = L) by (apply A3, nth_In; exact Hi). assert (LB : length (nth i p2 []) = L) by (apply B3, nth_In; lia).
    rewrite !removelast_firstn_len, LA, LB. apply nth_ext with x00 x00; [rewrite !firstn_length; lia|]. intros j Hj. rewrite firstn_length in Hj. rewrite !nth_firstn by lia. apply P1; lia.
Qed.
