(** SplitP: from the invariant to executions: results, absence of deadlock, bounded length, disjoint writes, secrecy. *)
From Coq Require Import List NArith ZArith Lia Arith Bool Permutation.
From Coq.Init Require Import Byte.
From Verif Require Import GoSem Bytes Spec Galois GF PolyFacts GoFacts Polynomial PolynomialFacts Shamir SplitFacts CombineFacts
  SplitP SplitPFacts Secrecy CsprngFacts Derived RandomizerFacts.
Import ListNotations.

Lemma execution_app secret parts degree xs stream s sched s1 sched' s2 :
  execution secret parts degree xs stream s sched s1 -> execution secret parts degree xs stream s1 sched' s2 ->
  execution secret parts degree xs stream s (sched ++ sched') s2.
Proof. induction 1 as [|s th s1 sched s' H _ IH]; intros E; [exact E|]. cbn [app]. econstructor; [exact H|]. apply IH, E. Qed.

Lemma runSched_execution secret parts degree xs stream sched : forall s s',
  runSched secret parts degree xs stream sched s = Next s' <-> execution secret parts degree xs stream s sched s'.
Proof.
  induction sched as [|th sched IH]; intros s s'; cbn [runSched].
  - split; [intros E; injection E as ->; constructor|intros E; inversion E; reflexivity].
  - split.
    + destruct (pstep _ _ _ _ _ th s) as [|s1|p] eqn:E; [discriminate| |destruct sched; discriminate].
      intros H. econstructor; [exact E|]. apply IH, H.
    + intros E. inversion E as [|? ? s1 ? ? H1 H2]; subst. rewrite H1. apply IH, H2.
Qed.

Lemma runSched_crash secret parts degree xs stream p : forall sched s,
  runSched secret parts degree xs stream sched s = Crash p <->
  exists sched0 th s1, sched = sched0 ++ [th] /\ execution secret parts degree xs stream s sched0 s1 /\
    pstep secret parts degree xs stream th s1 = Crash p.
Proof.
  induction sched as [|th sched IH]; intros s; cbn [runSched].
  - split; [discriminate|]. intros (sched0 & th & s1 & E & _). destruct sched0; discriminate.
  - split.
    + destruct (pstep _ _ _ _ _ th s) as [|s1|q] eqn:E; [discriminate| |].
      * intros H. apply IH in H as (sched0 & th' & s2 & -> & H1 & H2). exists (th :: sched0), th', s2.
        split; [reflexivity|]. split; [econstructor; eassumption|exact H2].
      * destruct sched; [|discriminate]. intros H. injection H as ->. exists [], th, s. split; [reflexivity|]. split; [constructor|exact E].
    + intros (sched0 & th' & s1 & E & H1 & H2). destruct sched0 as [|t0 sched0].
      * injection E as -> ->. inversion H1; subst. rewrite H2. reflexivity.
      * cbn [app] in E. injection E as -> ->. inversion H1 as [|? ? s2 ? ? H3 H4]; subst. rewrite H3. apply IH. exists sched0, th', s1. auto.
Qed.

Lemma SplitPRun_spec perm stream secret parts threshold sched o :
  SplitPRun perm stream secret parts threshold sched = Some o <-> SplitP perm stream secret parts threshold sched o.
Proof.
  unfold SplitPRun. split.
  - destruct (checkArgs secret parts threshold) eqn:Ec.
    { destruct sched; [|discriminate]. intros E; injection E as <-. constructor. exact Ec. }
    destruct (layoutRows _ _ _) as [out| |p| |] eqn:El; try discriminate.
    + destruct (runSched _ _ _ _ _ _ _) as [|s|p] eqn:Er; [discriminate| |].
      * destruct (p_main s) eqn:Em; try discriminate. intros E; injection E as <-. apply runSched_execution in Er. econstructor; eassumption.
      * intros E; injection E as <-. apply runSched_crash in Er as (sched0 & th & s1 & -> & H1 & H2). econstructor; eassumption.
    + destruct sched; [|discriminate]. intros E; injection E as <-. apply SP_panic0; assumption.
  - intros H. destruct H as [e Ec|p Ec El|out sched s Ec El H Em|out sched s th p Ec El H Hc]; rewrite Ec; [reflexivity| | |]; rewrite El.
    + reflexivity.
    + apply runSched_execution in H. rewrite H, Em. reflexivity.
    + assert (Hr : runSched secret (Z.to_nat parts) (z2b (threshold - 1)) (map i2b perm) stream (sched ++ [th]) (pinit out) = Crash p).
      { apply runSched_crash. exists sched, th, s. auto. }
      rewrite Hr. reflexivity.
Qed.

Section More.
  Variables (secret : list byte) (parts : nat) (degree : byte) (xs : list byte) (stream : nat -> byte).
  Hypothesis Hdeg : b2i degree < 255.
  Hypothesis Hxs : parts <= length xs.

  Let step := pstep secret parts degree xs stream.
  Let L := length secret.
  Let Nn := N.to_nat (secretLen secret).
  Let d := b2i degree.
  Let tg (i : nat) : byte := badd (nth i xs x00) x01.
  Let inv := Inv secret parts degree xs stream.

  Definition out0 : list (list byte) := map (fun i => zeros (length secret) ++ [badd (nth i xs x00) x01]) (seq 0 parts).

  Lemma inv_init : inv (pinit out0) [].
  Proof.
    constructor; unfold pinit; cbn [p_main p_workers p_rpos p_out length].
    - lia.
    - discriminate.
    - intros k w H. destruct k; discriminate.
    - constructor.
    - lia.
    - intros p. split; [intros []|]. intros (k & w & H & _). destruct k; discriminate.
    - unfold out0. split; [rewrite map_length, seq_length; reflexivity|]. intros i Hi. rewrite nth_map_seq by exact Hi.
      split; [rewrite app_length, zeros_length; reflexivity|]. rewrite app_nth2 by (rewrite zeros_length; lia).
      rewrite zeros_length, Nat.sub_diag. reflexivity.
    - intros k w p H. destruct k; discriminate.
    - intros p Hp _ i Hi. unfold out0. rewrite nth_map_seq by exact Hi. rewrite app_nth1 by (rewrite zeros_length; exact Hp). apply nth_zeros.
  Qed.

  Definition drawsOfTh (th : nat) (s : pstate) : list nat := match th with O => [] | S k => drawsOf k s end.

  Lemma inv_step s drawn th s' : inv s drawn -> step th s = Next s' -> inv s' (drawn ++ drawsOfTh th s).
  Proof.
    intros I H. destruct th as [|k].
    - pose proof (main_step _ _ _ _ _ Hdeg Hxs _ _ I) as M. cbn [step pstep] in H. unfold step in H. cbn [pstep] in H. rewrite H in M.
      cbn [drawsOfTh]. rewrite app_nil_r. exact M.
    - pose proof (worker_step _ _ _ _ _ Hdeg Hxs _ _ k I) as M. unfold step in H. cbn [pstep] in H. rewrite H in M.
      destruct M as (dr & -> & M). exact M.
  Qed.

  Lemma inv_exec s sched s' : execution secret parts degree xs stream s sched s' -> forall drawn, inv s drawn -> exists drawn', inv s' drawn'.
  Proof. induction 1 as [|s th s1 sched s' H _ IH]; intros drawn I; [exists drawn; exact I|]. eapply IH. eapply inv_step; eassumption. Qed.

  Lemma crash_only s drawn th p : inv s drawn -> step th s = Crash p ->
    p = PSlice /\ (4294967296 - 1024 < secretLen secret)%N.
  Proof.
    intros I H. destruct th as [|k]; unfold step in H; cbn [pstep] in H.
    - pose proof (main_step _ _ _ _ _ Hdeg Hxs _ _ I) as M. rewrite H in M. tauto.
    - pose proof (worker_step _ _ _ _ _ Hdeg Hxs _ _ k I) as M. rewrite H in M. destruct M.
  Qed.

  (** ** no deadlock *)
  Lemma progress s drawn : inv s drawn -> p_main s <> MReturned -> exists th, step th s <> Blocked.
  Proof.
    intros I Hm. pose proof (main_step _ _ _ _ _ Hdeg Hxs _ _ I) as M.
    destruct (mainStep secret s) as [|s'|p] eqn:E.
    - destruct M as [M|[_ M]]; [contradiction|].
      assert (Hx : exists k w, nth_error (p_workers s) k = Some w /\ w_done w = false).
      { clear - M. induction (p_workers s) as [|w ws IH]; [discriminate|]. cbn [forallb] in M. destruct (w_done w) eqn:Ew.
        - destruct (IH M) as (k & w' & H1 & H2). exists (S k), w'. auto.
        - exists 0, w. auto. }
      destruct Hx as (k & w & H1 & H2). exists (S k). unfold step. cbn [pstep]. intros F.
      pose proof (worker_step _ _ _ _ _ Hdeg Hxs _ _ k I) as W. rewrite F in W. specialize (W w H1). congruence.
    - exists 0. unfold step. cbn [pstep]. rewrite E. discriminate.
    - exists 0. unfold step. cbn [pstep]. rewrite E. discriminate.
  Qed.

  (** ** every transition decreases a measure *)
  Definition wm (w : worker) : nat :=
    if w_done w then 0 else length (w_vals w) * (parts + 2) - match w_cur w with Some (_, i) => S i | None => 0 end + 1.
  Definition mm (m : mainpc) : nat :=
    match m with MLoop i => (Nn - N.to_nat i) * (parts + 4) + 2 | MWait => 1 | MReturned => 0 end.
  Definition measure (s : pstate) : nat := mm (p_main s) + list_sum (map wm (p_workers s)).

  Lemma list_sum_set (l : list worker) k w nw : nth_error l k = Some w ->
    list_sum (map wm (set_nth l k nw)) + wm w = list_sum (map wm l) + wm nw.
  Proof.
    revert k. induction l as [|a l IH]; intros [|k] H; try discriminate.
    - injection H as ->. unfold set_nth. cbn [firstn skipn app map].
      repeat match goal with |- context [list_sum (?x :: ?r)] => change (list_sum (x :: r)) with (x + list_sum r) end. lia.
    - cbn [nth_error] in H. specialize (IH _ H). change (set_nth (a :: l) (S k) nw) with (a :: set_nth l k nw). cbn [map].
      repeat match goal with |- context [list_sum (?x :: ?r)] => change (list_sum (x :: r)) with (x + list_sum r) end. lia.
  Qed.

  Lemma measure_main s drawn s' : inv s drawn -> mainStep secret s = Next s' -> measure s' < measure s.
  Proof.
    intros I H. pose proof (I_main _ _ _ _ _ _ _ I) as Hm. fold Nn in Hm. unfold mainStep in H. destruct (p_main s) as [i| |] eqn:Em.
    - destruct (N.ltb_spec i (secretLen secret)) as [Hi|Hi].
      + assert (Hi' : N.to_nat i < Nn) by (unfold Nn; lia).
        cbv zeta in H. unfold slice in H. destruct (_ && _)%bool eqn:Eb in H; [|discriminate]. cbn [crashOr] in H. injection H as <-.
        apply andb_true_iff in Eb as [B1 B2]. apply Nat.leb_le in B1, B2.
        unfold measure. cbn [p_main p_workers]. rewrite Em, map_app, list_sum_app. cbn [map list_sum fold_right mm].
        unfold wm at 2. cbn [w_done w_vals w_cur]. rewrite firstn_length, skipn_length.
        set (e := N.to_nat (chunkEnd secret i)) in *. set (i0 := N.to_nat i) in *.
        assert (He : e <= Nn).
        { unfold e, chunkEnd. cbv zeta. unfold Nn. destruct (N.ltb_spec (secretLen secret) (u32 (i + 1024))); lia. }
        assert (Hie : i0 < e).
        { destruct (Nat.eq_dec i0 e) as [F|]; [|lia]. exfalso.
          pose proof (I_main _ _ _ _ _ _ _ I) as Hm2. rewrite Em in Hm2. fold Nn in Hm2. fold i0 in Hm2.
          assert (HW : i0 = 1024 * length (p_workers s)) by lia.
          destruct (chunkEnd_eq secret parts degree xs Hdeg Hxs (length (p_workers s)) ltac:(fold Nn; lia)) as (C1 & C2).
          assert (Ei : N.of_nat (1024 * length (p_workers s)) = i) by (unfold i0 in *; lia). rewrite Ei in C1, C2. fold Nn in C1.
          destruct (N.lt_ge_cases (N.of_nat (1024 * S (length (p_workers s)))) 4294967296) as [HW2|HW2].
          - specialize (C1 HW2). fold e in C1. lia.
          - specialize (C2 HW2). unfold e in F. rewrite C2 in F. cbn in F.
            replace (N.of_nat (1024 * S (length (p_workers s)))) with (1024 * N.of_nat (S (length (p_workers s))))%N in HW2 by lia.
            lia. }
        replace (Nat.min (e - i0) (length secret - i0)) with (e - i0) by lia.
        replace (Nn - i0) with ((e - i0) + (Nn - e)) by lia.
        set (c := e - i0) in *. assert (1 <= c) by lia. nia.
      + injection H as <-. unfold measure. cbn [p_main p_workers]. rewrite Em. cbn [mm]. lia.
    - destruct (forallb w_done (p_workers s)); [|discriminate]. injection H as <-. unfold measure. cbn [p_main p_workers]. rewrite Em. cbn [mm]. lia.
    - discriminate.
  Qed.

  Lemma measure_worker s drawn k s' : inv s drawn -> workerStep parts degree xs stream k s = Next s' -> measure s' < measure s.
  Proof.
    intros I H. unfold workerStep in H. destruct (nth_error (p_workers s) k) as [w|] eqn:Hk; [|discriminate].
    destruct (w_done w) eqn:Hd; [discriminate|].
    pose proof (nth_error_lt _ _ _ Hk) as Hlt. pose proof (length_vals _ _ _ _ _ Hdeg Hxs _ _ _ _ I Hk) as Hlv.
    destruct (I_work _ _ _ _ _ _ _ I _ _ Hk) as (B & V & _ & C).
    assert (G : forall nw rp out, wm nw < wm w -> setWorker s k nw rp out = Next s' -> measure s' < measure s).
    { intros nw rp out Hw E. unfold setWorker in E. rewrite upd_ok in E by exact Hlt. cbn [crashOr] in E. injection E as <-.
      unfold measure. cbn [p_main p_workers]. pose proof (list_sum_set _ _ _ nw Hk). lia. }
    assert (Ew : forall c v, wm {| w_crt := c; w_vals := v; w_cur := None; w_done := false |} = length v * (parts + 2) + 1)
      by (intros; unfold wm; cbn; lia).
    assert (Ew2 : forall c v p i, wm {| w_crt := c; w_vals := v; w_cur := Some (p, i); w_done := false |} = length v * (parts + 2) - S i + 1)
      by (intros; reflexivity).
    destruct (w_cur w) as [[q i]|] eqn:Hc.
    - destruct (C q i eq_refl) as (Cb & Ci & _).
      assert (Hw : wm w = length (w_vals w) * (parts + 2) - S i + 1) by (unfold wm; rewrite Hd, Hc; reflexivity).
      assert (Hlv1 : 1 <= length (w_vals w)) by lia.
      destruct (Nat.ltb_spec i parts) as [Hi|Hi].
      + destruct (do x <- tagOf xs i; _) as [out| | | |] eqn:Eo; cbn [crashOr] in H; try discriminate.
        eapply G; [|exact H]. rewrite Ew2, Hw. nia.
      + eapply G; [|exact H]. rewrite Ew, Hw. destruct (w_vals w) as [|v r]; [cbn in Hlv1; lia|]. cbn [tl length]. nia.
    - destruct (w_vals w) as [|val rest] eqn:Hv.
      + eapply G; [|exact H]. unfold wm. cbn. rewrite Hd, Hc. lia.
      + destruct (makePolynomial val degree _) as [p| | | |]; cbn [crashOr] in H; try discriminate.
        eapply G; [|exact H]. rewrite Ew2. unfold wm. rewrite Hd, Hc, Hv. cbn [length]. nia.
  Qed.

  Lemma exec_bounded s sched s' : execution secret parts degree xs stream s sched s' -> forall drawn, inv s drawn ->
    length sched + measure s' <= measure s.
  Proof.
    induction 1 as [|s th s1 sched s' H _ IH]; intros drawn I; [cbn; lia|].
    pose proof (inv_step _ _ _ _ I H) as I1. specialize (IH _ I1). cbn [length].
    assert (measure s1 < measure s); [|lia]. destruct th as [|k]; [eapply measure_main|eapply measure_worker]; eassumption.
  Qed.

  (** ** the final state *)
  Lemma final_drawn s drawn : inv s drawn -> p_main s = MReturned -> forall p, In p drawn <-> p < Nn.
  Proof.
    intros I Hm p. pose proof (I_ret _ _ _ _ _ _ _ I Hm) as Hd. rewrite forallb_forall in Hd.
    pose proof (I_main _ _ _ _ _ _ _ I) as HW. rewrite Hm in HW. fold Nn in HW.
    assert (Done : forall k w, nth_error (p_workers s) k = Some w -> N.to_nat (w_crt w) = bend secret k /\ w_cur w = None).
    { intros k w H. destruct (I_work _ _ _ _ _ _ _ I _ _ H) as (_ & _ & D & _). apply D, Hd. eapply nth_error_In, H. }
    rewrite (I_drawn _ _ _ _ _ _ _ I). split.
    - intros (k & w & H & H1 & H2). destruct (Done _ _ H) as (E1 & E2). pose proof (bend_le secret parts degree xs Hdeg Hxs k). fold Nn in H0.
      destruct H2 as [H2|[_ H2]]; [lia|congruence].
    - intros Hp. assert (Hk : p / 1024 < length (p_workers s)) by (apply Nat.div_lt_upper_bound; lia).
      destruct (nth_error (p_workers s) (p / 1024)) as [w|] eqn:Ew; [|apply nth_error_None in Ew; lia].
      exists (p / 1024), w. split; [exact Ew|]. destruct (Done _ _ Ew) as (E1 & _).
      pose proof (Nat.div_mod p 1024 ltac:(lia)). pose proof (Nat.mod_upper_bound p 1024 ltac:(lia)).
      split; [lia|]. left. rewrite E1. unfold bend. fold Nn. lia.
  Qed.

  Fixpoint posIn (p : nat) (l : list nat) : nat :=
    match l with [] => 0 | a :: r => if Nat.eqb a p then 0 else S (posIn p r) end.

  Lemma posIn_spec p l : In p l -> nth_error l (posIn p l) = Some p.
  Proof.
    induction l as [|a l IH]; [intros []|]. intros H. cbn [posIn]. destruct (Nat.eqb_spec a p) as [->|Hne]; [reflexivity|].
    cbn [nth_error]. apply IH. destruct H; [contradiction|assumption].
  Qed.

  Lemma posIn_unique p l j : NoDup l -> nth_error l j = Some p -> posIn p l = j.
  Proof.
    intros ND. revert j. induction ND as [|a l Ha ND IH]; intros [|j] H; try discriminate.
    - injection H as ->. cbn. rewrite Nat.eqb_refl. reflexivity.
    - cbn in H. cbn [posIn]. destruct (Nat.eqb_spec a p) as [->|Hne]; [exfalso; apply Ha; eapply nth_error_In, H|]. f_equal. apply IH, H.
  Qed.

  (** the polynomials used, given the order in which positions drew their randomness *)
  Definition polyP (order : list nat) (p : nat) : list byte :=
    if p <? N.to_nat (secretLen secret)
    then nth p secret x00 :: take_stream (fun m => stream (b2i degree * posIn p order + m)) (b2i degree)
    else zeros (S (b2i degree)).
  Definition polysP (order : list nat) : list (list byte) := map (polyP order) (seq 0 (length secret)).

  Lemma final_out s drawn : inv s drawn -> p_main s = MReturned ->
    p_out s = map (share_at (polysP drawn)) (tagsOf parts xs).
  Proof.
    intros I Hm. pose proof (final_drawn _ _ I Hm) as FD.
    destruct (I_out _ _ _ _ _ _ _ I) as (O1 & O2). rewrite (list_as_map (p_out s) []), O1.
    unfold tagsOf. rewrite map_map. rewrite (map_as_seq _ (firstn parts xs) x00). rewrite firstn_length, Nat.min_l by exact Hxs.
    apply map_ext_in. intros i Hi. apply in_seq in Hi. destruct (O2 i ltac:(lia)) as (O3 & O4).
    rewrite nth_firstn by lia. fold (tg i). unfold share_at.
    apply nth_ext with (d := x00) (d' := x00).
    { rewrite O3, app_length. unfold polysP. rewrite !map_length, seq_length. reflexivity. }
    intros p Hp. rewrite O3 in Hp. fold L in Hp.
    assert (Lm : length (map (fun q => peval q (tg i)) (polysP drawn)) = L) by (unfold polysP; rewrite !map_length, seq_length; reflexivity).
    destruct (Nat.eq_dec p L) as [->|Hne].
    { fold L in O4. rewrite O4. rewrite app_nth2 by lia. rewrite Lm, Nat.sub_diag. reflexivity. }
    rewrite app_nth1 by lia. unfold polysP. rewrite map_map, nth_map_seq by (fold L; lia). rewrite peval_heval. unfold polyP. fold Nn.
    destruct (Nat.ltb_spec p Nn) as [HpN|HpN].
    - pose proof (proj2 (FD p) HpN) as Hin.
      apply (I_drawn _ _ _ _ _ _ _ I) in Hin as (k & w & H & H1 & H2).
      pose proof (I_ret _ _ _ _ _ _ _ I Hm) as Hd. rewrite forallb_forall in Hd.
      destruct (I_work _ _ _ _ _ _ _ I _ _ H) as (_ & _ & D & _). destruct (D (Hd _ (nth_error_In _ _ H))) as (_ & D2).
      assert (Hlt : 1024 * k <= p < N.to_nat (w_crt w)) by (destruct H2 as [H2|[_ H2]]; [lia|congruence]).
      destruct (I_fin _ _ _ _ _ _ _ I k w p H Hlt) as (j & J1 & J2). rewrite J2 by lia.
      rewrite (posIn_unique p drawn j (I_nodup _ _ _ _ _ _ _ I) J1). reflexivity.
    - rewrite (I_zero _ _ _ _ _ _ _ I p ltac:(fold L; lia)); [|rewrite FD; lia|lia].
      symmetry. rewrite <- (app_nil_l (zeros _)). unfold zeros. change [] with (@nil byte). 
      assert (Z : forall n x, heval (repeat x00 n) x = x00).
      { induction n as [|n IHn]; intros x; [reflexivity|]. cbn [repeat heval]. rewrite IHn. rewrite gmul_0_r. reflexivity. }
      apply Z.
  Qed.
End More.
