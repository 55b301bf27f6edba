(** The [W]-bit [SplitWithRandomizerOld] and [SplitGeneric] of IntWidth.v against Shamir.v. *)
From Coq Require Import List NArith ZArith Lia Arith Bool.
From Coq.Init Require Import Byte.
From Verif Require Import GoSem Bytes GoFacts Galois Vector Csprng Pool Polynomial Shamir Spec PolyFacts PolynomialFacts SplitFacts SpecWidth IntWidth IntWidthFacts.
Import ListNotations.

Section Top.
  Variables (W maxAlloc : Z).
  Hypothesis HW : (16 <= W)%Z.

  Lemma makePolynomialsW_sim (P : Prop) secret d stream : 0 < length secret ->
    (Z.of_nat ((d + 1) * length secret) <= maxInt W)%Z ->
    ((maxAlloc < Z.of_nat ((d + 1) * length secret))%Z -> P) ->
    sim P eq (makePolynomialsW W maxAlloc secret (Z.of_nat d) stream) (makePolynomials secret d stream).
  Proof.
    intros HN H HP. unfold makePolynomialsW, makePolynomials. cbv zeta. unfold len. set (N := length secret) in *.
    assert (K1 : d + 1 <= (d + 1) * N) by nia. assert (K2 : d * N <= (d + 1) * N) by nia.
    rewrite (int_to_nat W HW _ (d + 1)) by lia. rewrite (int_to_nat W HW _ (d * N)) by lia.
    match goal with |- sim _ _ _ (bind (foreach ?l ?f (?m, 0)) ?k) =>
      change (bind (foreach l f (m, 0)) k) with (bind (Ret m) (fun m' => bind (foreach l f (m', 0)) k)) end.
    eapply sim_bind.
    { apply newMatrixW_sim; [exact HW|rewrite Nat.mul_comm; exact H|lia|rewrite Nat.mul_comm; exact HP]. }
    intros m0 ? <- _ _.
    match goal with |- sim _ _ _ ?o => change o with (bind (Ret (zeros (d * N))) (fun _ => o)) end.
    eapply sim_bind; [apply zmake_nat; intros Hm; apply HP; lia|]. intros z ? -> _ Ez. injection Ez as <-.
    rewrite zeros_length.
    set (R := fun (i : nat) (s1 : list (list byte) * Z) (s2 : list (list byte) * nat) =>
       fst s1 = fst s2 /\ snd s1 = Z.of_nat (snd s2) /\ snd s2 = d * i).
    eapply (sim_bind P (R N)).
    - apply (sim_foreach_ix P R).
      + intros i [p1 s1] [p2 s2] Hi (E1 & E2 & E3). cbn [fst snd] in E1, E2, E3. subst p1 s1 s2.
        assert (K : d * i + d <= d * N) by nia.
        eapply sim_bind; [apply sim_refl|]. intros ip ? <- _ _.
        eapply sim_bind; [apply sim_refl|]. intros pp ? <- _ _.
        eapply sim_bind; [apply sim_refl|]. intros r ? <- _ _.
        eapply sim_bind; [apply sim_refl|]. intros dst ? <- _ _.
        rewrite (int_to_nat W HW _ (d * i + d)) by lia. rewrite zslice_nat.
        eapply sim_bind; [apply sim_refl|]. intros src ? <- _ _.
        eapply sim_bind; [apply sim_refl|]. intros q ? <- _ _.
        apply sim_ret. unfold R. cbn [fst snd]. repeat split; lia.
      + unfold R. cbn [fst snd]. repeat split; lia.
    - intros [p1 s1] [p2 s2] (E1 & _) _ _. cbn [fst] in E1. subst p1. apply sim_refl.
  Qed.

  Lemma makePolynomialsWithRandomizerW_sim (P : Prop) secret d ks : 0 < length secret ->
    (Z.of_nat ((d + 1) * length secret) <= maxInt W)%Z ->
    ((maxAlloc < Z.of_nat ((d + 1) * length secret))%Z -> P) ->
    sim P eq (makePolynomialsWithRandomizerW W maxAlloc secret (Z.of_nat d) ks) (makePolynomialsWithRandomizer secret d ks).
  Proof.
    intros HN H HP. unfold makePolynomialsWithRandomizerW, makePolynomialsWithRandomizer. cbv zeta. unfold len.
    set (N := length secret) in *.
    assert (K1 : d + 1 <= (d + 1) * N) by nia.
    rewrite (window_start W HW d N) by exact H.
    match goal with |- sim _ _ _ (bind (setIntercepts secret d (Read ks ?z)) ?k) =>
      change (bind (setIntercepts secret d (Read ks z)) k)
        with (bind (Ret z) (fun z' => bind (setIntercepts secret d (Read ks z')) k)) end.
    eapply sim_bind; [apply zmake_nat; exact HP|]. intros z ? <- _ _.
    eapply sim_bind; [apply setInterceptsW_sim; [exact HW|exact H]|]. intros c ? <- _ _.
    apply sim_foreach_eq. intros i s Hi. apply in_seq in Hi. cbv beta zeta.
    rewrite (window_slice W HW c d N i) by (try lia; exact H). apply sim_refl.
  Qed.

  Lemma layoutRowsW_sim (P : Prop) N n xs : (Z.of_nat (N + 1) <= maxInt W)%Z -> ((maxAlloc < Z.of_nat (N + 1))%Z -> P) ->
    sim P eq (layoutRowsW W maxAlloc (Z.of_nat N) n xs) (layoutRows N n xs).
  Proof.
    intros H HP. unfold layoutRowsW, layoutRows. apply sim_foreach_eq. intros i s _.
    eapply sim_bind; [apply sim_refl|]. intros t ? <- _ _. rewrite (int_to_nat W HW _ (N + 1)) by lia.
    match goal with |- sim _ _ _ (bind (upd ?z N t) ?k) =>
      change (bind (upd z N t) k) with (bind (Ret z) (fun z' => bind (upd z' N t) k)) end.
    eapply sim_bind; [apply zmake_nat; exact HP|]. intros z ? <- _ _. rewrite zupd_nat. apply sim_refl.
  Qed.

  Lemma layoutRowsW_cases N n xs : (0 <= N)%Z -> n <= length xs ->
    panics (layoutRowsW W maxAlloc N n xs) \/ exists o, layoutRowsW W maxAlloc N n xs = Ret o.
  Proof.
    intros H0 Hn. unfold layoutRowsW.
    match goal with |- context [foreach _ ?f _] => set (F := f) end.
    assert (St : forall i s, i < n -> length s = n -> panics (F i s) \/ exists s', F i s = Ret s' /\ length s' = n).
    { intros i s Hi Ls. unfold F. rewrite tagOf_ok by lia. cbn [bind]. unfold zmake.
      destruct ((int W (N + 1) <? 0) || (maxAlloc <? int W (N + 1)))%Z; cbn [bind]; [left; eexists; reflexivity|].
      unfold zupd. destruct (N <? 0)%Z; cbn [bind]; [left; eexists; reflexivity|].
      unfold upd at 1 3. destruct (_ <? _); cbn [bind]; [|left; eexists; reflexivity].
      right. rewrite upd_ok by lia. eexists. split; [reflexivity|]. rewrite set_nth_length; lia. }
    assert (G : forall k a s, a + k <= n -> length s = n ->
      panics (foreach (seq a k) F s) \/ exists r, foreach (seq a k) F s = Ret r).
    { induction k as [|k IH]; intros a s La Ls; cbn [seq foreach]; [right; eexists; reflexivity|].
      destruct (St a s ltac:(lia) Ls) as [[p E] | (s' & E & Ls')]; rewrite E; cbn [bind]; [left; eexists; reflexivity|].
      apply IH; [lia|exact Ls']. }
    apply G; [lia|apply repeat_length].
  Qed.

  Lemma polysGen_length t secret rnd : length (polysGen t secret rnd) = length secret.
  Proof. unfold polysGen. rewrite map_length, seq_length. reflexivity. Qed.

  Lemma SplitGenericW_sim (P : Prop) perm stream secret parts threshold :
    let N := length secret in let t := Z.to_nat threshold in
    (checkArgs secret parts threshold = None -> (Z.of_nat (t * N) <= maxInt W)%Z) ->
    (~ generic_fit W maxAlloc N t -> P) ->
    sim P eq (SplitGenericW W maxAlloc perm stream secret parts threshold) (SplitGeneric perm stream secret parts threshold).
  Proof.
    intros N t Hfit HP. unfold SplitGenericW, SplitGeneric.
    destruct (checkArgs secret parts threshold) as [e|] eqn:Hc; [right; reflexivity|]. specialize (Hfit eq_refl).
    apply checkArgs_none in Hc. destruct Hc as (Ht & Hp & HN). fold N in HN. pose proof (half_big W HW) as Hb.
    assert (HN1 : N + 1 <= t * N) by (unfold t; nia).
    cbv zeta. unfold len. fold N.
    eapply sim_bind; [apply layoutRowsW_sim; [lia|]; intros Hm; apply HP; intros (F & _); unfold room in F; lia|]. intros out ? <- _ _.
    set (d := Z.to_nat (threshold - 1)). assert (Ed : t = d + 1) by (unfold t, d; lia).
    rewrite (int_to_nat W HW _ d) by (unfold maxInt; unfold d; lia).
    assert (Hm1 : (maxAlloc < Z.of_nat (t * N))%Z -> P) by (intros Hm; apply HP; intros (_ & F); unfold room in F; lia).
    eapply sim_bind.
    { apply makePolynomialsW_sim; [exact HN|fold N; rewrite <- Ed; exact Hfit|fold N; rewrite <- Ed; exact Hm1]. }
    intros pols ? <- _ Ep. rewrite makePolynomials_ok in Ep. fold N in Ep. rewrite <- Ed in Ep.
    assert (Lp : length pols = N) by (injection Ep as <-; apply polysGen_length).
    assert (Rp : forall j, j < N -> length (nth j pols []) = t).
    { intros j Hj. injection Ep as <-. unfold polysGen. rewrite nth_map_seq by exact Hj. cbn [length].
      rewrite row_length; [lia|]. rewrite take_stream_length. nia. }
    assert (Hne : pols <> []) by (intros E; rewrite E in Lp; cbn in Lp; lia).
    eapply sim_bind.
    { apply transposeW_sim; [exact HW|]. intros m0 E0. rewrite (idx_ok pols 0 []) in E0 by lia. injection E0 as <-.
      rewrite Rp, Lp by lia. repeat split; [lia|lia|exact Hm1]. }
    intros cs ? <- _ Ecs.
    destruct (transpose_ok pols t Hne) as (r & E1 & L1 & V1); [intros j Hj; apply Rp; lia|].
    rewrite E1 in Ecs. injection Ecs as <-.
    apply sim_foreach_eq. intros i o _.
    eapply sim_bind; [apply sim_refl|]. intros x ? <- _ _. eapply sim_bind; [apply sim_refl|]. intros w ? <- _ _.
    eapply sim_bind.
    { apply genericEvaluateW_sim; [exact HW| | |].
      - intros E. rewrite E in L1. cbn in L1. lia.
      - intros c0 E0 Hm. rewrite (idx_ok r 0 []) in E0 by lia. injection E0 as <-.
        rewrite (proj1 (V1 0 ltac:(lia))), Lp in Hm. apply HP. intros (F & _). unfold room in F. lia.
      - rewrite L1. unfold maxInt. unfold t. lia. }
    intros w' ? <- _ _. apply sim_refl.
  Qed.

  Lemma SplitGenericW_overflow perm stream secret parts threshold : checkArgs secret parts threshold = None ->
    (parts <= Z.of_nat (length perm))%Z -> (len secret <= maxInt W)%Z -> (maxInt W < threshold * len secret)%Z ->
    panics (SplitGenericW W maxAlloc perm stream secret parts threshold).
  Proof.
    intros Hc Hperm Hl Ho. unfold SplitGenericW. rewrite Hc. apply checkArgs_none in Hc. destruct Hc as (Ht & Hp & HN).
    pose proof (half_big W HW) as Hb. cbv zeta. apply panics_bind.
    destruct (layoutRowsW_cases (len secret) (Z.to_nat parts) (map i2b perm)) as [H | (o & E)].
    { unfold len. lia. } { rewrite map_length. lia. } { left. exact H. }
    right. exists o. split; [exact E|]. apply panics_bind. left.
    unfold makePolynomialsW. apply panics_bind. left.
    rewrite (int_id W HW (threshold - 1)) by (unfold maxInt; lia).
    rewrite int_id by (try exact HW; unfold maxInt; lia).
    apply newMatrixW_overflow; [exact HW|unfold len; lia|unfold maxInt; lia|].
    replace (threshold - 1 + 1)%Z with threshold by lia. lia.
  Qed.

  Lemma SplitWithRandomizerOldW_sim (P : Prop) ar growcap ks evBufs secret parts threshold :
    let N := length secret in let n := Z.to_nat parts in
    (checkArgs secret parts threshold = None -> (Z.of_nat ((N + 1) * n) <= maxInt W)%Z) ->
    (~ old_fit W maxAlloc growcap evBufs N n -> P) ->
    sim P eq (SplitWithRandomizerOldW W maxAlloc ar growcap ks evBufs secret parts threshold)
      (SplitWithRandomizerOld ar growcap ks evBufs secret parts threshold).
  Proof.
    intros N n Hfit HP. unfold SplitWithRandomizerOldW, SplitWithRandomizerOld.
    destruct (checkArgs secret parts threshold) as [e|] eqn:Hc; [right; reflexivity|]. specialize (Hfit eq_refl).
    apply checkArgs_none in Hc. destruct Hc as (Ht & Hp & HN). fold N in HN. pose proof (half_big W HW) as Hb.
    cbv zeta. unfold len. fold N.
    eapply sim_bind; [apply sim_refl|]. intros xs ? <- _ _.
    replace parts with (Z.of_nat n) at 1 by (unfold n; lia). fold n.
    eapply sim_bind; [apply layoutFlatW_sim; [exact HW|exact Hfit|]; intros Hm; apply HP; intros (F & _); unfold room in F; lia|].
    intros buff ? <- _ _.
    set (t := Z.to_nat threshold).
    set (d := Z.to_nat (threshold - 1)). assert (Ed : t = d + 1) by (unfold t, d; lia).
    rewrite (int_to_nat W HW _ d) by (unfold maxInt; unfold d; lia).
    assert (Htn : t <= n) by (unfold t, n; lia).
    assert (HtN : t * N <= (N + 1) * n) by nia.
    assert (Hm1 : (maxAlloc < Z.of_nat (t * N))%Z -> P) by (intros Hm; apply HP; intros (F & _); unfold room in F; lia).
    eapply sim_bind.
    { apply makePolynomialsWithRandomizerW_sim; [exact HN|fold N; rewrite <- Ed; lia|fold N; rewrite <- Ed; exact Hm1]. }
    intros pols ? <- _ Ep. rewrite makePolynomialsWithRandomizer_ok in Ep. fold N in Ep. rewrite <- Ed in Ep.
    assert (Lp : length pols = N) by (injection Ep as <-; apply polysOf_length).
    assert (Rp : forall j, j < N -> length (nth j pols []) = t).
    { intros j Hj. injection Ep as <-.
      assert (Fp : Forall (fun p => length p = t) (polysOf t secret (take_stream ks (t * N)))) by (apply polysOf_row_length; [lia|apply take_stream_length]).
      rewrite Forall_forall in Fp. apply Fp, nth_In. rewrite polysOf_length. exact Hj. }
    assert (Hne : pols <> []) by (intros E; rewrite E in Lp; cbn in Lp; lia).
    eapply sim_bind.
    { apply transposeW_sim; [exact HW|]. intros m0 E0. rewrite (idx_ok pols 0 []) in E0 by lia. injection E0 as <-.
      rewrite Rp, Lp by lia. repeat split; [lia|nia|exact Hm1]. }
    intros cs ? <- _ Ecs.
    destruct (transpose_ok pols t Hne) as (r & E1 & L1 & V1); [intros j Hj; apply Rp; lia|].
    rewrite E1 in Ecs. injection Ecs as <-.
    eapply sim_bind.
    { apply sim_foreach_eq. intros i b Hi. apply in_seq in Hi. cbv beta zeta.
      rewrite (window_slice W HW b N n i) by (try lia; exact Hfit).
      eapply sim_bind; [apply sim_refl|]. intros w ? <- _ _. eapply sim_bind; [apply sim_refl|]. intros x ? <- _ _.
      eapply sim_bind.
      { apply evaluatePolynomialsAtW_sim; [exact HW| | |].
        - intros E. rewrite E in L1. cbn in L1. lia.
        - intros c0 E0 Hlt Hm. rewrite (idx_ok r 0 []) in E0 by lia. injection E0 as <-.
          assert (L0 : length (nth 0 r []) = N) by (rewrite (proj1 (V1 0 ltac:(lia))); exact Lp). rewrite L0 in Hm, Hlt.
          apply HP. intros (_ & F). specialize (F i ltac:(lia) Hlt). unfold room in F. lia.
        - rewrite L1. unfold maxInt. unfold t. lia. }
      intros w' ? <- _ _. rewrite window_start by (try exact HW; nia). rewrite Nat2Z.id. apply sim_refl. }
    intros b1 ? <- _ _. apply windowsW_sim; [exact HW|exact Hfit].
  Qed.

  Lemma SplitWithRandomizerOldW_overflow ar growcap ks evBufs secret parts threshold xs :
    checkArgs secret parts threshold = None -> Perm ks xff = Ret xs ->
    (len secret <= maxInt W)%Z -> (maxInt W < (len secret + 1) * parts)%Z ->
    panics (SplitWithRandomizerOldW W maxAlloc ar growcap ks evBufs secret parts threshold).
  Proof.
    intros Hc Ex Hl Ho. unfold SplitWithRandomizerOldW. rewrite Hc, Ex. apply checkArgs_none in Hc. destruct Hc as (Ht & Hp & HN).
    cbn [bind]. cbv zeta. apply panics_bind. left. apply layoutFlatW_overflow; [exact HW| |lia|exact Ho].
    unfold len in *. lia.
  Qed.
End Top.
