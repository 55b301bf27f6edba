(** [Combine], [Regenerate] and [SplitP] on a [W]-bit machine against Shamir.v and SplitP.v (C88). *)
From Coq Require Import List NArith ZArith Lia Arith Bool.
From Coq.Init Require Import Byte.
From Verif Require Import GoSem Bytes GoFacts Galois Vector Polynomial Shamir SplitP Spec CombineFacts
  SpecWidth SpecWidthMore IntWidth IntWidthFacts IntWidthTop IntWidthMore.
Import ListNotations.

Section Facts.
  Variables (W maxAlloc : Z).
  Hypothesis HW : (16 <= W)%Z.

  Lemma header_pos : (6 <= header W)%Z.
  Proof.
    unfold header. assert (2 <= W / 8)%Z; [|lia]. apply Z.div_le_lower_bound; lia.
  Qed.

  Lemma zmake_in n : (Z.of_nat n <= maxAlloc)%Z -> zmake maxAlloc (Z.of_nat n) = Ret (zeros n).
  Proof.
    intros H. unfold zmake. destruct (Z.ltb_spec (Z.of_nat n) 0); [lia|]. destruct (Z.ltb_spec maxAlloc (Z.of_nat n)); [lia|].
    cbn [orb]. rewrite Nat2Z.id. reflexivity.
  Qed.

  Lemma slices_len n : (0 <= n)%Z -> slices_fit W maxAlloc n -> (n <= maxAlloc)%Z.
  Proof. intros H (_ & F). pose proof header_pos. nia. Qed.

  Lemma in_memory_first parts : in_memory W maxAlloc parts -> checkParts parts = None ->
    let n := length (nth 0 parts []) in
    2 <= n /\ (Z.of_nat n <= maxAlloc)%Z /\ (Z.of_nat n <= maxInt W)%Z /\ (len parts <= maxAlloc)%Z.
  Proof.
    intros (Hs & Hp) Hc n. apply checkParts_None in Hc as (H1 & H2 & H3).
    assert (K : (Z.of_nat n <= room W maxAlloc)%Z) by (apply Hp, nth_In; lia). unfold room in K.
    split; [exact H2|]. split; [lia|]. split; [lia|]. apply slices_len; [unfold len; lia|exact Hs].
  Qed.

  Lemma CombineW_eq parts : in_memory W maxAlloc parts -> CombineW W maxAlloc parts = Combine parts.
  Proof.
    intros M. unfold CombineW, Combine. destruct (checkParts parts) eqn:Hc; [reflexivity|].
    destruct (in_memory_first parts M Hc) as (H1 & H2 & H3 & H4). cbv zeta. unfold len in *.
    set (n := length (nth 0 parts [])) in *.
    rewrite (int_to_nat W HW _ (n - 1)) by lia. rewrite !zmake_in by lia. cbn [bind].
    unfold zeros at 1. rewrite repeat_length. reflexivity.
  Qed.

  Lemma RegenerateW_eq fuel stream u parts num : in_memory W maxAlloc parts -> (0 <= num)%Z -> slices_fit W maxAlloc num ->
    RegenerateW W maxAlloc fuel stream u parts num = Regenerate fuel stream u parts num.
  Proof.
    intros M H0 F. unfold RegenerateW, Regenerate. destruct (checkParts parts) eqn:Hc; [reflexivity|].
    destruct (in_memory_first parts M Hc) as (H1 & H2 & H3 & H4). cbv zeta. unfold len in *.
    set (n := length (nth 0 parts [])) in *.
    pose proof (slices_len num H0 F) as Hn. destruct F as (_ & F).
    unfold zmakeSlices, make_len. destruct (Z.ltb_spec num 0); [lia|]. destruct (Z.ltb_spec maxAlloc (header W * num)); [lia|].
    cbn [orb bind]. rewrite !zmake_in by lia. cbn [bind].
    replace (zmake maxAlloc num) with (Ret (zeros (Z.to_nat num))).
    2:{ rewrite <- zmake_in by lia. f_equal. lia. }
    cbn [bind].
    destruct (collectTags n [] parts); cbn [bind]; try reflexivity.
    unfold zeros at 1 2. rewrite repeat_length.
    destruct (dedupLoop fuel u a (take_stream stream (Z.to_nat num))); cbn [bind]; try reflexivity.
    match goal with |- foreach ?l ?f ?s = foreach ?l ?g ?s => assert (E : forall l' s', foreach l' f s' = foreach l' g s') end.
    { induction l' as [|k l' IH]; intros s'; cbn [foreach]; [reflexivity|].
      match goal with |- bind ?x _ = bind ?y _ => assert (E : x = y) end.
      { cbn [bind]. destruct (idx (take_stream stream (Z.to_nat num)) k); cbn [bind]; try reflexivity.
        rewrite (int_to_nat W HW _ (n - 1)) by lia. rewrite zupd_nat. reflexivity. }
      rewrite E. match goal with |- bind ?x _ = _ => destruct x end; cbn [bind]; [apply IH|reflexivity..]. }
    apply E.
  Qed.

  Lemma RegenerateW_panic fuel stream u parts num : checkParts parts = None ->
    (num < 0 \/ maxAlloc < header W * num)%Z -> RegenerateW W maxAlloc fuel stream u parts num = Panic PMakeLen.
  Proof.
    intros Hc H. unfold RegenerateW. rewrite Hc. cbv zeta. unfold zmakeSlices.
    destruct (Z.ltb_spec num 0); cbn [orb bind]; [reflexivity|]. destruct (Z.ltb_spec maxAlloc (header W * num)); [reflexivity|lia].
  Qed.

  Lemma RegenerateW_fail fuel stream u parts num e : checkParts parts = Some e ->
    RegenerateW W maxAlloc fuel stream u parts num = Fail e.
  Proof. intros Hc. unfold RegenerateW. rewrite Hc. reflexivity. Qed.

  (** ** SplitP *)
  Lemma layoutRowsW_eq N n xs : (Z.of_nat (N + 1) <= room W maxAlloc)%Z ->
    layoutRowsW W maxAlloc (Z.of_nat N) n xs = layoutRows N n xs.
  Proof.
    intros H. unfold room in H. apply (sim_strict (maxAlloc < Z.of_nat (N + 1))%Z); [|lia].
    apply layoutRowsW_sim; [exact HW|lia|tauto].
  Qed.

  Lemma layoutRowsW_no_room N n xs : 0 < n -> 0 < length xs -> (Z.of_nat N <= maxInt W)%Z ->
    (room W maxAlloc < Z.of_nat (N + 1))%Z -> layoutRowsW W maxAlloc (Z.of_nat N) n xs = Panic PMakeLen.
  Proof.
    intros Hn Hx HN H. unfold layoutRowsW. destruct n as [|n]; [lia|]. cbn [seq foreach]. unfold tagOf at 1.
    destruct xs as [|x xs]; [cbn in Hx; lia|]. cbn [idx nth_error bind]. unfold zmake. unfold room in H.
    destruct (Z_le_gt_dec (Z.of_nat (N + 1)) (maxInt W)) as [K|K].
    - rewrite (int_to_nat W HW _ (N + 1)) by lia.
      destruct (Z.ltb_spec (Z.of_nat (N + 1)) 0); [lia|]. destruct (Z.ltb_spec maxAlloc (Z.of_nat (N + 1))); [reflexivity|lia].
    - assert (I : (int W (Z.of_nat N + 1) < 0)%Z).
      { apply int_neg; [exact HW|]. pose proof (half W HW). unfold maxInt in *. pose proof (half_big W HW). lia. }
      destruct (Z.ltb_spec (int W (Z.of_nat N + 1)) 0); [reflexivity|lia].
  Qed.

  Lemma SplitPW_eq perm stream secret parts threshold sched o : (Z.of_nat (length secret + 1) <= room W maxAlloc)%Z ->
    SplitPW W maxAlloc perm stream secret parts threshold sched o <-> SplitP perm stream secret parts threshold sched o.
  Proof.
    intros F. assert (L : layoutRowsW W maxAlloc (len secret) (Z.to_nat parts) (map i2b perm) =
      layoutRows (length secret) (Z.to_nat parts) (map i2b perm)) by (apply layoutRowsW_eq; exact F).
    split; intros H.
    - destruct H as [e He | p Hc Hp | out sched s Hc Ho He Hm | out sched s th p Hc Ho He Hm]; rewrite ?L in *.
      + apply SP_fail; exact He.
      + apply SP_panic0; [exact Hc|exact Hp].
      + eapply SP_return; eassumption.
      + eapply SP_crash; eassumption.
    - destruct H as [e He | p Hc Hp | out sched s Hc Ho He Hm | out sched s th p Hc Ho He Hm]; rewrite <- ?L in *.
      + apply SPW_fail; exact He.
      + apply SPW_panic0; [exact Hc|exact Hp].
      + eapply SPW_return; eassumption.
      + eapply SPW_crash; eassumption.
  Qed.

  Lemma SplitPW_no_room perm stream secret parts threshold sched o : valid_args secret parts threshold -> 0 < length perm ->
    (Z.of_nat (length secret) <= maxInt W)%Z -> (room W maxAlloc < Z.of_nat (length secret + 1))%Z ->
    SplitPW W maxAlloc perm stream secret parts threshold sched o <-> sched = [] /\ o = Panic PMakeLen.
  Proof.
    intros (V1 & V2 & V3 & V4) Hp HN F.
    assert (L : layoutRowsW W maxAlloc (len secret) (Z.to_nat parts) (map i2b perm) = Panic PMakeLen).
    { apply layoutRowsW_no_room; [lia|rewrite map_length; exact Hp|exact HN|exact F]. }
    assert (Hc : checkArgs secret parts threshold = None).
    { apply SplitFacts.checkArgs_None. auto. }
    split.
    - intros H. destruct H as [e He | p Hc' Hp' | out sched s Hc' Ho He Hm | out sched s th p Hc' Ho He Hm].
      + congruence.
      + split; [reflexivity|]. congruence.
      + rewrite L in Ho. discriminate Ho.
      + rewrite L in Ho. discriminate Ho.
    - intros (-> & ->). apply SPW_panic0; [exact Hc|exact L].
  Qed.
End Facts.
