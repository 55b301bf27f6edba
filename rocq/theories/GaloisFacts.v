(** Facts about galois.go and the other tables. *)
From Coq Require Import List NArith ZArith Lia Arith Bool.
From Coq.Init Require Import Byte.
From Verif Require Import GoSem Bytes GaloisTables ShamirTables Spec Galois GF.
Import ListNotations.

(** ** the log/exp based functions of galois.go *)
Lemma expTable_length : length GaloisTables.expTable = 510.
Proof. reflexivity. Qed.

Lemma idx_expTable i : i < 510 -> idx GaloisTables.expTable i = Ret (gexp i).
Proof.
  intros H. unfold idx, gexp.
  rewrite nth_error_nth' with (d := x00) by (rewrite expTable_length; lia). reflexivity.
Qed.

Lemma GalMultiplyLogExp_gmul a b : GalMultiplyLogExp a b = Ret (gmul a b).
Proof.
  unfold GalMultiplyLogExp.
  destruct (beq a x00) eqn:Ea.
  { apply beq_true in Ea. subst. rewrite gmul_0_l. reflexivity. }
  destruct (beq b x00) eqn:Eb.
  { apply beq_true in Eb. subst. rewrite gmul_0_r. reflexivity. }
  cbn [orb]. apply beq_false in Ea, Eb. fold (glog a) (glog b).
  pose proof (glog_lt a). pose proof (glog_lt b).
  rewrite idx_expTable by lia. rewrite gmul_log by assumption. f_equal.
  apply gexp_spec. lia.
Qed.

Lemma expLookupZ_gexp i : (0 <= i < 510)%Z -> expLookupZ i = Ret (gexp (Z.to_nat i)).
Proof.
  intros H. unfold expLookupZ.
  destruct (Z.ltb_spec i 0); [lia|]. destruct (Z.ltb_spec i 510); [|lia].
  apply idx_expTable. lia.
Qed.

Lemma b2z_b2i b : b2z b = Z.of_nat (b2i b).
Proof. unfold b2z, b2i. rewrite N_nat_Z. reflexivity. Qed.

Lemma GalDivide_gdiv a b : b <> x00 -> GalDivide a b = Ret (gdiv a b).
Proof.
  intros Hb. unfold GalDivide.
  destruct (beq a x00) eqn:Ea.
  { apply beq_true in Ea. subst. unfold gdiv. rewrite gmul_0_l. reflexivity. }
  destruct (beq b x00) eqn:Eb; [apply beq_true in Eb; contradiction|].
  apply beq_false in Ea. rewrite !b2z_b2i. fold (glog a) (glog b).
  pose proof (glog_lt a). pose proof (glog_lt b).
  set (l := if (Z.of_nat (glog a) - Z.of_nat (glog b) <? 0)%Z
            then (Z.of_nat (glog a) - Z.of_nat (glog b) + 255)%Z
            else (Z.of_nat (glog a) - Z.of_nat (glog b))%Z).
  assert (Hl : (0 <= l < 255)%Z /\ ((Z.to_nat l + glog b) mod 255 = glog a)).
  { unfold l. destruct (Z.ltb_spec (Z.of_nat (glog a) - Z.of_nat (glog b)) 0).
    - split; [lia|].
      replace (Z.to_nat _ + glog b) with (glog a + 1 * 255) by lia.
      rewrite Nat.mod_add by lia. apply Nat.mod_small. lia.
    - split; [lia|]. replace (Z.to_nat _ + glog b) with (glog a) by lia. apply Nat.mod_small. lia. }
  destruct Hl as [Hl Hm]. rewrite expLookupZ_gexp by lia. f_equal.
  apply gdiv_unique; [assumption|].
  destruct (gexp_spec (Z.to_nat l)) as (Hn & Hg & _); [lia|].
  rewrite gmul_log by assumption. rewrite Hg, (Nat.mod_small (Z.to_nat l)) by lia.
  rewrite Hm. apply gexp_glog. assumption.
Qed.

Lemma GalDivide_zero a : GalDivide a x00 = if beq a x00 then Ret x00 else Panic PDivide.
Proof. unfold GalDivide. destruct (beq a x00); reflexivity. Qed.

(** ** GalExp *)
Lemma expReduce_spec f l : (0 <= l)%Z -> (l / 255 <= Z.of_nat f)%Z -> expReduce f l = (l mod 255)%Z.
Proof.
  revert l. induction f as [|f IH]; intros l H0 Hf; cbn [expReduce].
  - rewrite Z.geb_leb. destruct (Z.leb_spec 255 l).
    + exfalso. assert (1 <= l / 255)%Z by (apply Z.div_le_lower_bound; lia). lia.
    + symmetry. apply Z.mod_small. lia.
  - rewrite Z.geb_leb. destruct (Z.leb_spec 255 l).
    + rewrite IH.
      * replace (l - 255)%Z with (l + (-1) * 255)%Z by lia. apply Z.mod_add. lia.
      * lia.
      * replace (l - 255)%Z with (l + (-1) * 255)%Z by lia. rewrite Z.div_add by lia. lia.
    + symmetry. apply Z.mod_small. lia.
Qed.

Lemma gpow_neq_0 a n : a <> x00 -> gpow a n <> x00.
Proof.
  intros H. induction n as [|n IH]; [discriminate|]. cbn [gpow]. apply gmul_neq_0; assumption.
Qed.

Lemma gpow_log a n : a <> x00 -> gpow a n = gexp ((glog a * n) mod 255).
Proof.
  intros H. induction n as [|n IH].
  - rewrite Nat.mul_0_r. reflexivity.
  - cbn [gpow]. rewrite gmul_log by (try apply gpow_neq_0; assumption).
    rewrite IH. destruct (gexp_spec ((glog a * n) mod 255)) as (_ & E & _).
    { pose proof (mod255_lt (glog a * n)). lia. }
    rewrite E. rewrite Nat.mod_mod by lia. rewrite Nat.add_mod_idemp_r by lia.
    f_equal. f_equal. lia.
Qed.

Lemma gpow_0_l n : gpow x00 (S n) = x00.
Proof. cbn [gpow]. apply gmul_0_l. Qed.

Lemma int64_id z : (- 2 ^ 63 <= z < 2 ^ 63)%Z -> int64 z = z.
Proof. intros H. unfold int64. rewrite Z.mod_small by lia. lia. Qed.

Lemma GalExp_spec a n : (0 <= n)%Z -> (b2z (logLookup a) * n < 2 ^ 63)%Z ->
  GalExp a n = Ret (gpow a (Z.to_nat n)).
Proof.
  intros Hn Hb. unfold GalExp.
  destruct (Z.eqb_spec n 0) as [->|Hn0]; [reflexivity|].
  destruct (beq a x00) eqn:Ea.
  { apply beq_true in Ea. subst. destruct (Z.to_nat n) eqn:E; [lia|]. rewrite gpow_0_l. reflexivity. }
  apply beq_false in Ea.
  assert (Hl : (0 <= b2z (logLookup a))%Z) by (rewrite b2z_b2i; lia).
  rewrite int64_id by nia.
  set (l := (b2z (logLookup a) * n)%Z) in *.
  assert (H0 : (0 <= l)%Z) by (unfold l; nia).
  rewrite expReduce_spec by (try apply Z.div_pos; try rewrite Z2Nat.id; try apply Z.div_pos; lia).
  pose proof (Z.mod_pos_bound l 255 ltac:(lia)).
  rewrite expLookupZ_gexp by lia. f_equal. rewrite gpow_log by assumption. f_equal.
  unfold glog. unfold l. rewrite b2z_b2i.
  rewrite Z2Nat.inj_mod by nia. rewrite Z2Nat.inj_mul by lia. rewrite Nat2Z.id. reflexivity.
Qed.

Lemma GalExp_negative a n : (- 2 ^ 63 <= b2z (logLookup a) * n)%Z -> (n < 0)%Z ->
  GalExp a n = if beq a x00 then Ret x00 else if beq a x01 then Ret x01 else Panic PIndex.
Proof.
  intros Hb Hn. unfold GalExp. destruct (Z.eqb_spec n 0); [lia|].
  destruct (beq a x00) eqn:Ea; [reflexivity|]. apply beq_false in Ea.
  assert (Hl : (0 <= b2z (logLookup a))%Z) by (rewrite b2z_b2i; lia).
  rewrite int64_id by nia.
  destruct (beq a x01) eqn:E1.
  - apply beq_true in E1. subst a. replace (b2z (logLookup x01)) with 0%Z by reflexivity. reflexivity.
  - apply beq_false in E1.
    assert (Hlog : (0 < b2z (logLookup a))%Z).
    { assert (E : forall a, (beq a x00 || (beq a x01 || (0 <? b2z (logLookup a))%Z)) = true)
        by (apply sweep1; vm_compute; reflexivity).
      specialize (E a). apply beq_false in Ea, E1. rewrite Ea, E1 in E. apply Z.ltb_lt, E. }
    assert (Hneg : (b2z (logLookup a) * n < 0)%Z) by nia.
    set (l := (b2z (logLookup a) * n)%Z) in *.
    assert (Hred : forall f, expReduce f l = l).
    { intros f. destruct f; cbn [expReduce]; rewrite Z.geb_leb; destruct (Z.leb_spec 255 l); (lia || reflexivity). }
    rewrite Hred. unfold expLookupZ. destruct (Z.ltb_spec l 0); [reflexivity|lia].
Qed.

(** ** the other tables *)
Lemma shamir_tables_equal :
  ShamirTables.logTable = GaloisTables.logTable /\
  ShamirTables.expTable = GaloisTables.expTable /\
  ShamirTables.mulTable = GaloisTables.mulTable.
Proof. repeat split; vm_compute; reflexivity. Qed.
