(** GF(2^8) is a field; multiplication table = specification. *)
From Coq Require Import List NArith ZArith Lia Arith Bool Ring Field.
From Coq.Init Require Import Byte.
From Verif Require Import GoSem Bytes GaloisTables ShamirTables Spec Galois.
Import ListNotations.

Lemma gadd_bxor a b : gadd a b = bxor a b.
Proof. reflexivity. Qed.

(** ** Exhaustive checks over all pairs of bytes *)
Lemma mulTable_dims :
  length GaloisTables.mulTable = 256 /\ Forall (fun r => length r = 256) GaloisTables.mulTable.
Proof.
  split; [vm_compute; reflexivity|].
  apply Forall_forall. intros r Hr.
  assert (H : forallb (fun r => length r =? 256) GaloisTables.mulTable = true) by (vm_compute; reflexivity).
  rewrite forallb_forall in H. apply Nat.eqb_eq, H, Hr.
Qed.

(** ** Multiplication is bilinear *)
Lemma n2b_lxor x y : n2b (N.lxor x y) = gadd (n2b x) (n2b y).
Proof.
  apply b2n_inj. rewrite gadd_bxor, b2n_bxor, !b2n_n2b. change 256%N with (2 ^ 8)%N. rewrite <- !N.land_ones.
  apply N.bits_inj. intros i. rewrite N.lxor_spec, !N.land_spec, N.lxor_spec.
  destruct (N.testbit x i), (N.testbit y i), (N.testbit (N.ones 8) i); reflexivity.
Qed.
Lemma double_lxor x y : N.double (N.lxor x y) = N.lxor (N.double x) (N.double y).
Proof. destruct x as [|p], y as [|q]; reflexivity. Qed.
Lemma lxor_swap x y z t : N.lxor (N.lxor x y) (N.lxor z t) = N.lxor (N.lxor x z) (N.lxor y t).
Proof. rewrite !N.lxor_assoc. f_equal. rewrite <- !N.lxor_assoc. f_equal. apply N.lxor_comm. Qed.
Lemma clmul_lxor_r a x y : clmul a (N.lxor x y) = N.lxor (clmul a x) (clmul a y).
Proof.
  destruct a as [|p]; [reflexivity|]. cbn [clmul]. induction p as [p IH|p IH|]; cbn [clmul_pos]; rewrite ?IH, ?double_lxor; [|reflexivity|reflexivity].
  apply lxor_swap.
Qed.
Lemma clmul_double a b : clmul (N.double a) b = N.double (clmul a b).
Proof. destruct a; reflexivity. Qed.
Lemma clmul_succ_double a b : clmul (N.succ_double a) b = N.lxor b (N.double (clmul a b)).
Proof. destruct a; [cbn [N.succ_double clmul clmul_pos N.double]; symmetry; apply N.lxor_0_r|reflexivity]. Qed.
Lemma clmul_0_r a : clmul a 0 = 0%N.
Proof. destruct a as [|p]; [reflexivity|]. cbn [clmul]. induction p as [p IH|p IH|]; cbn [clmul_pos]; rewrite ?IH; reflexivity. Qed.
Lemma clmul_double_r a b : clmul a (N.double b) = N.double (clmul a b).
Proof.
  destruct a as [|p]; [reflexivity|]. cbn [clmul]. induction p as [p IH|p IH|]; cbn [clmul_pos]; rewrite ?IH, ?double_lxor; reflexivity.
Qed.
Lemma clmul_1_r a : clmul a 1 = a.
Proof. destruct a as [|p]; [reflexivity|]. cbn [clmul]. induction p as [p IH|p IH|]; cbn [clmul_pos]; rewrite ?IH; reflexivity. Qed.
Lemma succ_double_lxor b : N.succ_double b = N.lxor 1 (N.double b).
Proof. destruct b; reflexivity. Qed.
Lemma clmul_comm a b : clmul a b = clmul b a.
Proof.
  induction b as [|b IH|b IH] using N.binary_ind; [apply clmul_0_r| |].
  - rewrite clmul_double, clmul_double_r, IH. reflexivity.
  - rewrite clmul_succ_double, succ_double_lxor, clmul_lxor_r, clmul_1_r, clmul_double_r, IH. reflexivity.
Qed.

Definition gf_step (acc i : N) : N := if N.testbit acc (8 + i) then N.lxor acc (N.shiftl gf_modulus i) else acc.
Lemma gf_step_lxor x y i : gf_step (N.lxor x y) i = N.lxor (gf_step x i) (gf_step y i).
Proof.
  unfold gf_step. rewrite N.lxor_spec. generalize (N.shiftl gf_modulus i). intros m.
  destruct (N.testbit x (8 + i)), (N.testbit y (8 + i)); cbn [xorb].
  - rewrite lxor_swap, N.lxor_nilpotent, N.lxor_0_r. reflexivity.
  - rewrite !N.lxor_assoc. f_equal. apply N.lxor_comm.
  - symmetry. rewrite N.lxor_assoc. reflexivity.
  - reflexivity.
Qed.
Lemma gf_reduce_lxor x y : gf_reduce (N.lxor x y) = N.lxor (gf_reduce x) (gf_reduce y).
Proof.
  unfold gf_reduce. generalize [6; 5; 4; 3; 2; 1; 0]%N. intros l. revert x y. induction l as [|i l IH]; intros x y; [reflexivity|].
  cbn [fold_left]. fold (gf_step (N.lxor x y) i) (gf_step x i) (gf_step y i). rewrite gf_step_lxor. apply IH.
Qed.

(** the remainder is a byte *)
Lemma lxor_lt_pow a b n : (a < 2 ^ n -> b < 2 ^ n -> N.lxor a b < 2 ^ n)%N.
Proof. apply lxor_lt. Qed.
Lemma clmul_lt a b n : (b < 2 ^ n -> clmul a b < 2 ^ (n + N.log2 a))%N.
Proof.
  intros H. destruct a as [|p]; [cbn [clmul]; apply N.neq_0_lt_0, N.pow_nonzero; lia|]. cbn [clmul].
  assert (D : forall x k, (x < 2 ^ k -> N.double x < 2 ^ (N.succ k))%N) by (intros x k Hx; rewrite N.double_spec, N.pow_succ_r'; lia).
  assert (W : forall k, (b < 2 ^ (n + k))%N) by (intros k; eapply N.lt_le_trans; [exact H|apply N.pow_le_mono_r; lia]).
  induction p as [p IH|p IH|]; cbn [clmul_pos].
  - change (N.pos p~1) with (2 * N.pos p + 1)%N. rewrite N.log2_succ_double by reflexivity. rewrite N.add_succ_r.
    apply lxor_lt_pow; [rewrite <- N.add_succ_r; apply W|apply D, IH].
  - change (N.pos p~0) with (2 * N.pos p)%N. rewrite N.log2_double by reflexivity. rewrite N.add_succ_r. apply D, IH.
  - apply W.
Qed.
Lemma gf_step_lt x i : (x < 2 ^ (9 + i) -> gf_step x i < 2 ^ (8 + i))%N.
Proof.
  intros H. apply N.nle_gt. intros Q.
  assert (T : N.testbit (gf_step x i) (8 + i) = true).
  { assert (B : (gf_step x i < 2 ^ (9 + i))%N).
    { unfold gf_step. destruct (N.testbit x (8 + i)); [|exact H]. apply lxor_lt_pow; [exact H|]. rewrite N.shiftl_mul_pow2, N.pow_add_r.
      apply N.mul_lt_mono_pos_r; [apply N.neq_0_lt_0, N.pow_nonzero; lia|reflexivity]. }
    rewrite N.testbit_true. replace (gf_step x i / 2 ^ (8 + i))%N with 1%N; [reflexivity|]. symmetry.
    replace (9 + i)%N with (N.succ (8 + i)) in B by lia. rewrite N.pow_succ_r' in B.
    symmetry. apply (N.div_unique _ _ _ (gf_step x i - 2 ^ (8 + i))); lia. }
  revert T. unfold gf_step. destruct (N.testbit x (8 + i)) eqn:E; [|rewrite E; discriminate].
  rewrite N.lxor_spec, E, N.shiftl_spec_high' by lia. replace (8 + i - i)%N with 8%N by lia. discriminate.
Qed.
Lemma gf_reduce_lt a b : (gf_reduce (clmul (b2n a) (b2n b)) < 256)%N.
Proof.
  pose proof (b2n_lt a) as Ha. pose proof (clmul_lt (b2n a) (b2n b) 8 (b2n_lt b)) as H.
  assert (S : (N.log2 (b2n a) <= 7)%N).
  { destruct (N.eq_dec (b2n a) 0) as [->|Z]; [discriminate|]. apply N.lt_succ_r, N.log2_lt_pow2; [lia|exact Ha]. }
  assert (X : (clmul (b2n a) (b2n b) < 2 ^ (9 + 6))%N) by (eapply N.lt_le_trans; [exact H|apply N.pow_le_mono_r; lia]).
  revert X. generalize (clmul (b2n a) (b2n b)). intros x X.
  change (gf_reduce x) with (gf_step (gf_step (gf_step (gf_step (gf_step (gf_step (gf_step x 6) 5) 4) 3) 2) 1) 0).
  change 256%N with (2 ^ (8 + 0))%N. repeat (match goal with |- (gf_step ?y ?i < 2 ^ (8 + ?i))%N =>
    apply gf_step_lt; try (match goal with |- (gf_step _ ?j < _)%N => change (9 + i)%N with (8 + j)%N end) end). exact X.
Qed.

Lemma gmul_comm a b : gmul a b = gmul b a.
Proof. unfold gmul. rewrite clmul_comm. reflexivity. Qed.

Lemma gmul_gadd_r a b c : gmul a (gadd b c) = gadd (gmul a b) (gmul a c).
Proof. unfold gmul. rewrite gadd_bxor, b2n_bxor, clmul_lxor_r, gf_reduce_lxor. apply n2b_lxor. Qed.
Lemma gmul_gadd_l a b c : gmul (gadd a b) c = gadd (gmul a c) (gmul b c).
Proof. rewrite (gmul_comm (gadd a b)), gmul_gadd_r, (gmul_comm c a), (gmul_comm c b). reflexivity. Qed.

(** a set of bytes that contains 0 and the powers of two and is closed under addition contains all bytes *)
Definition powers2 : list byte := [x01; x02; x04; x08; x10; x20; x40; x80].
Lemma bits_sum a : a = fold_right gadd x00 (map (fun i => if N.testbit (b2n a) (b2n i) then n2b (2 ^ b2n i) else x00) [x00; x01; x02; x03; x04; x05; x06; x07]).
Proof.
  apply beq_true. revert a.
  exact (sweep1 (fun a => beq a (fold_right gadd x00 (map (fun i => if N.testbit (b2n a) (b2n i) then n2b (2 ^ b2n i) else x00) [x00; x01; x02; x03; x04; x05; x06; x07])))
    ltac:(vm_compute; reflexivity)).
Qed.
Lemma linear_ind (P : byte -> Prop) : P x00 -> Forall P powers2 -> (forall a b, P a -> P b -> P (gadd a b)) -> forall a, P a.
Proof.
  intros H0 H2 HA a. rewrite bits_sum.
  assert (HI : forall l, Forall (fun i => P (n2b (2 ^ b2n i))) l -> forall t, P (fold_right gadd x00 (map (fun i => if N.testbit t (b2n i) then n2b (2 ^ b2n i) else x00) l))).
  { intros l F t. induction F as [|i l Hi F IH]; [exact H0|]. cbn [map fold_right]. apply HA; [|exact IH]. destruct (N.testbit t (b2n i)); assumption. }
  apply HI. unfold powers2 in H2. repeat match goal with H : Forall _ (_ :: _) |- _ => inversion H; clear H; subst end.
  repeat (constructor; [assumption|]). constructor.
Qed.

Lemma gmul_1_r a : gmul a x01 = a.
Proof. unfold gmul. change (b2n x01) with 1%N. rewrite clmul_1_r. apply beq_true. revert a. apply sweep1. vm_compute. reflexivity. Qed.
Lemma gmul_1_l a : gmul x01 a = a.
Proof. rewrite gmul_comm. apply gmul_1_r. Qed.
Lemma gmul_0_l a : gmul x00 a = x00.
Proof. reflexivity. Qed.
Lemma gmul_0_r a : gmul a x00 = x00.
Proof. rewrite gmul_comm. apply gmul_0_l. Qed.

Lemma gmul_assoc a b c : gmul a (gmul b c) = gmul (gmul a b) c.
Proof.
  revert c. apply linear_ind; [rewrite !gmul_0_r; reflexivity| |intros x y Hx Hy; rewrite !gmul_gadd_r, Hx, Hy; reflexivity].
  apply Forall_forall. intros c Hc. revert b.
  apply linear_ind; [rewrite gmul_0_l, !gmul_0_r, gmul_0_l; reflexivity| |intros x y Hx Hy; rewrite gmul_gadd_l, !gmul_gadd_r, gmul_gadd_l, Hx, Hy; reflexivity].
  apply Forall_forall. intros b Hb. revert a.
  apply linear_ind; [rewrite !gmul_0_l; reflexivity| |intros x y Hx Hy; rewrite !gmul_gadd_l, Hx, Hy; reflexivity].
  apply Forall_forall. intros a Ha. apply beq_true.
  assert (E : forallb (fun c => forallb (fun b => forallb (fun a => beq (gmul a (gmul b c)) (gmul (gmul a b) c)) powers2) powers2) powers2 = true) by (vm_compute; reflexivity).
  rewrite forallb_forall in E. specialize (E c Hc). cbv beta in E. rewrite forallb_forall in E. specialize (E b Hb). cbv beta in E. rewrite forallb_forall in E. exact (E a Ha).
Qed.

(** ** The multiplication table: checked on the high and low nibbles of the second factor, and as sums elsewhere *)
Definition row_ok (a : byte) (r : list byte) : bool :=
  forallb (fun k => beq (nth k r x00) (gmul a (i2b k))) (seq 0 16) &&
  forallb (fun k => let h := nth (16 * k) r x00 in
     beq h (gmul a (i2b (16 * k))) &&
     forallb (fun p => N.eqb (b2n (snd p)) (N.lxor (b2n h) (b2n (fst p)))) (combine (firstn 16 r) (firstn 16 (skipn (16 * k) r)))) (seq 0 16).
Lemma mulTable_rows : forallb (fun p => row_ok (fst p) (snd p)) (combine all_bytes GaloisTables.mulTable) = true.
Proof. vm_compute. reflexivity. Qed.

Lemma row_ok_spec a r b : length r = 256 -> row_ok a r = true -> nth (b2i b) r x00 = gmul a b.
Proof.
  intros L H. apply andb_true_iff in H as [H1 H2]. rewrite forallb_forall in H1, H2.
  pose proof (b2i_lt b) as Lb. pose proof (Nat.div_mod (b2i b) 16 ltac:(lia)) as D. pose proof (Nat.mod_upper_bound (b2i b) 16 ltac:(lia)) as M.
  assert (Q : b2i b / 16 < 16) by (apply Nat.div_lt_upper_bound; lia).
  assert (S : b = gadd (i2b (16 * (b2i b / 16))) (i2b (b2i b mod 16))).
  { clear. apply beq_true. revert b. exact (sweep1 (fun b => beq b (gadd (i2b (16 * (b2i b / 16))) (i2b (b2i b mod 16)))) ltac:(vm_compute; reflexivity)). }
  remember (b2i b / 16) as k eqn:Ek. remember (b2i b mod 16) as j eqn:Ej. clear Ek Ej.
  rewrite S, gmul_gadd_r.
  specialize (H2 k ltac:(apply in_seq; lia)). cbv beta zeta in H2. apply andb_true_iff in H2 as [H2 H3]. apply beq_true in H2. rewrite forallb_forall in H3.
  specialize (H1 j ltac:(apply in_seq; lia)). cbv beta in H1. apply beq_true in H1.
  rewrite <- S. rewrite <- H1, <- H2, D.
  assert (X : nth j (combine (firstn 16 r) (firstn 16 (skipn (16 * k) r))) (x00, x00) = (nth j r x00, nth (16 * k + j) r x00)).
  { rewrite combine_nth by (rewrite !firstn_length, skipn_length; lia). f_equal.
    - rewrite <- (firstn_skipn 16 r) at 2. rewrite app_nth1 by (rewrite firstn_length; lia). reflexivity.
    - rewrite <- (firstn_skipn (16 * k) r) at 2. rewrite app_nth2 by (rewrite firstn_length; lia). rewrite firstn_length. replace (16 * k + j - Nat.min (16 * k) (length r)) with j by lia.
      rewrite <- (firstn_skipn 16 (skipn (16 * k) r)) at 2. rewrite app_nth1 by (rewrite firstn_length, skipn_length; lia). reflexivity. }
  specialize (H3 (nth j r x00, nth (16 * k + j) r x00)). cbn [fst snd] in H3.
  apply b2n_inj. rewrite gadd_bxor, b2n_bxor. apply N.eqb_eq, H3. rewrite <- X. apply nth_In. rewrite combine_length, !firstn_length, skipn_length. lia.
Qed.

Lemma nth_all_bytes a : nth (b2i a) all_bytes x00 = a.
Proof.
  unfold all_bytes. rewrite (nth_indep _ x00 (i2b 0)) by (rewrite map_length, seq_length; apply b2i_lt).
  rewrite map_nth, seq_nth by apply b2i_lt. apply i2b_b2i.
Qed.
Lemma GalMultiply_gmul a b : GalMultiply a b = gmul a b.
Proof.
  unfold GalMultiply. destruct mulTable_dims as [D1 D2]. pose proof mulTable_rows as R. rewrite forallb_forall in R.
  set (T := GaloisTables.mulTable) in *. clearbody T.
  apply row_ok_spec; [rewrite Forall_forall in D2; apply D2, nth_In; rewrite D1; apply b2i_lt|].
  apply (R (a, nth (b2i a) T [])).
  replace (a, nth (b2i a) T []) with (nth (b2i a) (combine all_bytes T) (x00, [])).
  - apply nth_In. rewrite combine_length, all_bytes_length, D1. apply b2i_lt.
  - rewrite combine_nth by (rewrite all_bytes_length; symmetry; exact D1). f_equal. apply nth_all_bytes.
Qed.

(** logarithm / exponential representation *)
Definition glog (a : byte) : nat := b2i (logLookup a).
Definition gexp (i : nat) : byte := nth i expTable x00.

Lemma gexp_glog a : a <> x00 -> gexp (glog a) = a.
Proof.
  intros H. apply beq_false in H.
  assert (E : forall a, (beq a x00 || beq (gexp (glog a)) a) = true)
    by (apply sweep1; vm_compute; reflexivity).
  specialize (E a). rewrite H, orb_false_l in E. apply beq_true. exact E.
Qed.

Lemma glog_lt a : glog a < 255.
Proof.
  assert (E : forall a, (glog a <? 255) = true) by (apply sweep1; vm_compute; reflexivity).
  apply Nat.ltb_lt, E.
Qed.

Lemma gexp_table :
  forallb (fun i => negb (beq (gexp i) x00) && (glog (gexp i) =? i mod 255) && beq (gexp i) (gexp (i mod 255)))
          (seq 0 510) = true.
Proof. vm_compute. reflexivity. Qed.

Lemma gexp_spec i : i < 510 ->
  gexp i <> x00 /\ glog (gexp i) = i mod 255 /\ gexp i = gexp (i mod 255).
Proof.
  intros H. pose proof gexp_table as T. rewrite forallb_forall in T.
  specialize (T i). rewrite in_seq in T. specialize (T ltac:(lia)).
  apply andb_true_iff in T as [T T3]. apply andb_true_iff in T as [T1 T2].
  apply negb_true_iff, beq_false in T1. apply Nat.eqb_eq in T2. apply beq_true in T3. auto.
Qed.

Lemma mod255_lt n : n mod 255 < 255.
Proof. apply Nat.mod_upper_bound. lia. Qed.

Lemma gexp_powers : forallb (fun p => beq (snd p) (gmul x02 (fst p))) (combine expTable (skipn 1 expTable)) = true.
Proof. vm_compute. reflexivity. Qed.
Lemma gexp_S i : i < 509 -> gexp (S i) = gmul x02 (gexp i).
Proof.
  intros H. pose proof gexp_powers as P. rewrite forallb_forall in P.
  assert (L : length expTable = 510) by (vm_compute; reflexivity). unfold gexp.
  assert (X : nth i (combine expTable (skipn 1 expTable)) (x00, x00) = (nth i expTable x00, nth (S i) expTable x00)).
  { set (T := expTable) in *. clearbody T.
    assert (C : forall (A B : list byte) n, n < length B -> nth n (combine A B) (x00, x00) = (nth n A x00, nth n B x00) \/ length A <= n).
    { induction A as [|u A IH]; intros [|v B] n Hn; cbn [length] in Hn; try lia; [right; cbn; lia|]. destruct n as [|n]; [left; reflexivity|].
      destruct (IH B n ltac:(lia)) as [E|E]; [left; exact E|right; cbn [length]; lia]. }
    destruct (C T (skipn 1 T) i) as [E|E]; [rewrite skipn_length; lia| |lia]. rewrite E. f_equal. destruct T as [|u T]; [discriminate L|]. reflexivity. }
  specialize (P (nth i expTable x00, nth (S i) expTable x00)). cbn [fst snd] in P. apply beq_true, P. rewrite <- X. apply nth_In.
  rewrite combine_length, skipn_length, L. lia.
Qed.
Lemma gexp_0 : gexp 0 = x01.
Proof. reflexivity. Qed.
Lemma gexp_add i j : i + j < 510 -> gmul (gexp i) (gexp j) = gexp (i + j).
Proof.
  induction i as [|i IH]; intros H; [rewrite gexp_0; apply gmul_1_l|]. cbn [Nat.add]. rewrite !gexp_S by lia. rewrite <- gmul_assoc, IH by lia. reflexivity.
Qed.

Lemma gmul_log a b : a <> x00 -> b <> x00 -> gmul a b = gexp ((glog a + glog b) mod 255).
Proof.
  intros Ha Hb. rewrite <- (gexp_glog a Ha) at 1. rewrite <- (gexp_glog b Hb) at 1. pose proof (glog_lt a). pose proof (glog_lt b).
  rewrite gexp_add by lia. apply gexp_spec. lia.
Qed.

Lemma gmul_neq_0 a b : a <> x00 -> b <> x00 -> gmul a b <> x00.
Proof.
  intros Ha Hb. rewrite gmul_log by assumption.
  apply gexp_spec. pose proof (mod255_lt (glog a + glog b)). lia.
Qed.

Lemma glog_gmul a b : a <> x00 -> b <> x00 -> glog (gmul a b) = (glog a + glog b) mod 255.
Proof.
  intros Ha Hb. rewrite gmul_log by assumption.
  pose proof (mod255_lt (glog a + glog b)).
  destruct (gexp_spec ((glog a + glog b) mod 255)) as (_ & E & _); [lia|].
  rewrite E. apply Nat.mod_small. assumption.
Qed.

Definition ginv (a : byte) : byte := nth (b2i a) invTable x00.

Lemma ginv_check : forallb (fun a => beq a x00 || beq (gmul (ginv a) a) x01) all_bytes = true.
Proof. vm_compute. reflexivity. Qed.
Lemma ginv_l a : a <> x00 -> gmul (ginv a) a = x01.
Proof.
  intros H. apply beq_false in H. pose proof (sweep1 _ ginv_check a) as E. cbv beta in E. rewrite H, orb_false_l in E. apply beq_true. exact E.
Qed.

Definition gdiv (a b : byte) : byte := gmul a (ginv b).

Lemma gf_ring_theory : ring_theory x00 x01 gadd gmul gadd (fun x => x) (@eq byte).
Proof.
  constructor.
  - intros; apply bxor_0_l.
  - intros; apply bxor_comm.
  - intros; apply bxor_assoc.
  - intros; apply gmul_1_l.
  - intros; apply gmul_comm.
  - intros; apply gmul_assoc.
  - intros; apply gmul_gadd_l.
  - reflexivity.
  - intros; apply bxor_nilp.
Qed.

Lemma gf_field_theory : field_theory x00 x01 gadd gmul gadd (fun x => x) gdiv ginv (@eq byte).
Proof.
  constructor.
  - exact gf_ring_theory.
  - discriminate.
  - reflexivity.
  - apply ginv_l.
Qed.

(** coefficients in GF(2), so that [ring] and [field] know that 1+1 = 0 *)
Definition gf2_phi (b : bool) : byte := if b then x01 else x00.
Lemma gf2_morph : ring_morph x00 x01 gadd gmul gadd (fun x => x) (@eq byte)
  false true xorb andb xorb (fun x => x) Bool.eqb gf2_phi.
Proof.
  constructor; try reflexivity.
  - intros [|] [|]; vm_compute; reflexivity.
  - intros [|] [|]; vm_compute; reflexivity.
  - intros [|] [|]; vm_compute; reflexivity.
  - intros [|] [|] H; (reflexivity || discriminate H).
Qed.
Ltac gf_const t :=
  match t with
  | x00 => constr:(false)
  | x01 => constr:(true)
  | _ => constr:(InitialRing.NotConstant)
  end.

Add Field GF256 : gf_field_theory (morphism gf2_morph, constants [gf_const]).

Goal forall a b, gmul (gadd a b) (gadd a b) = gadd (gmul a a) (gmul b b).
Proof. intros. ring. Qed.


Lemma gadd_self a : gadd a a = x00.
Proof. apply bxor_nilp. Qed.
Lemma gadd_0_r a : gadd a x00 = a.
Proof. apply bxor_0_r. Qed.
Lemma gadd_0_l a : gadd x00 a = a.
Proof. apply bxor_0_l. Qed.
Lemma gadd_eq_0 a b : gadd a b = x00 <-> a = b.
Proof. apply bxor_eq_0. Qed.
Lemma gmul_eq_0 a b : gmul a b = x00 -> a = x00 \/ b = x00.
Proof.
  intros H. destruct (byte_eq_dec a x00) as [|Ha]; [left; assumption|].
  destruct (byte_eq_dec b x00) as [|Hb]; [right; assumption|].
  exfalso. exact (gmul_neq_0 a b Ha Hb H).
Qed.
Lemma gmul_cancel_l a b c : a <> x00 -> gmul a b = gmul a c -> b = c.
Proof.
  intros Ha H. apply gadd_eq_0.
  assert (E : gmul a (gadd b c) = x00).
  { replace (gmul a (gadd b c)) with (gadd (gmul a b) (gmul a c)) by ring. rewrite H. apply gadd_self. }
  apply gmul_eq_0 in E as [E|E]; [contradiction|assumption].
Qed.
Lemma ginv_neq_0 a : a <> x00 -> ginv a <> x00.
Proof.
  intros H E. pose proof (ginv_l a H) as F. rewrite E, gmul_0_l in F. discriminate.
Qed.
Lemma gdiv_mul a b : b <> x00 -> gmul (gdiv a b) b = a.
Proof. intros H. unfold gdiv. rewrite <- gmul_assoc, ginv_l by exact H. apply gmul_1_r. Qed.
Lemma gdiv_unique a b q : b <> x00 -> gmul q b = a -> q = gdiv a b.
Proof.
  intros H <-. unfold gdiv. rewrite <- gmul_assoc, (gmul_comm b), ginv_l by exact H.
  symmetry. apply gmul_1_r.
Qed.

