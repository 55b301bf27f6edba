(** Arithmetic on Go's [byte]/[uint8], on top of [Coq.Init.Byte.byte]. *)
From Coq Require Import List NArith ZArith Lia Arith Bool.
From Coq.Init Require Import Byte.
From Coq.Strings Require Import Byte.
Import ListNotations.

Definition b2n (b : byte) : N := Byte.to_N b.
(** conversion [byte(n)]: reduction modulo 256 *)
Definition n2b (n : N) : byte :=
  match Byte.of_N (n mod 256)%N with Some b => b | None => x00 end.
Definition b2i (b : byte) : nat := N.to_nat (b2n b).
Definition i2b (n : nat) : byte := n2b (N.of_nat n).
(** [byte(n)] for a Go [int] *)
Definition z2b (n : Z) : byte := n2b (Z.to_N (n mod 256)%Z).
Definition b2z (b : byte) : Z := Z.of_N (b2n b).

Definition beq (a b : byte) : bool := Byte.eqb a b.
(** [a ^ b] *)
Definition bxor (a b : byte) : byte := n2b (N.lxor (b2n a) (b2n b)).
(** [a + b], [a - b], [a % b] on uint8 (wrapping) *)
Definition badd (a b : byte) : byte := n2b (b2n a + b2n b)%N.
Definition bsub (a b : byte) : byte := n2b (b2n a + 256 - b2n b)%N.
Definition bmod (a b : byte) : byte := n2b (b2n a mod b2n b)%N.
Definition bltb (a b : byte) : bool := (b2n a <? b2n b)%N.
(** [a & b], [a >> k] *)
Definition band (a b : byte) : byte := n2b (N.land (b2n a) (b2n b)).
Definition bshr (a : byte) (k : N) : byte := n2b (N.shiftr (b2n a) k).

Definition all_bytes : list byte := map i2b (seq 0 256).

Lemma b2n_lt b : (b2n b < 256)%N.
Proof. unfold b2n. pose proof (Byte.to_N_bounded b). lia. Qed.

Lemma n2b_b2n b : n2b (b2n b) = b.
Proof.
  unfold n2b. rewrite N.mod_small by apply b2n_lt.
  unfold b2n. rewrite Byte.of_to_N. reflexivity.
Qed.

Lemma b2n_n2b n : b2n (n2b n) = (n mod 256)%N.
Proof.
  unfold n2b, b2n.
  assert (H : (n mod 256 < 256)%N) by (apply N.mod_lt; lia).
  destruct (Byte.of_N (n mod 256)) as [b|] eqn:E.
  - apply Byte.to_of_N in E. exact E.
  - apply Byte.of_N_None_iff in E. lia.
Qed.

Lemma b2n_n2b_small n : (n < 256)%N -> b2n (n2b n) = n.
Proof. intros H. rewrite b2n_n2b. apply N.mod_small, H. Qed.

Lemma b2n_inj a b : b2n a = b2n b -> a = b.
Proof. intros H. rewrite <- (n2b_b2n a), <- (n2b_b2n b), H. reflexivity. Qed.

Lemma b2i_lt b : b2i b < 256.
Proof. unfold b2i. pose proof (b2n_lt b). lia. Qed.

Lemma i2b_b2i b : i2b (b2i b) = b.
Proof. unfold i2b, b2i. rewrite N2Nat.id. apply n2b_b2n. Qed.

Lemma b2i_i2b n : n < 256 -> b2i (i2b n) = n.
Proof. intros H. unfold i2b, b2i. rewrite b2n_n2b_small by lia. lia. Qed.

Lemma b2i_inj a b : b2i a = b2i b -> a = b.
Proof. intros H. rewrite <- (i2b_b2i a), <- (i2b_b2i b), H. reflexivity. Qed.

Lemma i2b_inj n m : n < 256 -> m < 256 -> i2b n = i2b m -> n = m.
Proof. intros Hn Hm H. rewrite <- (b2i_i2b n Hn), <- (b2i_i2b m Hm), H. reflexivity. Qed.

Lemma all_bytes_in b : In b all_bytes.
Proof.
  unfold all_bytes. rewrite <- (i2b_b2i b). apply in_map. apply in_seq.
  pose proof (b2i_lt b). lia.
Qed.

Lemma all_bytes_length : length all_bytes = 256.
Proof. reflexivity. Qed.

Lemma all_bytes_NoDup : NoDup all_bytes.
Proof.
  unfold all_bytes. apply NoDup_nth_error. intros i j Hi E.
  rewrite map_length, seq_length in Hi.
  assert (Hj : j < 256).
  { destruct (Nat.lt_ge_cases j 256) as [|Hge]; [assumption|].
    rewrite (proj2 (nth_error_None _ j)) in E by (rewrite map_length, seq_length; lia).
    apply nth_error_None in E. rewrite map_length, seq_length in E. lia. }
  rewrite !nth_error_map in E.
  rewrite !nth_error_nth' with (d := 0) in E by (rewrite seq_length; lia).
  rewrite !seq_nth in E by lia. cbn [option_map] in E. injection E as E.
  apply i2b_inj in E; lia.
Qed.

Lemma beq_true a b : beq a b = true <-> a = b.
Proof. unfold beq. split; [apply Byte.byte_dec_bl | apply Byte.byte_dec_lb]. Qed.

Lemma beq_refl a : beq a a = true.
Proof. apply beq_true. reflexivity. Qed.

Lemma beq_false a b : beq a b = false <-> a <> b.
Proof.
  rewrite <- not_true_iff_false, beq_true. reflexivity.
Qed.

Definition byte_eq_dec (a b : byte) : {a = b} + {a <> b} := Byte.byte_eq_dec a b.

(** Lifting of exhaustive checks over the (finite) byte domain. *)
Lemma sweep1 (P : byte -> bool) : forallb P all_bytes = true -> forall a, P a = true.
Proof. intros H a. rewrite forallb_forall in H. apply H, all_bytes_in. Qed.

Lemma sweep2 (P : byte -> byte -> bool) :
  forallb (fun a => forallb (P a) all_bytes) all_bytes = true -> forall a b, P a b = true.
Proof. intros H a b. exact (sweep1 _ (sweep1 _ H a) b). Qed.

(** XOR *)
Lemma lxor_lt a b n : (a < 2 ^ n -> b < 2 ^ n -> N.lxor a b < 2 ^ n)%N.
Proof.
  intros Ha Hb.
  destruct (N.eq_dec (N.lxor a b) 0) as [E|E].
  - rewrite E. apply N.neq_0_lt_0, N.pow_nonzero. lia.
  - apply N.log2_lt_pow2; [lia|].
    eapply N.le_lt_trans; [apply N.log2_lxor|].
    destruct (N.eq_dec a 0) as [->|Ha0].
    + rewrite N.max_r by apply N.le_0_l.
      destruct (N.eq_dec b 0) as [->|Hb0]; [rewrite N.lxor_0_l in E; congruence|].
      apply N.log2_lt_pow2; lia.
    + destruct (N.eq_dec b 0) as [->|Hb0].
      * rewrite N.max_l by apply N.le_0_l. apply N.log2_lt_pow2; lia.
      * apply N.max_lub_lt; apply N.log2_lt_pow2; lia.
Qed.

Lemma b2n_bxor a b : b2n (bxor a b) = N.lxor (b2n a) (b2n b).
Proof.
  unfold bxor. apply b2n_n2b_small.
  apply (lxor_lt _ _ 8); apply b2n_lt.
Qed.

Lemma bxor_comm a b : bxor a b = bxor b a.
Proof. apply b2n_inj. rewrite !b2n_bxor. apply N.lxor_comm. Qed.
Lemma bxor_assoc a b c : bxor a (bxor b c) = bxor (bxor a b) c.
Proof. apply b2n_inj. rewrite !b2n_bxor. symmetry. apply N.lxor_assoc. Qed.
Lemma bxor_0_l a : bxor x00 a = a.
Proof. apply b2n_inj. rewrite b2n_bxor. apply N.lxor_0_l. Qed.
Lemma bxor_0_r a : bxor a x00 = a.
Proof. rewrite bxor_comm. apply bxor_0_l. Qed.
Lemma bxor_nilp a : bxor a a = x00.
Proof. apply b2n_inj. rewrite b2n_bxor. apply N.lxor_nilpotent. Qed.
Lemma bxor_eq_0 a b : bxor a b = x00 <-> a = b.
Proof.
  split; [|intros ->; apply bxor_nilp].
  intros H. apply (f_equal b2n) in H. rewrite b2n_bxor in H.
  apply b2n_inj, N.lxor_eq. exact H.
Qed.
Lemma bxor_cancel_r a b : bxor (bxor a b) b = a.
Proof. rewrite <- bxor_assoc, bxor_nilp, bxor_0_r. reflexivity. Qed.
Lemma bxor_cancel_l a b : bxor a (bxor a b) = b.
Proof. rewrite bxor_assoc, bxor_nilp, bxor_0_l. reflexivity. Qed.
