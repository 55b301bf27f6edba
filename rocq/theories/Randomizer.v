(** Model of randomizer/randomizer.go.
    A [Randomizer] is a [cipher.Stream] (crypto/cipher CTR mode): its key stream [ks] and the current position. *)
From Coq Require Import List NArith ZArith Lia Arith Bool Permutation.
From Coq.Init Require Import Byte.
From Verif Require Import GoSem Bytes Spec GF GoFacts Csprng SplitFacts CombineFacts CsprngFacts.
Import ListNotations.

(** randomizer/randomizer.go:9-11 [Randomizer]; 13-22 [NewRandomizer] starts at position 0. *)
Record randomizer : Type := { rz_ks : nat -> byte; rz_pos : nat }.

(** randomizer/randomizer.go:24-27 [Read]: XOR the next [len(buff)] key stream bytes into [buff]. *)
Definition rzRead (r : randomizer) (buff : list byte) : list byte * randomizer :=
  (xorStreamFrom (rz_ks r) (rz_pos r) buff, {| rz_ks := rz_ks r; rz_pos := rz_pos r + length buff |}).

(** randomizer/randomizer.go:36-42: one iteration of the loop of [Perm]; state: buff and [max] (a byte) *)
Definition rzStep (shuffler : list byte) (i : nat) (st : list byte * byte) : outcome (list byte * byte) :=
  let '(buff, max) := st in
  do si <- idx shuffler i;
  if beq max x00 then Panic PDivZero else
  let rx := bmod si max in
  do temp <- idx buff (b2i rx);
  do buff <- upd buff (b2i max) temp;
  Ret (buff, bsub max x01).

(** randomizer/randomizer.go:29-44 [Perm] *)
Definition rzPerm (r : randomizer) (n : byte) : outcome (list byte * randomizer) :=
  do buff <- foreach (seq 0 (b2i n)) (fun i b => upd b i (i2b i)) (zeros (b2i n));
  let '(shuffler, r') := rzRead r (zeros (b2i n)) in
  do '(buff, _) <- foreach (seq 0 (b2i (bsub n x01))) (rzStep shuffler) (buff, bsub n x01);
  Ret (buff, r').

Lemma xorStreamFrom_app ks a : forall off b, xorStreamFrom ks off (a ++ b) = xorStreamFrom ks off a ++ xorStreamFrom ks (off + length a) b.
Proof.
  induction a as [|x a IH]; intros off b; cbn [app xorStreamFrom length]; [rewrite Nat.add_0_r; reflexivity|].
  f_equal. rewrite IH. do 2 f_equal. lia.
Qed.

Lemma rzRead_app r a b :
  rzRead r (a ++ b) = (fst (rzRead r a) ++ fst (rzRead (snd (rzRead r a)) b), snd (rzRead (snd (rzRead r a)) b)).
Proof.
  unfold rzRead. cbn [fst snd rz_ks rz_pos]. rewrite xorStreamFrom_app, app_length, Nat.add_assoc. reflexivity.
Qed.

Lemma rzRead_nth r a i : i < length a -> nth i (fst (rzRead r a)) x00 = gadd (nth i a x00) (rz_ks r (rz_pos r + i)).
Proof. intros H. unfold rzRead. cbn [fst]. rewrite nth_xorStreamFrom by exact H. reflexivity. Qed.

Lemma rzPerm_ok r n : 2 <= b2i n ->
  exists buff r', rzPerm r n = Ret (buff, r') /\ length buff = b2i n /\
    nth 0 buff x00 = x00 /\ nth 1 buff x00 = x00 /\ (forall i, i < b2i n -> b2i (nth i buff x00) < b2i n) /\
    rz_pos r' = rz_pos r + b2i n.
Proof.
  intros Hn. pose proof (b2i_lt n) as H256. unfold rzPerm. rewrite fill_identity. cbn [bind].
  unfold rzRead. cbv iota beta zeta.
  assert (E1 : b2i (bsub n x01) = b2i n - 1) by (rewrite b2i_bsub; change (b2i x01) with 1; lia). rewrite E1.
  set (sh := xorStreamFrom (rz_ks r) (rz_pos r) (zeros (b2i n))).
  assert (Ls : length sh = b2i n) by (unfold sh; rewrite xorStreamFrom_length; apply zeros_length).
  destruct (foreach_seq (fun i '(buff, mx) => length buff = b2i n /\ b2i mx = b2i n - 1 - i /\ nth 0 buff x00 = x00 /\
      (forall k, k < b2i n -> b2i (nth k buff x00) < b2i n) /\ (i = b2i n - 1 -> nth 1 buff x00 = x00))
      (rzStep sh) (b2i n - 1) 0 (identity (b2i n), bsub n x01)) as ([buff mx] & E & L & _ & Z0 & B & Z1).
  - split; [apply identity_length|]. split; [lia|]. split; [unfold identity; rewrite nth_map_seq by lia; reflexivity|]. split; [|lia].
    intros k Hk. unfold identity. rewrite nth_map_seq by exact Hk. rewrite b2i_i2b; lia.
  - intros i [buff mx] [_ Hi] (L & M & Z0 & B & _). cbn [Nat.add] in Hi. unfold rzStep.
    rewrite (idx_ok sh i x00) by lia. cbn [bind].
    destruct (beq mx x00) eqn:E0; [apply beq_true in E0; subst mx; change (b2i x00) with 0 in M; lia|].
    assert (Hmod : b2i (bmod (nth i sh x00) mx) < b2i mx).
    { rewrite b2i_bmod by lia. apply Nat.mod_upper_bound. lia. }
    rewrite (idx_ok buff _ x00) by lia. cbn [bind]. rewrite upd_ok by lia. cbn [bind]. eexists. split; [reflexivity|].
    split; [rewrite set_nth_length; lia|]. split; [rewrite b2i_bsub; change (b2i x01) with 1; lia|].
    split; [rewrite nth_set_nth by lia; destruct (Nat.eqb_spec 0 (b2i mx)); [lia|exact Z0]|]. split.
    + intros k Hk. rewrite nth_set_nth by lia. destruct (k =? b2i mx); apply B; lia.
    + intros Hlast. rewrite nth_set_nth by lia. assert (b2i mx = 1) by lia. rewrite H. cbn [Nat.eqb].
      assert (b2i (bmod (nth i sh x00) mx) = 0) by lia. rewrite H0. exact Z0.
  - rewrite E. cbn [bind]. eexists _, _. split; [reflexivity|]. split; [exact L|]. split; [exact Z0|]. split; [apply Z1; lia|].
    split; [exact B|]. cbn [rz_pos]. rewrite zeros_length. reflexivity.
Qed.

Lemma rzPerm_1 r : exists r', rzPerm r x01 = Ret ([x00], r').
Proof. eexists. reflexivity. Qed.

Lemma rzPerm_0 r : rzPerm r x00 = Panic PIndex.
Proof. reflexivity. Qed.
