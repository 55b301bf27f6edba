(** Facts about the math/rand model: the linear recurrence, the byte stream, rand.Perm. *)
From Coq Require Import List NArith ZArith Lia Arith Bool Permutation.
From Coq.Init Require Import Byte.
From Verif Require Import GoSem Bytes Spec GoFacts MathRand.
Import ListNotations.

(** the states a running program can have *)
Definition rng_wf (r : rng) : Prop :=
  length (r_vec r) = 607 /\ r_feed r < 607 /\ r_tap r = (if r_feed r <? 334 then r_feed r + 273 else r_feed r - 334) /\ r_pos r <= 7.

Definition step (r : rng) : rng := snd (rngUint64 r).
(** the k-th word drawn *)
Definition out (r : rng) (k : nat) : N := fst (rngUint64 (Nat.iter k step r)).

Lemma iter_S {A} (f : A -> A) k a : Nat.iter (S k) f a = f (Nat.iter k f a).
Proof. reflexivity. Qed.

(** the word that will be overwritten by the i-th next draw *)
Definition slot (feed i : nat) : nat := if i <? feed then feed - 1 - i else feed + 606 - i.
Definition look (r : rng) (i : nat) : N := nth (slot (r_feed r) i) (r_vec r) 0%N.

Lemma step_wf r : rng_wf r -> rng_wf (step r).
Proof.
  intros (L & F & T & P). unfold rng_wf, step, rngUint64. cbn [snd r_vec r_feed r_tap r_pos].
  assert (D : dec607 (r_feed r) < 607) by (unfold dec607; destruct (r_feed r); lia).
  repeat split; [|exact D| |exact P].
  - rewrite app_length, firstn_length. cbn [length]. rewrite skipn_length. lia.
  - rewrite T. unfold dec607. destruct (r_feed r) as [|f]; [reflexivity|].
    destruct (Nat.ltb_spec (S f) 334) as [H|H]; destruct (Nat.ltb_spec f 334) as [H'|H']; try lia.
    + destruct (S f + 273) eqn:E; lia.
    + replace (S f - 334) with 0 by lia. lia.
    + destruct (S f - 334) eqn:E; lia.
Qed.

Lemma look_0 r : rng_wf r -> out r 0 = ((look r 0 + look r 334) mod 2 ^ 64)%N.
Proof.
  intros (L & F & T & P). unfold out, look, rngUint64. change (Nat.iter 0 step r) with r. cbn [fst].
  replace (dec607 (r_feed r)) with (slot (r_feed r) 0) by (unfold slot, dec607; destruct (r_feed r); cbn; lia).
  replace (dec607 (r_tap r)) with (slot (r_feed r) 334); [reflexivity|].
  rewrite T. unfold slot. destruct (Nat.ltb_spec (r_feed r) 334) as [H|H].
  - destruct (Nat.ltb_spec 334 (r_feed r)); [lia|]. unfold dec607. destruct (r_feed r + 273) eqn:E; lia.
  - unfold dec607. destruct (Nat.ltb_spec 334 (r_feed r)); destruct (r_feed r - 334) eqn:E; lia.
Qed.

Lemma look_step r i : rng_wf r -> i < 607 -> look (step r) i = if i =? 606 then out r 0 else look r (S i).
Proof.
  intros (L & F & T & P) Hi. unfold look, out, step, rngUint64. change (Nat.iter 0 step r) with r. cbn [fst snd r_vec r_feed].
  set (x := ((_ + _) mod _)%N). clearbody x.
  assert (D : dec607 (r_feed r) < 607) by (unfold dec607; destruct (r_feed r); lia).
  destruct (Nat.eqb_spec i 606) as [->|Ni].
  - replace (slot (dec607 (r_feed r)) 606) with (dec607 (r_feed r)) by
      (unfold slot; destruct (Nat.ltb_spec 606 (dec607 (r_feed r))); lia).
    rewrite app_nth2; rewrite firstn_length; [|lia]. replace (_ - _) with 0 by lia. reflexivity.
  - assert (E : slot (dec607 (r_feed r)) i = slot (r_feed r) (S i)).
    { unfold slot, dec607. destruct (r_feed r) as [|f].
      - destruct (Nat.ltb_spec i 606), (Nat.ltb_spec (S i) 0); lia.
      - destruct (Nat.ltb_spec i f), (Nat.ltb_spec (S i) (S f)); lia. }
    rewrite E.
    assert (NE : slot (r_feed r) (S i) <> dec607 (r_feed r)).
    { unfold slot, dec607. destruct (r_feed r) as [|f]; [destruct (Nat.ltb_spec (S i) 0)|destruct (Nat.ltb_spec (S i) (S f))]; lia. }
    set (d := dec607 (r_feed r)) in *. set (s := slot (r_feed r) (S i)) in *.
    destruct (Nat.lt_ge_cases s d) as [H|H].
    + rewrite app_nth1 by (rewrite firstn_length; lia). apply nth_firstn. exact H.
    + rewrite app_nth2; rewrite firstn_length; [|lia]. rewrite Nat.min_l by lia.
      destruct (s - d) as [|m] eqn:Em; [lia|]. cbn [nth]. rewrite nth_skipn. f_equal. lia.
Qed.

Lemma iter_wf r k : rng_wf r -> rng_wf (Nat.iter k step r).
Proof. intros H. induction k as [|k IH]; [exact H|]. rewrite iter_S. apply step_wf, IH. Qed.

Lemma iter_shift {A} (f : A -> A) k a : Nat.iter k f (f a) = Nat.iter (S k) f a.
Proof. induction k as [|k IH]; [reflexivity|]. rewrite iter_S, IH. reflexivity. Qed.
Lemma iter_plus {A} (f : A -> A) j k a : Nat.iter (j + k) f a = Nat.iter j f (Nat.iter k f a).
Proof. induction j as [|j IH]; [reflexivity|]. cbn [Nat.add]. rewrite !iter_S, IH. reflexivity. Qed.

Lemma out_shift r j k : out (Nat.iter j step r) k = out r (k + j).
Proof. unfold out. rewrite iter_plus. reflexivity. Qed.

Lemma look_iter r k : rng_wf r -> forall i, i < 607 ->
  look (Nat.iter k step r) i = if k + i <? 607 then look r (k + i) else out r (k + i - 607).
Proof.
  intros W. induction k as [|k IH]; intros i Hi.
  - change (Nat.iter 0 step r) with r. destruct (Nat.ltb_spec (0 + i) 607); [reflexivity|lia].
  - rewrite iter_S. rewrite look_step by (try apply iter_wf; assumption).
    destruct (Nat.eqb_spec i 606) as [->|Ni].
    + rewrite out_shift. destruct (Nat.ltb_spec (S k + 606) 607); [lia|]. f_equal. lia.
    + rewrite IH by lia. replace (k + S i) with (S k + i) by lia. reflexivity.
Qed.

(** x_k = x_{k-607} + x_{k-273} *)
Lemma out_rec r k : rng_wf r -> 607 <= k -> out r k = ((out r (k - 607) + out r (k - 273)) mod 2 ^ 64)%N.
Proof.
  intros W Hk. change (out r k) with (out r (0 + k)). rewrite <- out_shift, look_0 by (apply iter_wf, W).
  rewrite !look_iter by (try exact W; lia).
  destruct (Nat.ltb_spec (k + 0) 607); [lia|]. destruct (Nat.ltb_spec (k + 334) 607); [lia|].
  replace (k + 0 - 607) with (k - 607) by lia. replace (k + 334 - 607) with (k - 273) by lia. reflexivity.
Qed.

(** ** Bytes *)
Lemma n2b_mod n : n2b (n mod 256) = n2b n.
Proof. apply b2n_inj. rewrite !b2n_n2b. apply N.mod_mod. discriminate. Qed.
Lemma rngByte_wf r : rng_wf r -> rng_wf (snd (rngByte r)).
Proof.
  intros W. unfold rngByte. destruct (Nat.eqb_spec (r_pos r) 0) as [E|E].
  - unfold rngInt63. destruct (rngUint64 r) as [x r'] eqn:E1.
    assert (W' : rng_wf r') by (replace r' with (step r) by (unfold step; rewrite E1; reflexivity); apply step_wf, W).
    destruct W' as (A & B & C & D). unfold rng_wf; cbn [snd r_vec r_tap r_feed r_pos]. refine (conj A (conj B (conj C _))). lia.
  - destruct W as (A & B & C & D). unfold rng_wf; cbn [snd r_vec r_tap r_feed r_pos]. refine (conj A (conj B (conj C _))). lia.
Qed.

Lemma rngSkip_S i r : rngSkip (S i) r = rngSkip i (snd (rngByte r)).
Proof. unfold rngSkip. symmetry. apply (iter_shift (fun r => snd (rngByte r))). Qed.
Lemma rngStream_S i r : rngStream r (S i) = rngStream (snd (rngByte r)) i.
Proof. unfold rngStream. rewrite rngSkip_S. reflexivity. Qed.
Lemma rngSkip_plus i j r : rngSkip (i + j) r = rngSkip i (rngSkip j r).
Proof. apply iter_plus. Qed.
Lemma rngStream_plus i j r : rngStream r (i + j) = rngStream (rngSkip j r) i.
Proof. unfold rngStream. rewrite rngSkip_plus. reflexivity. Qed.

(** [Read] delivers a prefix of the stream and leaves the rest for later calls *)
Lemma rngRead_spec n : forall r, rngRead n r = (take_stream (rngStream r) n, rngSkip n r).
Proof.
  induction n as [|n IH]; intros r; cbn [rngRead]; [reflexivity|].
  destruct (rngByte r) as [b r1] eqn:E. rewrite IH.
  rewrite rngSkip_S, E. cbn [snd]. f_equal.
  unfold take_stream. cbn [seq map]. f_equal; [unfold rngStream; change (rngSkip 0 r) with r; rewrite E; reflexivity|].
  rewrite <- seq_shift, map_map. apply map_ext. intros i. rewrite rngStream_S, E. reflexivity.
Qed.

(** the bytes left of the current word, then 7 bytes of each new word *)
Lemma rngSkip_partial r k : k <= r_pos r -> rngSkip k r =
  {| r_vec := r_vec r; r_tap := r_tap r; r_feed := r_feed r; r_val := (r_val r / 256 ^ N.of_nat k)%N; r_pos := r_pos r - k |}.
Proof.
  induction k as [|k IH]; intros Hk.
  - change (rngSkip 0 r) with r. change (256 ^ N.of_nat 0)%N with 1%N. rewrite N.div_1_r, Nat.sub_0_r. destruct r; reflexivity.
  - change (rngSkip (S k) r) with (snd (rngByte (rngSkip k r))). rewrite IH by lia. unfold rngByte. cbn [r_pos r_val r_vec r_tap r_feed].
    destruct (Nat.eqb_spec (r_pos r - k) 0); [lia|]. cbn [snd r_pos r_val r_vec r_tap r_feed].
    f_equal; [|lia]. rewrite Nat2N.inj_succ, N.pow_succ_r', N.mul_comm, N.div_div by lia. reflexivity.
Qed.

Lemma stream_partial r k : k < r_pos r -> rngStream r k = n2b (r_val r / 256 ^ N.of_nat k).
Proof.
  intros Hk. unfold rngStream. rewrite rngSkip_partial by lia. unfold rngByte. cbn [r_pos r_val].
  destruct (Nat.eqb_spec (r_pos r - k) 0); [lia|]. reflexivity.
Qed.

Definition drop_val (r : rng) : rng :=
  {| r_vec := r_vec r; r_tap := r_tap r; r_feed := r_feed r; r_val := 0; r_pos := 0 |}.

Lemma step_drop r : drop_val (step r) = step (drop_val r).
Proof. reflexivity. Qed.

Lemma skip7 r : r_pos r = 0 -> drop_val (rngSkip 7 r) = step (drop_val r) /\ r_pos (rngSkip 7 r) = 0.
Proof.
  intros H. change (rngSkip 7 r) with (rngSkip (6 + 1) r). rewrite rngSkip_plus.
  change (rngSkip 1 r) with (snd (rngByte r)).
  assert (E : r_pos (snd (rngByte r)) = 6).
  { unfold rngByte. rewrite H. cbn [Nat.eqb]. unfold rngInt63. destruct (rngUint64 r). reflexivity. }
  rewrite rngSkip_partial by lia. rewrite E. split; [|reflexivity].
  unfold rngByte. rewrite H. cbn [Nat.eqb]. unfold rngInt63, drop_val, step, rngUint64. reflexivity.
Qed.

Lemma out_drop r k : out (drop_val r) k = out r k.
Proof.
  unfold out. assert (E : forall r, fst (rngUint64 (drop_val r)) = fst (rngUint64 r)) by reflexivity.
  assert (E2 : Nat.iter k step (drop_val r) = drop_val (Nat.iter k step r)).
  { induction k as [|k IH]; [reflexivity|]. rewrite !iter_S, IH, step_drop. reflexivity. }
  rewrite E2. apply E.
Qed.

Lemma skip7n r n : r_pos r = 0 -> drop_val (rngSkip (7 * n) r) = Nat.iter n step (drop_val r) /\ r_pos (rngSkip (7 * n) r) = 0.
Proof.
  intros H. induction n as [|n [IH1 IH2]].
  - split; [reflexivity|exact H].
  - replace (7 * S n) with (7 + 7 * n) by lia. rewrite rngSkip_plus.
    destruct (skip7 _ IH2) as [A B]. split; [|exact B]. rewrite A, IH1. reflexivity.
Qed.

Lemma n2b_mod56 x k : k < 7 -> n2b ((x mod 2 ^ 63) / 256 ^ N.of_nat k) = n2b (x / 256 ^ N.of_nat k).
Proof.
  intros Hk. rewrite <- (n2b_mod (_ / _)), <- (n2b_mod (x / _)). f_equal.
  assert (Hp : (2 ^ 63 = 256 ^ N.of_nat k * 2 ^ (63 - 8 * N.of_nat k))%N).
  { change 256%N with (2 ^ 8)%N. rewrite <- N.pow_mul_r, <- N.pow_add_r. f_equal. lia. }
  rewrite Hp, N.mod_mul_r by (apply N.pow_nonzero; discriminate).
  rewrite (N.mul_comm (256 ^ _)%N), N.div_add by (apply N.pow_nonzero; discriminate).
  rewrite N.div_small by (apply N.mod_lt, N.pow_nonzero; discriminate). rewrite N.add_0_l.
  replace (63 - 8 * N.of_nat k)%N with (8 + (55 - 8 * N.of_nat k))%N by lia.
  rewrite N.pow_add_r, N.mod_mul_r by (try apply N.pow_nonzero; discriminate).
  change (2 ^ 8)%N with 256%N. rewrite N.mul_comm, N.mod_add by discriminate. apply N.mod_mod. discriminate.
Qed.

(** byte k of word n *)
Lemma stream_word r n k : r_pos r = 0 -> k < 7 -> rngStream r (7 * n + k) = n2b (out r n / 256 ^ N.of_nat k).
Proof.
  intros H Hk. rewrite Nat.add_comm, rngStream_plus. destruct (skip7n r n H) as [A B].
  set (r' := rngSkip (7 * n) r) in *.
  assert (O : out r n = fst (rngUint64 r')).
  { rewrite <- out_drop. change n with (0 + n). rewrite <- out_shift, <- A, out_drop. reflexivity. }
  destruct k as [|k].
  - unfold rngStream. change (rngSkip 0 r') with r'. unfold rngByte. rewrite B. cbn [Nat.eqb]. unfold rngInt63.
    destruct (rngUint64 r') as [x r2] eqn:E. cbn [fst r_val]. rewrite O. cbn [fst].
    pose proof (n2b_mod56 x 0 ltac:(lia)) as Q. change (256 ^ N.of_nat 0)%N with 1%N in *. rewrite !N.div_1_r in *. exact Q.
  - rewrite rngStream_S.
    assert (E : snd (rngByte r') = {| r_vec := r_vec (step r'); r_tap := r_tap (step r'); r_feed := r_feed (step r');
                 r_val := (out r n mod 2 ^ 63 / 256)%N; r_pos := 6 |}).
    { unfold rngByte. rewrite B. cbn [Nat.eqb]. rewrite O. unfold rngInt63, step. destruct (rngUint64 r') as [x r2]. reflexivity. }
    rewrite E, stream_partial by (cbn [r_pos]; lia). cbn [r_val].
    rewrite N.div_div by (try apply N.pow_nonzero; discriminate).
    rewrite <- N.pow_succ_r', <- Nat2N.inj_succ. apply n2b_mod56. exact Hk.
Qed.

Lemma stream_after r i : rngStream r (i + r_pos r) = rngStream (rngSkip (r_pos r) r) i.
Proof. apply rngStream_plus. Qed.
Lemma pos_after r : r_pos (rngSkip (r_pos r) r) = 0.
Proof. rewrite rngSkip_partial by lia. cbn [r_pos]. lia. Qed.
Lemma wf_skip r k : rng_wf r -> rng_wf (rngSkip k r).
Proof. intros W. induction k as [|k IH]; [exact W|]. change (rngSkip (S k) r) with (snd (rngByte (rngSkip k r))). apply rngByte_wf, IH. Qed.

(** ** rand.Perm *)
Lemma skipn_nth_cons {A} (l : list A) i d : i < length l -> skipn i l = nth i l d :: skipn (S i) l.
Proof.
  revert i; induction l as [|a l IH]; intros i Hi; [cbn in Hi; lia|]. destruct i as [|i]; [reflexivity|]. cbn in Hi |- *. apply IH. lia.
Qed.
Lemma land_le a b : (N.land a b <= b)%N.
Proof.
  rewrite <- (N.lor_ldiff_and b a) at 2. rewrite (N.land_comm b a).
  rewrite <- N.lxor_lor, <- N.add_nocarry_lxor.
  - lia.
  - rewrite (N.land_comm a b). apply N.bits_inj. intros i. rewrite N.land_spec, N.ldiff_spec, N.land_spec, N.bits_0.
    destruct (N.testbit b i), (N.testbit a i); reflexivity.
  - rewrite (N.land_comm a b). apply N.bits_inj. intros i. rewrite N.land_spec, N.ldiff_spec, N.land_spec, N.bits_0.
    destruct (N.testbit b i), (N.testbit a i); reflexivity.
Qed.

Lemma rngIntn_lt fuel r n v r' : (0 < n)%N -> rngIntn fuel r n = Ret (v, r') -> (v < n)%N.
Proof.
  intros Hn. unfold rngIntn. destruct (N.land n (n - 1) =? 0)%N.
  - destruct (rngInt31 r) as [x r1]. intros E. inversion E. pose proof (land_le x (n - 1)). lia.
  - destruct (rngReject fuel _ r) as [[x r1]|e|p| |]; cbn [bind]; try discriminate. intros E. inversion E.
    apply N.mod_lt. lia.
Qed.

(** only draws of words: the state is well formed again, and the bytes left are the same *)
Lemma int31_state r : snd (rngInt31 r) = step r.
Proof. unfold rngInt31, rngInt63, step. destruct (rngUint64 r). reflexivity. Qed.
Lemma int31_val r : fst (rngInt31 r) = (out r 0 mod 2 ^ 63 / 2 ^ 32)%N.
Proof. unfold rngInt31, rngInt63, out. change (Nat.iter 0 step r) with r. destruct (rngUint64 r). reflexivity. Qed.

Lemma reject_state fuel : forall max r v r', rngReject fuel max r = Ret (v, r') -> exists k, r' = Nat.iter k step r.
Proof.
  induction fuel as [|f IH]; intros max r v r'; cbn [rngReject];
    destruct (rngInt31 r) as [x r1] eqn:E; pose proof (int31_state r) as S1; rewrite E in S1; cbn [snd] in S1; subst r1.
  - destruct (max <? x)%N; [discriminate|]. intros H. inversion H. exists 1. reflexivity.
  - destruct (max <? x)%N.
    + intros H. apply IH in H as (k & ->). exists (S k). apply iter_shift.
    + intros H. inversion H. exists 1. reflexivity.
Qed.

Lemma intn_state fuel r n v r' : rngIntn fuel r n = Ret (v, r') -> exists k, r' = Nat.iter k step r.
Proof.
  unfold rngIntn. destruct (N.land n (n - 1) =? 0)%N.
  - destruct (rngInt31 r) as [x r1] eqn:E. pose proof (int31_state r) as S1; rewrite E in S1; cbn [snd] in S1; subst r1.
    intros H. inversion H. exists 1. reflexivity.
  - destruct (rngReject fuel _ r) as [[x r1]|e|p| |] eqn:E; cbn [bind]; try discriminate. intros H. inversion H; subst.
    apply reject_state in E. exact E.
Qed.

Lemma step_pos r k : r_pos (Nat.iter k step r) = r_pos r.
Proof. induction k as [|k IH]; [reflexivity|]. rewrite iter_S. exact IH. Qed.

(** the loop of [Perm] in general form *)
Definition permBody (fuel : nat) (i : nat) (s : list nat * rng) : outcome (list nat * rng) :=
  let '(m, r) := s in
  do '(j, r) <- rngIntn fuel r (N.of_nat (i + 1));
  do mj <- idx m (N.to_nat j);
  do m <- upd m i mj;
  do m <- upd m (N.to_nat j) i;
  Ret (m, r).

Definition permInv (n : nat) (r0 : rng) (i : nat) (s : list nat * rng) : Prop :=
  length (fst s) = n /\ Permutation (firstn i (fst s)) (seq 0 i) /\ exists k, snd s = Nat.iter k step r0.

Lemma perm_swap_fact (m : list nat) i j : j <= i -> i < length m -> Permutation (firstn i m) (seq 0 i) ->
  Permutation (firstn (S i) (set_nth (set_nth m i (nth j m 0)) j i)) (seq 0 (S i)).
Proof.
  intros Hj Hi HP. rewrite seq_S. cbn [Nat.add].
  assert (L : length (firstn i m) = i) by (rewrite firstn_length; lia).
  destruct (Nat.eq_dec j i) as [->|NE].
  - assert (E : firstn (S i) (set_nth (set_nth m i (nth i m 0)) i i) = firstn i m ++ [i]).
    { apply nth_ext with 0 0.
      - rewrite app_length, L, firstn_length, !set_nth_length by (rewrite ?set_nth_length; lia). cbn [length]. lia.
      - rewrite firstn_length, !set_nth_length by (rewrite ?set_nth_length; lia). intros k Hk. rewrite nth_firstn by lia.
        rewrite !nth_set_nth by (rewrite ?set_nth_length; lia). destruct (Nat.eqb_spec k i) as [->|N].
        + rewrite app_nth2 by lia. rewrite L, Nat.sub_diag. reflexivity.
        + rewrite app_nth1 by lia. rewrite nth_firstn by lia. reflexivity. }
    rewrite E. apply Permutation_app_tail. exact HP.
  - assert (E : firstn (S i) (set_nth (set_nth m i (nth j m 0)) j i) = firstn j m ++ i :: skipn (S j) (firstn i m) ++ [nth j m 0]).
    { apply nth_ext with 0 0.
      - rewrite app_length. cbn [length]. rewrite app_length, skipn_length, L, !firstn_length, !set_nth_length by (rewrite ?set_nth_length; lia). cbn [length]. lia.
      - rewrite firstn_length, !set_nth_length by (rewrite ?set_nth_length; lia). intros k Hk. rewrite nth_firstn by lia.
        rewrite !nth_set_nth by (rewrite ?set_nth_length; lia).
        assert (Lj : length (firstn j m) = j) by (rewrite firstn_length; lia).
        destruct (Nat.eqb_spec k j) as [->|N].
        + rewrite app_nth2 by lia. rewrite Lj, Nat.sub_diag. reflexivity.
        + destruct (Nat.lt_ge_cases k j) as [H|H].
          * rewrite app_nth1 by lia. rewrite nth_firstn by lia. destruct (Nat.eqb_spec k i); [lia|reflexivity].
          * rewrite app_nth2 by lia. rewrite Lj. destruct (k - j) as [|d] eqn:Ed; [lia|]. cbn [nth].
            destruct (Nat.eqb_spec k i) as [->|N'].
            -- rewrite app_nth2; rewrite skipn_length, L; [|lia]. replace (d - (i - S j)) with 0 by lia. reflexivity.
            -- rewrite app_nth1 by (rewrite skipn_length, L; lia). rewrite nth_skipn, nth_firstn by lia. f_equal. lia. }
    rewrite E. etransitivity; [|apply Permutation_app_tail; exact HP].
    assert (F : firstn i m = firstn j m ++ nth j m 0 :: skipn (S j) (firstn i m)).
    { rewrite <- (firstn_skipn j (firstn i m)) at 1. rewrite firstn_firstn, Nat.min_l by lia. f_equal.
      rewrite (skipn_nth_cons (firstn i m) j 0) by lia. rewrite nth_firstn by lia. reflexivity. }
    rewrite F at 2. rewrite <- app_assoc. apply Permutation_app_head. cbn [app].
    etransitivity; [apply perm_skip; symmetry; apply Permutation_cons_append|].
    etransitivity; [apply perm_swap|]. apply perm_skip, Permutation_cons_append.
Qed.

Lemma rngPerm_unfold fuel r n : rngPerm fuel r n = foreach (seq 0 n) (permBody fuel) (repeat 0 n, r).
Proof. reflexivity. Qed.

Lemma permBody_inv fuel n r0 i s s' : i < n -> permInv n r0 i s -> permBody fuel i s = Ret s' -> permInv n r0 (S i) s'.
Proof.
  intros Hi (L & P & k & E). destruct s as [m r]. cbn [fst snd] in *. unfold permBody.
  destruct (rngIntn fuel r (N.of_nat (i + 1))) as [[j r1]|e|p| |] eqn:EI; cbn [bind]; try discriminate.
  assert (Hj : N.to_nat j <= i) by (apply rngIntn_lt in EI; lia).
  apply intn_state in EI as (k1 & ->).
  rewrite (idx_ok m _ 0) by lia. cbn [bind]. rewrite upd_ok by lia. cbn [bind].
  rewrite upd_ok by (rewrite set_nth_length; lia). cbn [bind]. intros H. inversion H; subst s'. unfold permInv. cbn [fst snd].
  split; [rewrite !set_nth_length by (rewrite ?set_nth_length; lia); exact L|].
  split; [apply perm_swap_fact; [exact Hj|lia|exact P]|]. exists (k1 + k). rewrite E. symmetry. apply iter_plus.
Qed.

Lemma perm_loop_inv fuel n r0 : forall m i s s', i + m = n -> permInv n r0 i s ->
  foreach (seq i m) (permBody fuel) s = Ret s' -> permInv n r0 n s'.
Proof.
  induction m as [|m IH]; intros i s s' Hi HI; cbn [seq foreach].
  - intros E. inversion E; subst. rewrite Nat.add_0_r in *. exact HI.
  - destruct (permBody fuel i s) as [s1|e|p| |] eqn:E1; cbn [bind]; try discriminate.
    intros E. apply (IH (S i) s1 s'); [lia| |exact E]. eapply permBody_inv; [|exact HI|exact E1]. lia.
Qed.

Lemma permInv_init n r : permInv n r 0 (repeat 0 n, r).
Proof. split; [apply repeat_length|]. split; [apply Permutation_refl|]. exists 0. reflexivity. Qed.

Lemma rngPerm_perm fuel r n p r' : rngPerm fuel r n = Ret (p, r') ->
  Permutation p (seq 0 n) /\ exists k, r' = Nat.iter k step r.
Proof.
  rewrite rngPerm_unfold. intros E. apply (perm_loop_inv fuel n r n 0) in E; [|lia|apply permInv_init].
  destruct E as (L & P & K). cbn [fst snd] in *. split; [|exact K]. rewrite firstn_all2 in P by lia. exact P.
Qed.

(** ** Termination of the rejection loop *)
Lemma reject_cases fuel : forall max r,
  (exists v r', rngReject fuel max r = Ret (v, r')) \/
  (forall k, k <= fuel -> (max < out r k mod 2 ^ 63 / 2 ^ 32)%N).
Proof.
  induction fuel as [|f IH]; intros max r; cbn [rngReject];
    destruct (rngInt31 r) as [x r1] eqn:E; pose proof (int31_state r) as S1; pose proof (int31_val r) as V1;
    rewrite E in S1, V1; cbn [fst snd] in S1, V1; subst r1; destruct (N.ltb_spec max x) as [H|H].
  - right. intros k Hk. replace k with 0 by lia. rewrite <- V1. exact H.
  - left. eauto.
  - destruct (IH max (step r)) as [HL|HR]; [left; exact HL|]. right. intros [|k] Hk; [rewrite <- V1; exact H|].
    specialize (HR k ltac:(lia)). rewrite <- (Nat.add_1_r k), <- (out_shift r 1 k). exact HR.
  - left. eauto.
Qed.

Definition gap (r : rng) (k : nat) : N := (2 ^ 63 - out r k mod 2 ^ 63)%N.

Lemma mod63_sum a b ea eb : (a mod 2 ^ 63 = 2 ^ 63 - ea)%N -> (b mod 2 ^ 63 = 2 ^ 63 - eb)%N -> (0 < ea <= 2 ^ 40)%N -> (0 < eb <= 2 ^ 40)%N ->
  (((a + b) mod 2 ^ 64) mod 2 ^ 63 = 2 ^ 63 - (ea + eb))%N.
Proof.
  intros Ha Hb Ra Rb.
  assert (E : (((a + b) mod 2 ^ 64) mod 2 ^ 63 = (a + b) mod 2 ^ 63)%N).
  { change (2 ^ 64)%N with (2 ^ 63 * 2)%N. rewrite N.mod_mul_r by discriminate.
    rewrite (N.mul_comm (2 ^ 63) (_ mod 2)), N.mod_add by discriminate. apply N.mod_mod. discriminate. }
  rewrite E, N.add_mod, Ha, Hb by discriminate.
  change (2 ^ 40)%N with 1099511627776%N in *. change (2 ^ 63)%N with 9223372036854775808%N in *.
  symmetry. apply (N.mod_unique _ _ 1); lia.
Qed.

Lemma gap_rec r k : rng_wf r -> 607 <= k -> (0 < gap r (k - 607) <= 2 ^ 40)%N -> (0 < gap r (k - 273) <= 2 ^ 40)%N ->
  gap r k = (gap r (k - 607) + gap r (k - 273))%N.
Proof.
  intros W Hk Ha Hb. unfold gap at 1. rewrite (out_rec r k W Hk).
  assert (X : forall j, (out r j mod 2 ^ 63 = 2 ^ 63 - gap r j)%N).
  { intros j. unfold gap. pose proof (N.mod_lt (out r j) (2 ^ 63) ltac:(discriminate)) as B.
    set (y := (out r j mod 2 ^ 63)%N) in *. clearbody y. change (2 ^ 63)%N with 9223372036854775808%N in *. lia. }
  rewrite (mod63_sum _ _ _ _ (X (k - 607)) (X (k - 273)) Ha Hb).
  change (2 ^ 40)%N with 1099511627776%N in *. change (2 ^ 63)%N with 9223372036854775808%N in *. lia.
Qed.

Lemma gap_grows r n : rng_wf r -> (forall k, k <= n -> (0 < gap r k <= 2 ^ 40)%N) ->
  forall m, 607 * m <= n -> (N.of_nat m < gap r (607 * m))%N.
Proof.
  intros W H. induction m as [|m IH]; intros Hm.
  - pose proof (H (607 * 0) ltac:(lia)). cbn in *. lia.
  - rewrite gap_rec by (try exact W; try (apply H); lia).
    replace (607 * S m - 607) with (607 * m) by lia. specialize (IH ltac:(lia)).
    pose proof (H (607 * S m - 273) ltac:(lia)). lia.
Qed.

(** enough fuel for every state *)
Definition permFuel : nat := 607 * N.to_nat (2 ^ 40).

Lemma permFuel_eq : exists M, permFuel = 607 * M /\ N.of_nat M = (2 ^ 40)%N.
Proof. exists (N.to_nat (2 ^ 40)). split; [reflexivity|apply N2Nat.id]. Qed.
Opaque permFuel.

Lemma reject_terminates r max fuel : rng_wf r -> (2 ^ 31 - 256 <= max)%N -> permFuel <= fuel ->
  exists v r', rngReject fuel max r = Ret (v, r').
Proof.
  destruct permFuel_eq as (M & EM & HM). generalize dependent permFuel. intros F -> W Hmax Hf. destruct (reject_cases fuel max r) as [H|H]; [exact H|]. exfalso.
  assert (G : forall k, k <= 607 * M -> (0 < gap r k <= 2 ^ 40)%N).
  { intros k Hk. specialize (H k ltac:(lia)). unfold gap.
    pose proof (N.mod_lt (out r k) (2 ^ 63) ltac:(discriminate)) as B.
    set (y := (out r k mod 2 ^ 63)%N) in *. clearbody y.
    assert (Hy : ((2 ^ 31 - 256) * 2 ^ 32 <= y)%N).
    { apply N.le_trans with (2 ^ 32 * (y / 2 ^ 32))%N; [rewrite N.mul_comm; apply N.mul_le_mono_l; lia|apply N.mul_div_le; discriminate]. }
    change ((2 ^ 31 - 256) * 2 ^ 32)%N with 9223370937343148032%N in Hy. change (2 ^ 40)%N with 1099511627776%N.
    change (2 ^ 63)%N with 9223372036854775808%N in *. lia. }
  pose proof (gap_grows r (607 * M) W G M (Nat.le_refl _)) as Q.
  specialize (G (607 * M) (Nat.le_refl _)). lia.
Qed.

Lemma intn_terminates r n fuel : rng_wf r -> (0 < n <= 256)%N -> permFuel <= fuel ->
  exists v r', rngIntn fuel r n = Ret (v, r').
Proof.
  intros W Hn Hf. unfold rngIntn. destruct (N.land n (n - 1) =? 0)%N; [destruct (rngInt31 r); eauto|].
  destruct (reject_terminates r (2 ^ 31 - 1 - 2 ^ 31 mod n) fuel W) as (v & r' & E); [|exact Hf|rewrite E; cbn [bind]; eauto].
  pose proof (N.mod_lt (2 ^ 31) n ltac:(lia)). lia.
Qed.

Lemma rngPerm_terminates r n fuel : rng_wf r -> n <= 256 -> permFuel <= fuel -> exists p r', rngPerm fuel r n = Ret (p, r').
Proof.
  intros W Hn Hf. rewrite rngPerm_unfold.
  assert (X : forall m i s, i + m = n -> permInv n r i s -> exists s', foreach (seq i m) (permBody fuel) s = Ret s').
  { induction m as [|m IH]; intros i s Hi HI; cbn [seq foreach]; [eauto|].
    assert (E1 : exists s1, permBody fuel i s = Ret s1).
    { destruct HI as (L & P & k & E). destruct s as [l r1]. cbn [fst snd] in *. unfold permBody.
      destruct (intn_terminates r1 (N.of_nat (i + 1)) fuel) as (v & r2 & EI); [subst r1; apply iter_wf, W|lia|exact Hf|].
      rewrite EI. cbn [bind]. apply rngIntn_lt in EI; [|lia].
      rewrite (idx_ok l _ 0) by lia. cbn [bind]. rewrite upd_ok by lia. cbn [bind].
      rewrite upd_ok by (rewrite set_nth_length; lia). cbn [bind]. eauto. }
    destruct E1 as (s1 & E1). rewrite E1. cbn [bind]. apply IH; [lia|]. eapply permBody_inv; [|exact HI|exact E1]. lia. }
  destruct (X n 0 (repeat 0 n, r) eq_refl (permInv_init n r)) as ([p r'] & E). eauto.
Qed.

(** the result does not depend on the fuel *)
Lemma reject_fuel f1 : forall f2 max r a b, rngReject f1 max r = Ret a -> rngReject f2 max r = Ret b -> a = b.
Proof.
  induction f1 as [|f1 IH]; intros [|f2] max r a b; cbn [rngReject]; destruct (rngInt31 r) as [x r1]; destruct (max <? x)%N;
    try discriminate; try congruence. apply IH.
Qed.
Lemma intn_fuel f1 f2 r n a b : rngIntn f1 r n = Ret a -> rngIntn f2 r n = Ret b -> a = b.
Proof.
  unfold rngIntn. destruct (N.land n (n - 1) =? 0)%N; [destruct (rngInt31 r); congruence|].
  destruct (rngReject f1 _ r) as [p1|e|p| |] eqn:E1; cbn [bind]; try discriminate; try (intros; discriminate).
  destruct (rngReject f2 _ r) as [p2|e|p| |] eqn:E2; cbn [bind]; try (intros; discriminate).
  rewrite (reject_fuel _ _ _ _ _ _ E1 E2). congruence.
Qed.
Lemma permBody_fuel f1 f2 i s a b : permBody f1 i s = Ret a -> permBody f2 i s = Ret b -> a = b.
Proof.
  destruct s as [m r]. unfold permBody.
  destruct (rngIntn f1 r _) as [[j1 r1]|e|p| |] eqn:E1; cbn [bind]; try (intros; discriminate).
  destruct (rngIntn f2 r _) as [[j2 r2]|e|p| |] eqn:E2; cbn [bind]; try (intros; discriminate).
  pose proof (intn_fuel _ _ _ _ _ _ E1 E2) as E. inversion E; subst. congruence.
Qed.
Lemma rngPerm_fuel f1 f2 r n a b : rngPerm f1 r n = Ret a -> rngPerm f2 r n = Ret b -> a = b.
Proof.
  rewrite !rngPerm_unfold. generalize (repeat 0 n, r) as s. generalize (seq 0 n) as l.
  induction l as [|i l IH]; intros s; cbn [foreach]; [congruence|].
  destruct (permBody f1 i s) as [s1|e|p| |] eqn:E1; cbn [bind]; try (intros; discriminate).
  destruct (permBody f2 i s) as [s2|e|p| |] eqn:E2; cbn [bind]; try (intros; discriminate).
  rewrite (permBody_fuel _ _ _ _ _ _ E1 E2). apply IH.
Qed.
