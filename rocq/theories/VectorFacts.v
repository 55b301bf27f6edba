(** Every build of [AddVector] and [MulConstVector] is elementwise field arithmetic. *)
From Coq Require Import List NArith ZArith Lia Arith Bool.
From Coq.Init Require Import Byte.
From Verif Require Import GoSem Bytes Spec GaloisTables Galois GF Vector GoFacts.
Import ListNotations.

Lemma map2_length {A B C} (f : A -> B -> C) l m : length l = length m -> length (map2 f l m) = length l.
Proof. revert m; induction l as [|a l IH]; intros [|b m] H; cbn in *; try lia. rewrite IH; lia. Qed.

Lemma nth_map2 {A B C} (f : A -> B -> C) l m i d d1 d2 : length l = length m -> i < length l ->
  nth i (map2 f l m) d = f (nth i l d1) (nth i m d2).
Proof.
  revert m i; induction l as [|a l IH]; intros [|b m] i H Hi; cbn in *; try lia.
  destruct i as [|i]; [reflexivity|]. apply IH; lia.
Qed.

Lemma map2_repeat_r {A B C} (f : A -> B -> C) l b n : length l = n -> map2 f l (repeat b n) = map (fun a => f a b) l.
Proof. intros <-. induction l as [|a l IH]; cbn; [reflexivity|]. f_equal. exact IH. Qed.

Lemma map2_repeat_l {A B C} (f : B -> A -> C) l b n : length l = n -> map2 f (repeat b n) l = map (f b) l.
Proof. intros <-. induction l as [|a l IH]; cbn; [reflexivity|]. f_equal. exact IH. Qed.

Lemma map2_map {A B C D} (f : B -> C -> D) (g : A -> B) (h : A -> C) l :
  map2 f (map g l) (map h l) = map (fun a => f (g a) (h a)) l.
Proof. induction l as [|a l IH]; cbn; [reflexivity|]. f_equal. exact IH. Qed.

Lemma map2_app {A B C} (f : A -> B -> C) l1 l2 m1 m2 : length l1 = length m1 ->
  map2 f (l1 ++ l2) (m1 ++ m2) = map2 f l1 m1 ++ map2 f l2 m2.
Proof. revert m1; induction l1 as [|a l IH]; intros [|b m] H; cbn in *; try lia; [reflexivity|]. f_equal. apply IH. lia. Qed.

Lemma map2_swap {A B C} (f : A -> B -> C) l m : map2 f l m = map2 (fun b a => f a b) m l.
Proof. revert m; induction l as [|a l IH]; intros [|b m]; cbn; try reflexivity. f_equal. apply IH. Qed.

Lemma map2_ext {A B C} (f g : A -> B -> C) l m : (forall a b, f a b = g a b) -> map2 f l m = map2 g l m.
Proof. intros H. revert m; induction l as [|a l IH]; intros [|b m]; cbn; try reflexivity. rewrite H. f_equal. apply IH. Qed.

Lemma xor_bytes_map2 a b : xor_bytes a b = map2 gadd a b.
Proof. revert b; induction a as [|x a IH]; intros [|y b]; cbn; try reflexivity. f_equal. apply IH. Qed.

Lemma xor_bytes_length a b : length a = length b -> length (xor_bytes a b) = length a.
Proof. rewrite xor_bytes_map2. apply map2_length. Qed.

Lemma nth_xor_bytes a b i : length a = length b -> nth i (xor_bytes a b) x00 = gadd (nth i a x00) (nth i b x00).
Proof.
  intros H. rewrite xor_bytes_map2. destruct (Nat.lt_ge_cases i (length a)) as [L|L].
  - apply nth_map2; assumption.
  - rewrite !nth_overflow; try lia; [reflexivity|]. rewrite map2_length; lia.
Qed.

Lemma nth_map_gmul c l i : nth i (map (gmul c) l) x00 = gmul c (nth i l x00).
Proof. rewrite <- (gmul_0_r c) at 1. apply map_nth. Qed.

(** ** portable build *)
Lemma le_bytes_load l : le_bytes (length l) (le_load l) = l.
Proof.
  induction l as [|b l IH]; [reflexivity|]. cbn [le_load length le_bytes].
  pose proof (b2n_lt b) as Hb. f_equal.
  - apply b2n_inj. rewrite b2n_n2b. rewrite N.mul_comm, N.mod_add by lia. apply N.mod_small. exact Hb.
  - rewrite N.mul_comm, N.div_add by lia. rewrite N.div_small by exact Hb. exact IH.
Qed.

Lemma lxor_carry a b c d : (a < 256 -> b < 256 ->
  N.lxor (a + 256 * c) (b + 256 * d) = N.lxor a b + 256 * N.lxor c d)%N.
Proof.
  intros Ha Hb.
  pose proof (lxor_lt a b 8 Ha Hb) as Hx. change (2 ^ 8)%N with 256%N in Hx.
  assert (D : forall n, n = (n mod 256 + 256 * (n / 256))%N) by (intros n; rewrite N.add_comm; apply N.div_mod; lia).
  rewrite (D (N.lxor (a + 256 * c) (b + 256 * d))). f_equal; [|f_equal].
  - change 256%N with (2 ^ 8)%N. rewrite <- !N.land_ones. rewrite <- (N.mod_small (N.lxor a b) (2^8)) by exact Hx.
    rewrite <- N.land_ones. apply N.bits_inj. intros i.
    rewrite !N.land_spec, !N.lxor_spec.
    assert (K : forall u v, (u < 2 ^ 8)%N -> N.testbit (u + 2 ^ 8 * v) i && N.testbit (N.ones 8) i = N.testbit u i && N.testbit (N.ones 8) i).
    { intros u v Hu. rewrite <- !N.land_spec, !N.land_ones. rewrite N.mul_comm, N.mod_add by (cbv; discriminate). reflexivity. }
    pose proof (K a c Ha) as Ka. pose proof (K b d Hb) as Kb.
    destruct (N.testbit (N.ones 8) i); [|rewrite !andb_false_r; reflexivity].
    rewrite !andb_true_r in *. rewrite Ka, Kb. reflexivity.
  - change 256%N with (2 ^ 8)%N. rewrite <- N.shiftr_div_pow2, N.shiftr_lxor, !N.shiftr_div_pow2.
    rewrite !(N.mul_comm (2 ^ 8)), !N.div_add by (cbv; discriminate). rewrite !N.div_small by assumption. reflexivity.
Qed.

Lemma le_bytes_lxor a b : length a = length b ->
  le_bytes (length a) (N.lxor (le_load b) (le_load a)) = map2 gadd a b.
Proof.
  revert b; induction a as [|x a IH]; intros [|y b] H; cbn [length] in H; try discriminate; [reflexivity|].
  cbn [le_load length le_bytes map2].
  pose proof (b2n_lt x) as Hx. pose proof (b2n_lt y) as Hy.
  rewrite lxor_carry by assumption.
  pose proof (lxor_lt (b2n y) (b2n x) 8 Hy Hx) as Hl. change (2 ^ 8)%N with 256%N in Hl. f_equal.
  - apply b2n_inj. unfold gadd. rewrite !b2n_n2b. rewrite N.mul_comm, N.mod_add by lia. rewrite N.lxor_comm. reflexivity.
  - rewrite N.mul_comm, N.div_add by lia. rewrite N.div_small by exact Hl. apply IH. lia.
Qed.

Lemma uint64_at_ok l k : k + 8 <= length l -> uint64_at l k = Ret (le_load (firstn 8 (skipn k l))).
Proof. intros H. unfold uint64_at. rewrite slice_ok by lia. cbn [bind]. do 3 f_equal. lia. Qed.

Lemma xor_loop a b (F : byte -> byte -> byte) : length a = length b -> (forall x y, F x y = gadd x y) ->
  foreach (seq 0 (length a)) (fun n b => do input <- idx a n; do old <- idx b n; upd b n (F input old)) b
  = Ret (xor_bytes a b).
Proof.
  intros H HF.
  rewrite (foreach_upd_map x00 _ (fun i old => gadd (nth i a x00) old)); [|lia|].
  - f_equal. apply nth_ext with x00 x00; [rewrite map_length, seq_length, xor_bytes_length; lia|].
    intros i Hi. rewrite map_length, seq_length in Hi. rewrite nth_map_seq, nth_xor_bytes by lia. reflexivity.
  - intros i o Hi Ho. rewrite (idx_ok a i x00) by lia. cbn [bind]. rewrite (idx_ok o i x00) by lia. cbn [bind].
    rewrite upd_ok by lia. rewrite HF. reflexivity.
Qed.

Lemma firstn_map2 {A B C} (f : A -> B -> C) n l m : firstn n (map2 f l m) = map2 f (firstn n l) (firstn n m).
Proof. revert l m; induction n as [|n IH]; intros [|a l] [|b m]; cbn; try reflexivity. f_equal. apply IH. Qed.
Lemma skipn_map2 {A B C} (f : A -> B -> C) n l m : length l = length m -> skipn n (map2 f l m) = map2 f (skipn n l) (skipn n m).
Proof. revert l m; induction n as [|n IH]; intros [|a l] [|b m] H; cbn in *; try reflexivity; try lia. apply IH. lia. Qed.

Lemma chop4 {A} (m : list A) : firstn 8 (skipn 0 m) ++ firstn 8 (skipn 8 m) ++ firstn 8 (skipn 16 m) ++ firstn 8 (skipn 24 m)
   ++ skipn 32 m = m.
Proof.
  assert (K : forall k (r : list A), r = skipn (8 + k) m -> firstn 8 (skipn k m) ++ r = skipn k m).
  { intros k r ->. rewrite (Nat.add_comm 8 k), skipn_add. apply firstn_skipn. }
  apply (K 0). apply (K 8). apply (K 16). apply (K 24). reflexivity.
Qed.

Lemma addBatch_ok fuel : forall a b, length a = length b -> length b <= fuel -> addBatch fuel a b = Ret (xor_bytes a b).
Proof.
  assert (Small : forall f a b, length a = length b -> length b < 32 -> addBatch f a b = Ret (xor_bytes a b)).
  { intros f a b H L. destruct f; cbn [addBatch]; (destruct (Nat.leb_spec 32 (length b)); [lia|]);
    apply (xor_loop a b (fun i o => bxor o i)); try exact H; intros x y; exact (bxor_comm y x). }
  induction fuel as [|f IH]; intros a b H L; [apply Small; lia|].
  destruct (Nat.leb_spec 32 (length b)) as [G|G]; [|apply Small; lia].
  cbn [addBatch]. destruct (Nat.leb_spec 32 (length b)) as [_|?]; [|lia].
  rewrite slice_ok by lia. cbn [bind]. change (32 - 0) with 32. cbn [skipn].
  set (inS := firstn 32 a). assert (Li : length inS = 32) by (unfold inS; rewrite firstn_length; lia).
  rewrite !uint64_at_ok by lia. cbn [bind].
  rewrite !slice_tail by lia. cbn [bind].
  rewrite IH by (rewrite !skipn_length; lia). cbn [bind]. f_equal.
  rewrite xor_bytes_map2.
  assert (W : forall k, k + 8 <= 32 -> le_bytes 8 (N.lxor (le_load (firstn 8 (skipn k b))) (le_load (firstn 8 (skipn k inS))))
                          = firstn 8 (skipn k (map2 gadd a b))).
  { intros k Hk. rewrite skipn_map2 by exact H. rewrite firstn_map2.
    replace 8 with (length (firstn 8 (skipn k inS))) at 1 by (rewrite firstn_length, skipn_length; lia).
    assert (E : firstn 8 (skipn k inS) = firstn 8 (skipn k a)).
    { apply nth_ext with x00 x00; [rewrite !firstn_length, !skipn_length; lia|].
      intros i Hi. rewrite firstn_length in Hi. rewrite !nth_firstn by lia. rewrite !nth_skipn. unfold inS. apply nth_firstn. lia. }
    rewrite E. apply le_bytes_lxor. rewrite !firstn_length, !skipn_length. lia. }
  rewrite !W by lia. rewrite ?xor_bytes_map2. rewrite <- skipn_map2 by exact H.
  apply (chop4 (map2 gadd a b)).
Qed.

Lemma AddVectorGeneric_ok a b : length a = length b -> AddVectorGeneric a b = Ret (xor_bytes a b).
Proof.
  intros H. unfold AddVectorGeneric, AddVectorBatchGeneric. apply Nat.eqb_eq in H as E. rewrite E. cbn [negb].
  destruct (Nat.leb_spec 256 (length a)) as [L|L].
  - apply addBatch_ok; lia.
  - apply (xor_loop a b GalAdd); [exact H|]. intros x y. reflexivity.
Qed.

Lemma AddVectorBatchGeneric_ok a b : length a = length b -> AddVectorBatchGeneric a b = Ret (xor_bytes a b).
Proof.
  intros H. unfold AddVectorBatchGeneric. apply Nat.eqb_eq in H as E. rewrite E. cbn [negb]. apply addBatch_ok; lia.
Qed.

Lemma AddVectorGeneric_panic a b : length a <> length b -> AddVectorGeneric a b = Panic PLength.
Proof. intros H. unfold AddVectorGeneric. apply Nat.eqb_neq in H. rewrite H. reflexivity. Qed.

Lemma MulConstVectorGeneric_ok c a : MulConstVectorGeneric c a = Ret (map (gmul c) a).
Proof.
  unfold MulConstVectorGeneric. rewrite (foreach_upd_map x00 _ (fun _ v => gmul c v)); [|reflexivity|].
  - f_equal. symmetry. apply map_as_seq.
  - intros i o Hi Ho. rewrite (idx_ok o i x00) by lia. cbn [bind]. rewrite upd_ok by lia.
    rewrite GalMultiply_gmul, gmul_comm. reflexivity.
Qed.

(** ** SIMD blocks *)
Lemma blockLoop_spec bs f h inp out : 0 < bs ->
  (forall x y, length x = bs -> length y = bs -> f x y = map2 h x y) ->
  length inp <= length out ->
  exists o, blockLoop bs f inp out = Ret o /\ length o = length out /\
    forall i, nth i o x00 = if i <? length inp / bs * bs then h (nth i inp x00) (nth i out x00) else nth i out x00.
Proof.
  intros Hb Hf Hl. unfold blockLoop. set (n := length inp / bs).
  assert (Hn : n * bs <= length inp) by (unfold n; rewrite Nat.mul_comm; apply Nat.mul_div_le; lia).
  destruct (foreach_seq (fun k o => length o = length out /\
     forall i, nth i o x00 = if i <? k * bs then h (nth i inp x00) (nth i out x00) else nth i out x00)
     (fun k o => if (bs * k + bs <=? length inp) && (bs * k + bs <=? length o)
       then Ret (splice o (bs * k) (f (firstn bs (skipn (bs * k) inp)) (firstn bs (skipn (bs * k) o)))) else UB)
     n 0 out) as (o & E & L & N).
  - split; reflexivity.
  - intros k o [_ Hk] (L & N). cbn [Nat.add] in Hk.
    assert (Hk1 : bs * k + bs <= length inp) by nia.
    destruct (Nat.leb_spec (bs * k + bs) (length inp)); [|lia].
    destruct (Nat.leb_spec (bs * k + bs) (length o)); [|lia]. cbn [andb].
    eexists. split; [reflexivity|].
    fold (row bs inp k). fold (row bs o k).
    assert (L1 : length (row bs inp k) = bs) by (apply row_length; lia).
    assert (L2 : length (row bs o k) = bs) by (apply row_length; lia).
    rewrite Hf by assumption.
    assert (L3 : length (map2 h (row bs inp k) (row bs o k)) = bs) by (rewrite map2_length; lia).
    split; [rewrite splice_length; lia|].
    intros i. rewrite nth_splice by lia. rewrite L3.
    destruct (Nat.leb_spec (bs * k) i) as [A|A]; cbn [andb].
    + destruct (Nat.ltb_spec i (bs * k + bs)) as [B|B].
      * rewrite (nth_map2 h _ _ _ _ x00 x00) by lia. rewrite !nth_row by lia.
        replace (bs * k + (i - bs * k)) with i by lia. rewrite (N i).
        destruct (Nat.ltb_spec i (k * bs)); [lia|]. destruct (Nat.ltb_spec i (S k * bs)); [reflexivity|lia].
      * rewrite N. destruct (Nat.ltb_spec i (k * bs)); [lia|]. destruct (Nat.ltb_spec i (S k * bs)); [lia|reflexivity].
    + rewrite N. destruct (Nat.ltb_spec i (k * bs)); [|lia]. destruct (Nat.ltb_spec i (S k * bs)); [reflexivity|lia].
  - exists o. split; [exact E|]. split; [exact L|]. exact N.
Qed.

(** the block loop writes outside [out] when [out] is too short *)
Lemma blockLoop_UB bs f inp out : 0 < bs ->
  (forall x y, length x = bs -> length y = bs -> length (f x y) = bs) ->
  length out < length inp / bs * bs -> blockLoop bs f inp out = UB.
Proof.
  intros Hb Hf H. unfold blockLoop. set (n := length inp / bs) in *.
  assert (Hn : n * bs <= length inp) by (unfold n; rewrite Nat.mul_comm; apply Nat.mul_div_le; lia).
  set (m := length out / bs).
  assert (Hm : m < n).
  { unfold m. apply Nat.div_lt_upper_bound; lia. }
  assert (Hm2 : bs * m <= length out) by (unfold m; apply Nat.mul_div_le; lia).
  assert (Hm3 : length out < bs * m + bs).
  { unfold m. pose proof (Nat.div_mod (length out) bs). pose proof (Nat.mod_upper_bound (length out) bs). lia. }
  replace n with (m + S (n - m - 1)) by lia. rewrite seq_app, foreach_app.
  destruct (foreach_seq (fun k (o : list byte) => length o = length out)
     (fun k o => if (bs * k + bs <=? length inp) && (bs * k + bs <=? length o)
       then Ret (splice o (bs * k) (f (firstn bs (skipn (bs * k) inp)) (firstn bs (skipn (bs * k) o)))) else UB)
     m 0 out) as (o & E & L).
  - reflexivity.
  - intros k o Hk L.
    assert (bs * k + bs <= bs * m) by nia. assert (bs * m <= length inp) by nia.
    destruct (Nat.leb_spec (bs * k + bs) (length inp)); [|lia].
    destruct (Nat.leb_spec (bs * k + bs) (length o)); [|lia]. cbn [andb].
    eexists. split; [reflexivity|]. rewrite splice_length; [exact L|].
    rewrite Hf; [lia| |]; apply row_length; lia.
  - rewrite E. cbn [bind seq foreach Nat.add]. rewrite L.
    destruct (Nat.leb_spec (bs * m + bs) (length out)); [lia|]. rewrite andb_false_r. reflexivity.
Qed.

Lemma firstn_app_exact {A} (l m : list A) n : length l = n -> firstn n (l ++ m) = l.
Proof. intros <-. rewrite firstn_app, Nat.sub_diag, firstn_all. cbn. apply app_nil_r. Qed.
Lemma skipn_app_exact {A} (l m : list A) n : length l = n -> skipn n (l ++ m) = m.
Proof. intros <-. rewrite skipn_app, Nat.sub_diag, skipn_all. reflexivity. Qed.

(** nibble shuffles *)
Lemma shr_lane l : map (fun b => band b x0f) (le_bytes (length l) (N.shiftr (le_load l) 4)) = map (fun b => bshr b 4) l.
Proof.
  induction l as [|b l IH]; [reflexivity|]. cbn [length le_load le_bytes map].
  rewrite N.shiftr_div_pow2 in *. change (2 ^ 4)%N with 16%N in *.
  pose proof (b2n_lt b) as Hb.
  assert (E : ((b2n b + 256 * le_load l) / 16 = b2n b / 16 + 16 * le_load l)%N).
  { replace (b2n b + 256 * le_load l)%N with (b2n b + (16 * le_load l) * 16)%N by lia. apply N.div_add. lia. }
  f_equal.
  - rewrite E. apply b2n_inj. unfold band, bshr. rewrite N.shiftr_div_pow2. change (2 ^ 4)%N with 16%N.
    assert (b2n b / 16 < 16)%N by (apply N.div_lt_upper_bound; lia).
    rewrite b2n_n2b_small.
    + rewrite b2n_n2b. change (b2n x0f) with (N.ones 4). rewrite N.land_ones. change (2 ^ 4)%N with 16%N.
      rewrite b2n_n2b_small by lia.
      assert (R : ((b2n b / 16 + 16 * le_load l) mod 256 mod 16 = b2n b / 16)%N); [|exact R].
      change 256%N with (16 * 16)%N. rewrite N.mod_mul_r by lia.
      rewrite (N.mul_comm 16 (le_load l)), N.mod_add, N.div_add by lia.
      rewrite (N.mod_small (b2n b / 16)) by lia. rewrite N.mul_comm, N.mod_add by lia. apply N.mod_small. lia.
    + rewrite b2n_n2b. change (b2n x0f) with (N.ones 4). rewrite N.land_ones.
      eapply N.lt_trans; [apply N.mod_upper_bound; cbv; discriminate|]. reflexivity.
  - rewrite <- IH. do 2 f_equal. rewrite E.
    assert (b2n b / 16 < 16)%N by (apply N.div_lt_upper_bound; lia).
    rewrite (N.div_mod (le_load l) 16) at 1 by lia.
    assert (le_load l mod 16 < 16)%N by (apply N.mod_upper_bound; lia).
    set (q := (le_load l / 16)%N) in *. set (r := (le_load l mod 16)%N) in *.
    replace (b2n b / 16 + 16 * (16 * q + r))%N with (b2n b / 16 + 16 * r + q * 256)%N by lia.
    rewrite N.div_add by lia. rewrite N.div_small by lia. reflexivity.
Qed.

Lemma le_bytes_length n v : length (le_bytes n v) = n.
Proof. revert v; induction n as [|n IH]; intros v; cbn; [reflexivity|]. f_equal. apply IH. Qed.

Lemma psrlq4_length v : length (psrlq4 v) = 16.
Proof. unfold psrlq4, shr4_lane. rewrite app_length, !le_bytes_length. reflexivity. Qed.

Lemma psrlq4_mask v : length v = 16 -> map (fun b => band b x0f) (psrlq4 v) = map (fun b => bshr b 4) v.
Proof.
  intros H. unfold psrlq4, shr4_lane. rewrite map_app.
  assert (L1 : length (firstn 8 v) = 8) by (rewrite firstn_length; lia).
  assert (L2 : length (skipn 8 v) = 8) by (rewrite skipn_length; lia).
  pose proof (shr_lane (firstn 8 v)) as S1. pose proof (shr_lane (skipn 8 v)) as S2. rewrite L1 in S1. rewrite L2 in S2.
  rewrite S1, S2. rewrite <- map_app, firstn_skipn. reflexivity.
Qed.

Lemma low_nibble_lookup tbl l : pshufb tbl (map (fun b => band b x0f) l) = map (fun b => nth (b2i b mod 16) tbl x00) l.
Proof.
  unfold pshufb. rewrite map_map. apply map_ext. intros b.
  assert (E : b2n (band b x0f) = (b2n b mod 16)%N).
  { unfold band. change (b2n x0f) with (N.ones 4). rewrite N.land_ones. change (2^4)%N with 16%N.
    apply b2n_n2b_small. eapply N.lt_trans; [apply N.mod_upper_bound; lia|reflexivity]. }
  rewrite E. assert (b2n b mod 16 < 16)%N by (apply N.mod_upper_bound; lia).
  assert (T : N.testbit (b2n b mod 16) 7 = false).
  { rewrite <- (N.mod_small (b2n b mod 16) (2 ^ 4)) by assumption. apply N.mod_pow2_bits_high. lia. }
  rewrite T. f_equal. change 15%N with (N.ones 4). rewrite N.land_ones. change (2 ^ 4)%N with 16%N.
  rewrite N.mod_small by assumption. unfold b2i. rewrite N2Nat.inj_mod. reflexivity.
Qed.

Lemma high_nibble_lookup tbl l : pshufb tbl (map (fun b => bshr b 4) l) = map (fun b => nth (b2i b / 16) tbl x00) l.
Proof.
  unfold pshufb. rewrite map_map. apply map_ext. intros b. pose proof (b2n_lt b) as Hb.
  assert (H : (b2n b / 16 < 16)%N) by (apply N.div_lt_upper_bound; lia).
  assert (E : b2n (bshr b 4) = (b2n b / 16)%N).
  { unfold bshr. rewrite N.shiftr_div_pow2. change (2^4)%N with 16%N. apply b2n_n2b_small. lia. }
  rewrite E.
  assert (T : N.testbit (b2n b / 16) 7 = false).
  { rewrite <- (N.mod_small (b2n b / 16) (2 ^ 4)) by assumption. apply N.mod_pow2_bits_high. lia. }
  rewrite T. f_equal. change 15%N with (N.ones 4). rewrite N.land_ones. change (2 ^ 4)%N with 16%N.
  rewrite N.mod_small by assumption. unfold b2i. rewrite N2Nat.inj_div. reflexivity.
Qed.

Lemma nibble_entries : forallb (fun p => let '(c, (lo, hi)) := p in
    forallb (fun k => beq (nth k lo x00) (gmul c (i2b k)) && beq (nth k hi x00) (gmul c (i2b (16 * k)))) (seq 0 16))
  (combine all_bytes (combine mulTableLow mulTableHigh)) = true.
Proof. vm_compute. reflexivity. Qed.
Lemma nibble_entry c k : k < 16 ->
  nth k (nth (b2i c) mulTableLow []) x00 = gmul c (i2b k) /\ nth k (nth (b2i c) mulTableHigh []) x00 = gmul c (i2b (16 * k)).
Proof.
  intros Hk. pose proof nibble_entries as H. rewrite forallb_forall in H.
  assert (LL : length mulTableLow = 256) by (vm_compute; reflexivity). assert (LH : length mulTableHigh = 256) by (vm_compute; reflexivity).
  set (L := mulTableLow) in *. set (T := mulTableHigh) in *. clearbody L T. pose proof (b2i_lt c) as Hc.
  specialize (H (c, (nth (b2i c) L [], nth (b2i c) T []))).
  assert (I : In (c, (nth (b2i c) L [], nth (b2i c) T [])) (combine all_bytes (combine L T))).
  { replace (c, (nth (b2i c) L [], nth (b2i c) T [])) with (nth (b2i c) (combine all_bytes (combine L T)) (x00, ([], []))).
    - apply nth_In. rewrite !combine_length, all_bytes_length. lia.
    - rewrite !combine_nth by (rewrite ?combine_length, ?all_bytes_length; lia). f_equal. apply nth_all_bytes. }
  specialize (H I). cbv beta iota in H. rewrite forallb_forall in H. specialize (H k ltac:(apply in_seq; lia)). cbv beta in H.
  apply andb_true_iff in H as [H1 H2]. apply beq_true in H1, H2. split; assumption.
Qed.
Lemma nibbles b : b = gadd (i2b (16 * (b2i b / 16))) (i2b (b2i b mod 16)).
Proof. apply beq_true. revert b. exact (sweep1 (fun b => beq b (gadd (i2b (16 * (b2i b / 16))) (i2b (b2i b mod 16)))) ltac:(vm_compute; reflexivity)). Qed.

Lemma nibble_tables c b :
  bxor (nth (b2i b / 16) (nth (b2i c) mulTableHigh []) x00) (nth (b2i b mod 16) (nth (b2i c) mulTableLow []) x00) = gmul c b.
Proof.
  pose proof (b2i_lt b). rewrite (proj2 (nibble_entry c (b2i b / 16) ltac:(apply Nat.div_lt_upper_bound; lia))).
  rewrite (proj1 (nibble_entry c (b2i b mod 16) ltac:(apply Nat.mod_upper_bound; lia))).
  rewrite (nibbles b) at 3. rewrite gmul_gadd_r. reflexivity.
Qed.

Lemma nibble_tables_length c : length (nth (b2i c) mulTableLow []) = 16 /\ length (nth (b2i c) mulTableHigh []) = 16.
Proof.
  assert (H : (fun c => (length (nth (b2i c) mulTableLow []) =? 16) && (length (nth (b2i c) mulTableHigh []) =? 16)) c = true).
  { revert c. apply sweep1. vm_compute. reflexivity. }
  apply andb_true_iff in H. rewrite !Nat.eqb_eq in H. exact H.
Qed.

Lemma mulStep16_ok c x : length x = 16 ->
  mulStep16 (nth (b2i c) mulTableLow []) (nth (b2i c) mulTableHigh []) x = map (gmul c) x.
Proof.
  intros H. unfold mulStep16, pand, pxor.
  rewrite !map2_repeat_r by (exact H || apply psrlq4_length).
  rewrite psrlq4_mask by exact H. rewrite low_nibble_lookup, high_nibble_lookup, map2_map.
  apply map_ext. intros b. apply nibble_tables.
Qed.

Lemma band_comm a b : band a b = band b a.
Proof. unfold band. rewrite N.land_comm. reflexivity. Qed.

Lemma mulStep32_ok c x : length x = 32 ->
  mulStep32 (nth (b2i c) mulTableLow []) (nth (b2i c) mulTableHigh []) x = map (gmul c) x.
Proof.
  intros H. unfold mulStep32, pand, pxor.
  destruct (nibble_tables_length c) as [Ll Lh].
  set (low := nth (b2i c) mulTableLow []) in *. set (high := nth (b2i c) mulTableHigh []) in *.
  assert (L1 : length (firstn 16 x) = 16) by (rewrite firstn_length; lia).
  assert (L2 : length (skipn 16 x) = 16) by (rewrite skipn_length; lia).
  rewrite !map2_repeat_l by (exact H || (unfold vpsrlq4; rewrite app_length, !psrlq4_length; reflexivity)).
  rewrite (map_ext (band x0f) (fun b => band b x0f)) by (intros; apply band_comm).
  rewrite (map_ext (band x0f) (fun b => band b x0f)) by (intros; apply band_comm).
  unfold vpsrlq4. rewrite map_app, !psrlq4_mask by assumption. rewrite <- map_app, firstn_skipn.
  assert (V : forall t f, length t = 16 -> vpshufb (t ++ t) (map f x) = pshufb t (map f (firstn 16 x)) ++ pshufb t (map f (skipn 16 x))).
  { intros t f Ht. unfold vpshufb. rewrite firstn_app_exact, skipn_app_exact by exact Ht. rewrite firstn_map, skipn_map. reflexivity. }
  rewrite !V by assumption. rewrite !low_nibble_lookup, !high_nibble_lookup, <- !map_app, firstn_skipn.
  rewrite map2_map. apply map_ext. intros b. rewrite bxor_comm. apply nibble_tables.
Qed.

Lemma vtbl_pshufb_low tbl l : vtbl tbl (map (fun b => band b x0f) l) = map (fun b => nth (b2i b mod 16) tbl x00) l.
Proof.
  unfold vtbl. rewrite map_map. apply map_ext. intros b.
  assert (E : b2n (band b x0f) = (b2n b mod 16)%N).
  { unfold band. change (b2n x0f) with (N.ones 4). rewrite N.land_ones. change (2^4)%N with 16%N.
    apply b2n_n2b_small. eapply N.lt_trans; [apply N.mod_upper_bound; lia|reflexivity]. }
  unfold b2i at 1. rewrite E. assert (b2n b mod 16 < 16)%N by (apply N.mod_upper_bound; lia).
  destruct (N.ltb_spec (b2n b mod 16) 16); [|lia]. unfold b2i. rewrite N2Nat.inj_mod. reflexivity.
Qed.

Lemma vtbl_high tbl l : vtbl tbl (vushr4 l) = map (fun b => nth (b2i b / 16) tbl x00) l.
Proof.
  unfold vtbl, vushr4. rewrite map_map. apply map_ext. intros b. pose proof (b2n_lt b) as Hb.
  assert (H : (b2n b / 16 < 16)%N) by (apply N.div_lt_upper_bound; lia).
  assert (E : b2n (bshr b 4) = (b2n b / 16)%N).
  { unfold bshr. rewrite N.shiftr_div_pow2. change (2^4)%N with 16%N. apply b2n_n2b_small. lia. }
  unfold b2i at 1. rewrite E. destruct (N.ltb_spec (b2n b / 16) 16); [|lia]. unfold b2i. rewrite N2Nat.inj_div. reflexivity.
Qed.

Lemma mulStepNeon_ok c x : length x = 32 ->
  mulStepNeon (nth (b2i c) mulTableLow []) (nth (b2i c) mulTableHigh []) x = map (gmul c) x.
Proof.
  intros H. unfold mulStepNeon, pand, pxor.
  rewrite !map2_repeat_r by (rewrite ?firstn_length, ?skipn_length; lia).
  rewrite !vtbl_pshufb_low, !vtbl_high, !map2_map, <- map_app, firstn_skipn.
  apply map_ext. intros b. rewrite bxor_comm. apply nibble_tables.
Qed.

Lemma map2_const {A B C} (h : A -> C) (l : list A) (m : list B) : length l = length m -> map2 (fun a _ => h a) l m = map h l.
Proof. revert m; induction l as [|a l IH]; intros [|b m] H; cbn in *; try lia; [reflexivity|]. f_equal. apply IH. lia. Qed.

Lemma mulTail_ok c inp out : length inp = length out -> mulTail c inp out = Ret (map (gmul c) inp).
Proof.
  intros H. unfold mulTail. rewrite H, slice_all. cbn [bind].
  rewrite (foreach_upd_map x00 _ (fun i _ => gmul c (nth i inp x00))); [|reflexivity|].
  - cbn [bind]. rewrite skipn_all, app_nil_r. f_equal. rewrite <- H.
    symmetry. apply map_as_seq.
  - intros i o Hi Ho. rewrite (idx_ok inp i x00) by lia. cbn [bind]. rewrite upd_ok by lia. rewrite GalMultiply_gmul. reflexivity.
Qed.

Lemma xorTail_ok inp out : length inp = length out -> xorTail inp out = Ret (xor_bytes inp out).
Proof.
  intros H. unfold xorTail. rewrite H at 1. rewrite slice_all. cbn [bind].
  rewrite (xor_loop inp out (fun v old => bxor old v) H); [|intros x y; exact (bxor_comm y x)].
  cbn [bind]. rewrite H, skipn_all, app_nil_r. reflexivity.
Qed.

(** result of a block loop that computes [h] elementwise, when lengths agree *)
Lemma blockLoop_eq bs f h inp out : 0 < bs ->
  (forall x y, length x = bs -> length y = bs -> f x y = map2 h x y) ->
  length inp = length out ->
  let done := length inp / bs * bs in
  blockLoop bs f inp out = Ret (map2 h (firstn done inp) (firstn done out) ++ skipn done out).
Proof.
  intros Hb Hf Hl done.
  assert (Hd : done <= length inp) by (unfold done; rewrite Nat.mul_comm; apply Nat.mul_div_le; lia).
  destruct (blockLoop_spec bs f h inp out Hb Hf) as (o & E & L & N); [lia|].
  rewrite E. f_equal.
  assert (Lm : length (map2 h (firstn done inp) (firstn done out)) = done).
  { rewrite map2_length; rewrite !firstn_length; lia. }
  apply nth_ext with x00 x00.
  { rewrite app_length, Lm, skipn_length. lia. }
  intros i Hi. rewrite N. fold done. destruct (Nat.ltb_spec i done) as [A|A].
  - rewrite app_nth1 by lia. rewrite (nth_map2 h _ _ _ _ x00 x00); rewrite ?firstn_length; try lia.
    rewrite !nth_firstn by lia. reflexivity.
  - rewrite app_nth2 by lia. rewrite Lm, nth_skipn. f_equal. lia.
Qed.

Section Finish.
  (** a prefix of [done] elements was computed, the rest follows on the remaining windows *)
  Context {A B C : Type} (h : A -> B -> C) (d : nat) (inp : list A) (out : list B).
  Lemma map2_split : length inp = length out ->
    map2 h inp out = map2 h (firstn d inp) (firstn d out) ++ map2 h (skipn d inp) (skipn d out).
  Proof.
    intros H. rewrite <- map2_app by (rewrite !firstn_length; lia). rewrite !firstn_skipn. reflexivity.
  Qed.
End Finish.

(** one "SIMD prefix, then continue on the rest" stage of the amd64 code *)
Lemma simd_stage bs (f : list byte -> list byte -> list byte) h inp out : 0 < bs ->
  (forall x y, length x = bs -> length y = bs -> f x y = map2 h x y) ->
  length inp = length out ->
  let done := length inp / bs * bs in
  (do o <- blockLoop bs f inp out;
   do i' <- slice inp done (length inp);
   do o' <- slice o done (length o);
   Ret (firstn done o, i', o')) = Ret (map2 h (firstn done inp) (firstn done out), skipn done inp, skipn done out).
Proof.
  intros Hb Hf Hl done. rewrite (blockLoop_eq bs f h) by assumption. cbn [bind]. fold done.
  assert (Hd : done <= length inp) by (unfold done; rewrite Nat.mul_comm; apply Nat.mul_div_le; lia).
  assert (Lm : length (map2 h (firstn done inp) (firstn done out)) = done).
  { rewrite map2_length; rewrite !firstn_length; lia. }
  rewrite slice_tail by lia. cbn [bind]. rewrite slice_tail by (rewrite app_length; lia). cbn [bind].
  rewrite firstn_app_exact, skipn_app_exact by exact Lm. reflexivity.
Qed.

Lemma map2_gmul_const c (l : list byte) (m : list byte) : length l = length m ->
  map2 (fun a (_ : byte) => gmul c a) l m = map (gmul c) l.
Proof. apply map2_const. Qed.

Lemma MulConstVector_amd64_ok avx2 ssse3 c inp : MulConstVector_amd64 avx2 ssse3 c inp = Ret (map (gmul c) inp).
Proof.
  unfold MulConstVector_amd64. destruct (beq c x01) eqn:Ec.
  - apply beq_true in Ec as ->. rewrite gocopy_same by apply zeros_length. f_equal.
    rewrite <- (map_id inp) at 1. apply map_ext. intros a. symmetry. apply gmul_1_l.
  - set (out := zeros (length inp)). assert (Hl : length inp = length out) by (unfold out; rewrite zeros_length; reflexivity).
    assert (S64 : forall x y : list byte, length x = 64 -> length y = 64 ->
       mulStep32 (nth (b2i c) mulTableLow []) (nth (b2i c) mulTableHigh []) (firstn 32 x) ++
       mulStep32 (nth (b2i c) mulTableLow []) (nth (b2i c) mulTableHigh []) (skipn 32 x) = map2 (fun a _ => gmul c a) x y).
    { intros x y Hx Hy. rewrite !mulStep32_ok by (rewrite ?firstn_length, ?skipn_length; lia).
      rewrite <- map_app, firstn_skipn, map2_gmul_const by lia. reflexivity. }
    assert (S32 : forall x y : list byte, length x = 32 -> length y = 32 ->
       mulStep32 (nth (b2i c) mulTableLow []) (nth (b2i c) mulTableHigh []) x = map2 (fun a _ => gmul c a) x y).
    { intros x y Hx Hy. rewrite mulStep32_ok, map2_gmul_const by lia. reflexivity. }
    assert (S16 : forall x y : list byte, length x = 16 -> length y = 16 ->
       mulStep16 (nth (b2i c) mulTableLow []) (nth (b2i c) mulTableHigh []) x = map2 (fun a _ => gmul c a) x y).
    { intros x y Hx Hy. rewrite mulStep16_ok, map2_gmul_const by lia. reflexivity. }
    destruct avx2; [|destruct ssse3].
    + assert (Two : forall i1 o1, length i1 = length o1 ->
         (do '(pre2, inp2, out2) <-
           (if 32 <? length i1 then
              do o <- galMulAVX2 (nth (b2i c) mulTableLow []) (nth (b2i c) mulTableHigh []) i1 o1;
              let done := length i1 / 32 * 32 in
              do i' <- slice i1 done (length i1);
              do o' <- slice o done (length o);
              Ret (firstn done o, i', o')
            else Ret ([], i1, o1));
          do tl <- mulTail c inp2 out2; Ret (pre2 ++ tl)) = Ret (map (gmul c) i1)).
      { intros i1 o1 H1. destruct (32 <? length i1).
        - unfold galMulAVX2. cbv zeta. rewrite (simd_stage 32 _ (fun a _ => gmul c a)) by (lia || assumption).
          cbn [bind]. rewrite mulTail_ok by (rewrite !skipn_length; lia). cbn [bind].
          rewrite map2_gmul_const by (rewrite !firstn_length; lia). rewrite <- map_app, firstn_skipn. reflexivity.
        - cbn [bind]. rewrite mulTail_ok by exact H1. reflexivity. }
      destruct (128 <=? length inp).
      * unfold galMulAVX2_64. cbv zeta. rewrite (simd_stage 64 _ (fun a _ => gmul c a)) by (lia || assumption).
        cbn [bind]. set (dn := length inp / 64 * 64).
        specialize (Two (skipn dn inp) (skipn dn out)). rewrite !skipn_length in Two. specialize (Two ltac:(lia)).
        revert Two. cbv zeta.
        destruct (if 32 <? length inp - dn then _ else _) as [[[p2 i2] o2]|?|?| |] eqn:E2; cbn [bind]; try discriminate.
        rewrite skipn_length. rewrite E2. cbn [bind].
        destruct (mulTail c i2 o2); cbn [bind]; try discriminate. intros Q. injection Q as ->.
        rewrite map2_gmul_const by (rewrite !firstn_length; lia). rewrite <- map_app, firstn_skipn. reflexivity.
      * cbn [bind]. specialize (Two inp out Hl). revert Two. cbv zeta.
        destruct (if 32 <? length inp then _ else _) as [[[p2 i2] o2]|?|?| |] eqn:E2; cbn [bind]; try discriminate.
        destruct (mulTail c i2 o2); cbn [bind app]; try discriminate. auto.
    + unfold galMulSSSE3. rewrite (blockLoop_eq 16 _ (fun a _ => gmul c a)) by (lia || assumption). cbn [bind]. cbv zeta.
      set (dn := length inp / 16 * 16).
      assert (Hd : dn <= length inp) by (unfold dn; rewrite Nat.mul_comm; apply Nat.mul_div_le; lia).
      assert (Lm : length (map2 (fun a (_ : byte) => gmul c a) (firstn dn inp) (firstn dn out)) = dn).
      { rewrite map2_length; rewrite !firstn_length; lia. }
      assert (Lo : length (map2 (fun a (_ : byte) => gmul c a) (firstn dn inp) (firstn dn out) ++ skipn dn out) = length inp).
      { rewrite app_length, Lm, skipn_length. lia. }
      rewrite Lo. destruct (dn <? length inp).
      * rewrite slice_tail by lia. cbn [bind]. rewrite <- Lo at 1. rewrite slice_tail by lia. cbn [bind].
        rewrite firstn_app_exact, skipn_app_exact by exact Lm.
        rewrite mulTail_ok by (rewrite !skipn_length; lia). cbn [bind].
        rewrite map2_gmul_const by (rewrite !firstn_length; lia). rewrite <- map_app, firstn_skipn. reflexivity.
      * apply mulTail_ok. lia.
    + apply mulTail_ok. exact Hl.
Qed.

Lemma pxor_app4 x y : length x = 64 -> length y = 64 ->
    pxor (firstn 16 y) (firstn 16 x) ++
    pxor (firstn 16 (skipn 16 y)) (firstn 16 (skipn 16 x)) ++
    pxor (firstn 16 (skipn 32 y)) (firstn 16 (skipn 32 x)) ++
    pxor (skipn 48 y) (skipn 48 x) = map2 gadd x y.
Proof.
  intros Hx Hy. unfold pxor.
  rewrite (map2_swap gadd x y).
  rewrite (map2_ext (fun b a => gadd a b) bxor) by (intros u v; exact (bxor_comm v u)).
  assert (K : forall k r, k + 16 <= 64 -> r = map2 bxor (skipn (k + 16) y) (skipn (k + 16) x) ->
      map2 bxor (firstn 16 (skipn k y)) (firstn 16 (skipn k x)) ++ r = map2 bxor (skipn k y) (skipn k x)).
  { intros k r Hk ->. rewrite !skipn_add. rewrite <- map2_app by (rewrite !firstn_length, !skipn_length; lia).
    rewrite !firstn_skipn. reflexivity. }
  apply (K 0); [lia|]. apply (K 16); [lia|]. apply (K 32); [lia|]. reflexivity.
Qed.

Lemma pxor_gadd x y : pxor y x = map2 gadd x y.
Proof.
  unfold pxor. rewrite map2_swap. apply map2_ext. intros a b. exact (bxor_comm b a).
Qed.

Lemma AddVector_amd64_ok sse2 inp out : length inp = length out -> AddVector_amd64 sse2 inp out = Ret (xor_bytes inp out).
Proof.
  intros Hl. unfold AddVector_amd64. destruct sse2; [|apply xorTail_ok; exact Hl].
  assert (Two : forall i1 o1, length i1 = length o1 ->
         (do '(pre2, inp2, out2) <-
           (if 16 <=? length i1 then
              do o <- sSE2XorSlice i1 o1;
              let done := length i1 / 16 * 16 in
              do i' <- slice i1 done (length i1);
              do o' <- slice o done (length o);
              Ret (firstn done o, i', o')
            else Ret ([], i1, o1));
          do tl <- xorTail inp2 out2; Ret (pre2 ++ tl)) = Ret (xor_bytes i1 o1)).
  { intros i1 o1 H1. destruct (16 <=? length i1).
    - unfold sSE2XorSlice. cbv zeta. rewrite (simd_stage 16 _ gadd) by (lia || assumption || (intros; apply pxor_gadd)).
      cbn [bind]. rewrite xorTail_ok by (rewrite !skipn_length; lia). cbn [bind].
      rewrite !xor_bytes_map2, <- map2_split by exact H1. reflexivity.
    - cbn [bind]. rewrite xorTail_ok by exact H1. reflexivity. }
  destruct (128 <=? length inp).
  - unfold sSE2XorSlice_64. cbv zeta. rewrite (simd_stage 64 _ gadd) by (lia || assumption || (intros; apply pxor_app4; assumption)).
    cbn [bind]. set (dn := length inp / 64 * 64).
    specialize (Two (skipn dn inp) (skipn dn out)). rewrite !skipn_length in Two. specialize (Two ltac:(lia)).
    revert Two. cbv zeta.
    destruct (if 16 <=? length inp - dn then _ else _) as [[[p2 i2] o2]|?|?| |] eqn:E2; cbn [bind]; try discriminate.
    rewrite skipn_length. rewrite E2. cbn [bind].
    destruct (xorTail i2 o2); cbn [bind]; try discriminate. intros Q. injection Q as ->.
    rewrite !xor_bytes_map2, <- map2_split by exact Hl. reflexivity.
  - cbn [bind]. specialize (Two inp out Hl). revert Two. cbv zeta.
    destruct (if 16 <=? length inp then _ else _) as [[[p2 i2] o2]|?|?| |] eqn:E2; cbn [bind]; try discriminate.
    destruct (xorTail i2 o2); cbn [bind app]; try discriminate. auto.
Qed.

Lemma MulConstVector_arm64_ok c inp : MulConstVector_arm64 c inp = Ret (map (gmul c) inp).
Proof.
  unfold MulConstVector_arm64. destruct (beq c x01) eqn:Ec.
  - apply beq_true in Ec as ->. rewrite gocopy_same by apply zeros_length. f_equal.
    rewrite <- (map_id inp) at 1. apply map_ext. intros a. symmetry. apply gmul_1_l.
  - set (out := zeros (length inp)). assert (Hl : length inp = length out) by (unfold out; rewrite zeros_length; reflexivity).
    unfold galMulNEON. destruct (blockLoop_spec 32 (fun x _ => mulStepNeon (nth (b2i c) mulTableLow []) (nth (b2i c) mulTableHigh []) x)
       (fun a _ => gmul c a) inp out) as (o & E & L & N); [lia| |lia|].
    { intros x y Hx Hy. rewrite mulStepNeon_ok, map2_gmul_const by lia. reflexivity. }
    rewrite E. cbn [bind]. cbv zeta.
    set (dn := length inp / 32 * 32) in *.
    assert (Hd : dn <= length inp) by (unfold dn; rewrite Nat.mul_comm; apply Nat.mul_div_le; lia).
    destruct (foreach_upd x00 (fun i o => do v <- idx inp i; upd o i (GalMultiply c v)) (fun i _ => gmul c (nth i inp x00)) dn (length inp - dn) o)
      as (o2 & E2 & L2 & N2); [lia| |].
    { intros i o' Hi Ho. rewrite (idx_ok inp i x00) by lia. cbn [bind]. rewrite upd_ok by lia. rewrite GalMultiply_gmul. reflexivity. }
    rewrite E2. f_equal. apply nth_ext with x00 x00; [rewrite map_length; lia|].
    intros i Hi. rewrite N2, N, nth_map_gmul. rewrite L2, L in Hi.
    destruct (Nat.leb_spec dn i); destruct (Nat.ltb_spec i (dn + (length inp - dn))); destruct (Nat.ltb_spec i dn); cbn; try lia; reflexivity.
Qed.

Lemma AddVector_arm64_ok inp out : length inp = length out -> AddVector_arm64 inp out = Ret (xor_bytes inp out).
Proof.
  intros Hl. unfold AddVector_arm64, galXorNEON.
  destruct (blockLoop_spec 32 (fun x y => pxor (firstn 16 x) (firstn 16 y) ++ pxor (skipn 16 x) (skipn 16 y)) gadd inp out)
    as (o & E & L & N); [lia| |lia|].
  { intros x y Hx Hy. unfold pxor. rewrite <- map2_split by lia. apply map2_ext. intros; reflexivity. }
  rewrite E. cbn [bind]. cbv zeta. set (dn := length inp / 32 * 32) in *.
  assert (Hd : dn <= length inp) by (unfold dn; rewrite Nat.mul_comm; apply Nat.mul_div_le; lia).
  destruct (foreach_upd x00 (fun i o => do v <- idx inp i; do old <- idx o i; upd o i (bxor old v)) (fun i old => gadd (nth i inp x00) old) dn (length inp - dn) o)
      as (o2 & E2 & L2 & N2); [lia| |].
  { intros i o' Hi Ho. rewrite (idx_ok inp i x00) by lia. cbn [bind]. rewrite (idx_ok o' i x00) by lia. cbn [bind]. rewrite upd_ok by lia.
    rewrite bxor_comm. reflexivity. }
  rewrite E2. f_equal. apply nth_ext with x00 x00; [rewrite xor_bytes_length; lia|].
  intros i Hi. rewrite N2, N, nth_xor_bytes by exact Hl. rewrite L2, L in Hi.
  destruct (Nat.leb_spec dn i); destruct (Nat.ltb_spec i (dn + (length inp - dn))); destruct (Nat.ltb_spec i dn); cbn; try lia; reflexivity.
Qed.

Lemma AddVector_ok ar a b : length a = length b -> AddVector ar a b = Ret (xor_bytes a b).
Proof.
  destruct ar; cbn [AddVector]; [apply AddVectorGeneric_ok|apply AddVector_amd64_ok|apply AddVector_arm64_ok].
Qed.

Lemma MulConstVector_ok ar c a : MulConstVector ar c a = Ret (map (gmul c) a).
Proof.
  destruct ar; cbn [MulConstVector]; [apply MulConstVectorGeneric_ok|apply MulConstVector_amd64_ok|apply MulConstVector_arm64_ok].
Qed.
