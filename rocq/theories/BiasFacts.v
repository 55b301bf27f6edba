(** CSPRNG.Perm: exact distribution of the first and of the last element. *)
From Coq Require Import List NArith ZArith Lia Arith Bool Permutation.
From Coq.Init Require Import Byte.
From Verif Require Import GoSem Bytes Spec SpecBias Galois GF PolyFacts GoFacts VectorFacts Csprng Secrecy CountFacts JointFacts FrequencyFacts CsprngFacts PermFacts.
Import ListNotations.

(** remainders *)
Lemma count_mod_seq n r : 0 < n -> r < n -> forall N q s, N = n * q + s -> s < n ->
  count (fun k => k mod n =? r) (seq 0 N) = q + (if r <? s then 1 else 0).
Proof.
  intros Hn Hr N. induction N as [|N IH]; intros q s E Hs.
  - assert (q = 0) by nia. assert (s = 0) by lia. subst. cbn. reflexivity.
  - rewrite seq_S, count_app. cbn [Nat.add].
    assert (E1 : exists q' s', N = n * q' + s' /\ s' < n /\ ((s = S s' /\ q' = q) \/ (s = 0 /\ s' = n - 1 /\ q = S q'))).
    { destruct s as [|s]; [destruct q as [|q]; [nia|exists q, (n - 1); split; [nia|split; [lia|right; lia]]]|exists q, s; split; [lia|split; [lia|left; lia]]]. }
    destruct E1 as (q' & s' & EN & Hs' & C). rewrite (IH q' s' EN Hs').
    assert (M : N mod n = s') by (symmetry; apply (Nat.mod_unique N n q' s'); lia).
    unfold count. cbn [filter]. rewrite M.
    destruct C as [(Es & Eq)|(Es & Es' & Eq)]; destruct (Nat.eqb_spec s' r);
      repeat match goal with |- context [?a <? ?b] => destruct (Nat.ltb_spec a b) end; cbn [length]; lia.
Qed.

Lemma all_bytes_seq : all_bytes = map i2b (seq 0 256).
Proof. vm_compute. reflexivity. Qed.

Lemma remainders_closed n r : 0 < n -> r < n -> remainders n r = 256 / n + (if r <? 256 mod n then 1 else 0).
Proof.
  intros Hn Hr. unfold remainders. rewrite all_bytes_seq, count_map.
  rewrite (count_ext _ (fun k => k mod n =? r)).
  - apply (count_mod_seq n r Hn Hr); [apply Nat.div_mod; lia|apply Nat.mod_upper_bound; lia].
  - intros k Hk. apply in_seq in Hk. rewrite b2i_i2b by lia. reflexivity.
Qed.

(** counting by the first byte *)
Lemma count_head (P : byte -> bool) f M : count (fun r => P (nth 0 r x00) && f (skipn 1 r)) (all_strings (S M)) = count P all_bytes * count f (all_strings M).
Proof.
  cbn [all_strings]. rewrite count_flat_map.
  rewrite (sum_classes _ P (fun _ => false) (fun _ => false) (count f (all_strings M)) 0 0); try reflexivity; [lia|].
  intros c _. rewrite count_map. cbn [nth skipn]. destruct (P c); [apply count_ext; reflexivity|apply count_0; reflexivity].
Qed.
Lemma count_head1 (P : byte -> bool) M : count (fun r => P (nth 0 r x00)) (all_strings (S M)) = count P all_bytes * 256 ^ M.
Proof.
  rewrite (count_ext _ (fun r => P (nth 0 r x00) && (fun _ : list byte => true) (skipn 1 r))).
  - etransitivity; [apply (count_head P (fun _ => true))|]. f_equal. rewrite count_all. apply all_strings_length.
  - intros r _. rewrite andb_true_r. reflexivity.
Qed.

(** the first element *)
Lemma Perm_cases ks n : 3 <= b2i n ->
  (b2i (ks 0) mod b2i n = b2i n - 1 /\ Perm ks n = Panic PIndex) \/
  (b2i (ks 0) mod b2i n < b2i n - 1 /\ exists p, Perm ks n = Ret p /\ b2i (nth 0 p x00) = 1 + b2i (ks 0) mod b2i n).
Proof.
  intros Hn. pose proof (Nat.mod_upper_bound (b2i (ks 0)) (b2i n)). destruct (Nat.eq_dec (b2i (ks 0) mod b2i n) (b2i n - 1)) as [F|F].
  - left. split; [exact F|apply Perm_panic; assumption].
  - right. split; [lia|]. destruct (Perm_ok ks n Hn F) as (p & E & _ & E0). exists p. split; assumption.
Qed.

Lemma starts_with_byte ks n v : 3 <= b2i n ->
  starts_with v (Perm ks n) = (1 <=? v) && (v <? b2i n) && (b2i (ks 0) mod b2i n =? v - 1).
Proof.
  intros Hn. destruct (Perm_cases ks n Hn) as [(F & E)|(F & p & E & E0)]; rewrite E; cbn [starts_with].
  - rewrite F. destruct (Nat.leb_spec 1 v); destruct (Nat.ltb_spec v (b2i n)); cbn [andb]; try reflexivity. symmetry. apply Nat.eqb_neq. lia.
  - rewrite E0. destruct (Nat.leb_spec 1 v); destruct (Nat.ltb_spec v (b2i n)); cbn [andb];
      destruct (Nat.eqb_spec (1 + b2i (ks 0) mod b2i n) v); try destruct (Nat.eqb_spec (b2i (ks 0) mod b2i n) (v - 1)); try reflexivity; lia.
Qed.
Lemma perm_panics_byte ks n : 3 <= b2i n -> perm_panics (Perm ks n) = (b2i (ks 0) mod b2i n =? b2i n - 1).
Proof.
  intros Hn. destruct (Perm_cases ks n Hn) as [(F & E)|(F & p & E & E0)]; rewrite E; cbn [perm_panics]; symmetry; [apply Nat.eqb_eq; exact F|apply Nat.eqb_neq; lia].
Qed.

(** the last element *)
Lemma Perm_last_place ks n p : 4 <= b2i n -> Perm ks n = Ret p ->
  length p = b2i n /\ (b2i (nth (b2i n - 1) p x00) = b2i n - 1 <-> permJ ks (b2i n) 0 <> b2i n - 1 /\ permJ ks (b2i n) 1 <> b2i n - 1).
Proof.
  intros Hn E. pose proof (b2i_lt n) as Hn256. remember (b2i n) as m eqn:Em.
  destruct (PermN_ind ks n p (fun i q =>
      (i = 0 -> q = identity m) /\
      (i = 1 -> q = swap (identity m) 0 (permJ ks m 0) /\ permJ ks m 0 < m) /\
      (2 <= i -> (b2i (nth (m - 1) q x00) = m - 1 <-> permJ ks m 0 <> m - 1 /\ permJ ks m 1 <> m - 1)))) as ((_ & _ & H) & P).
  - lia.
  - exact E.
  - rewrite <- Em. split; [reflexivity|]. split; lia.
  - rewrite <- Em. intros i q Hi P Hj (I0 & I1 & I2).
    assert (L : length q = m) by (rewrite <- (Permutation_length P); apply identity_length).
    split; [lia|]. split.
    + intros Ei. assert (i = 0) by lia. subst i. rewrite (I0 eq_refl). split; [reflexivity|exact Hj].
    + intros Hi2. assert (J1 : 1 <= permJ ks m i) by (unfold permJ; lia).
      assert (JB : permJ ks m i <= m - i) by (unfold permJ; pose proof (Nat.mod_upper_bound (b2i (ks i)) (m - i)); lia).
      destruct (Nat.eq_dec i 1) as [->|Hne].
      * destruct (I1 eq_refl) as (-> & Hj0). assert (J0 : 1 <= permJ ks m 0) by (unfold permJ; lia).
        assert (Lid : length (identity m) = m) by apply identity_length.
        assert (Nid : forall k, k < m -> b2i (nth k (identity m) x00) = k).
        { intros k Hk. unfold identity. rewrite nth_map_seq by exact Hk. apply b2i_i2b. lia. }
        rewrite nth_swap by (rewrite ?swap_length; lia).
        destruct (Nat.eqb_spec (m - 1) (permJ ks m 1)) as [F|F].
        -- rewrite nth_swap by lia. destruct (Nat.eqb_spec 1 (permJ ks m 0)) as [G|G]; [|destruct (Nat.eqb_spec 1 0); [lia|]]; rewrite Nid by lia; lia.
        -- destruct (Nat.eqb_spec (m - 1) 1) as [G|_]; [lia|]. rewrite nth_swap by lia.
           destruct (Nat.eqb_spec (m - 1) (permJ ks m 0)) as [G|G]; [rewrite Nid by lia; lia|].
           destruct (Nat.eqb_spec (m - 1) 0); [lia|]. rewrite Nid by lia. lia.
      * rewrite nth_swap by lia. destruct (Nat.eqb_spec (m - 1) (permJ ks m i)); [lia|]. destruct (Nat.eqb_spec (m - 1) i); [lia|]. apply I2. lia.
  - rewrite <- Em in *. split; [rewrite <- (Permutation_length P); apply identity_length|]. apply H. lia.
Qed.

Lemma nth_last (p : list byte) : p <> [] -> last p x00 = nth (length p - 1) p x00.
Proof.
  intros H. destruct (exists_last H) as (l & a & ->). rewrite last_last, app_length. cbn [length].
  rewrite app_nth2 by lia. replace (length l + 1 - 1 - length l) with 0 by lia. reflexivity.
Qed.

Lemma ends_with_bytes ks n : 4 <= b2i n ->
  ends_with (b2i n - 1) (Perm ks n) = (b2i (ks 0) mod b2i n <? b2i n - 2) && (b2i (ks 1) mod (b2i n - 1) <? b2i n - 2).
Proof.
  intros Hn. destruct (Perm_cases ks n ltac:(lia)) as [(F & E)|(F & p & E & _)]; rewrite E; cbn [ends_with].
  - rewrite F. destruct (Nat.ltb_spec (b2i n - 1) (b2i n - 2)); [lia|reflexivity].
  - destruct (Perm_last_place ks n p Hn E) as (L & I). rewrite nth_last by (intros ->; cbn in L; lia). rewrite L.
    unfold permJ in I. rewrite Nat.sub_0_r in I. pose proof (Nat.mod_upper_bound (b2i (ks 1)) (b2i n - 1)).
    destruct (Nat.ltb_spec (b2i (ks 0) mod b2i n) (b2i n - 2)); destruct (Nat.ltb_spec (b2i (ks 1) mod (b2i n - 1)) (b2i n - 2)); cbn [andb];
      [apply Nat.eqb_eq, I; lia|apply Nat.eqb_neq..]; intros Q; apply I in Q; lia.
Qed.

Lemma count_below m : 2 <= m -> forall k, k <= m -> count (fun b => b2i b mod m <? k) all_bytes = list_sum (map (remainders m) (seq 0 k)).
Proof.
  intros Hm k. induction k as [|k IH]; intros Hk.
  - apply count_0. reflexivity.
  - rewrite seq_S, map_app, list_sum_app, <- IH by lia. cbn [Nat.add map list_sum fold_right]. unfold remainders. rewrite Nat.add_0_r. clear.
    unfold count. induction all_bytes as [|b l IHl]; [reflexivity|]. cbn [filter].
    destruct (Nat.ltb_spec (b2i b mod m) (S k)); destruct (Nat.ltb_spec (b2i b mod m) k); destruct (Nat.eqb_spec (b2i b mod m) k); cbn [length]; lia.
Qed.
Lemma remainders_all m : 2 <= m -> list_sum (map (remainders m) (seq 0 m)) = 256.
Proof.
  intros Hm. rewrite <- (count_below m Hm m (le_n m)). transitivity (count (fun _ : byte => true) all_bytes); [|reflexivity].
  apply count_ext. intros b _. apply Nat.ltb_lt, Nat.mod_upper_bound. lia.
Qed.
Lemma list_sum_snoc (f : nat -> nat) k : list_sum (map f (seq 0 (S k))) = list_sum (map f (seq 0 k)) + f k.
Proof. rewrite seq_S, map_app, list_sum_app. cbn. lia. Qed.
Lemma count_below1 m : 2 <= m -> count (fun b => b2i b mod m <? m - 1) all_bytes = 256 - remainders m (m - 1).
Proof.
  intros Hm. rewrite count_below by lia. pose proof (remainders_all m Hm) as A. generalize (remainders m) A. clear A. intros f A.
  pose proof (list_sum_snoc f (m - 1)) as B. replace (S (m - 1)) with m in B by lia. lia.
Qed.
Lemma count_below2 m : 2 <= m -> count (fun b => b2i b mod m <? m - 2) all_bytes = 256 - remainders m (m - 2) - remainders m (m - 1).
Proof.
  intros Hm. rewrite count_below by lia. pose proof (remainders_all m Hm) as A. generalize (remainders m) A. clear A. intros f A.
  pose proof (list_sum_snoc f (m - 1)) as B. pose proof (list_sum_snoc f (m - 2)) as C.
  replace (S (m - 1)) with m in B by lia. replace (S (m - 2)) with (m - 1) in C by lia. lia.
Qed.
