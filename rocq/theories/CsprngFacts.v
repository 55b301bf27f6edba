(** CSPRNG.Read, Perm and GetUniqueBytes. *)
From Coq Require Import List NArith ZArith Lia Arith Bool Permutation FinFun.
From Coq.Init Require Import Byte.
From Verif Require Import GoSem Bytes Spec Galois GF PolyFacts GoFacts VectorFacts Csprng Pool Polynomial PolynomialFacts Shamir SplitFacts CombineFacts.
Import ListNotations.

(** ** swapping *)
Definition swap (l : list byte) (i j : nat) : list byte := set_nth (set_nth l i (nth j l x00)) j (nth i l x00).

Lemma swap_length l i j : i < length l -> j < length l -> length (swap l i j) = length l.
Proof. intros Hi Hj. unfold swap. rewrite set_nth_length; rewrite set_nth_length; lia. Qed.

Lemma nth_swap l i j k : i < length l -> j < length l ->
  nth k (swap l i j) x00 = if k =? j then nth i l x00 else if k =? i then nth j l x00 else nth k l x00.
Proof.
  intros Hi Hj. unfold swap. rewrite nth_set_nth by (rewrite set_nth_length; lia).
  destruct (k =? j); [reflexivity|]. apply nth_set_nth. exact Hi.
Qed.

Lemma swap_perm l i j : i < length l -> j < length l -> Permutation l (swap l i j).
Proof.
  intros Hi Hj. apply (Permutation_nth l (swap l i j) x00). cbv zeta. split; [apply swap_length; assumption|].
  exists (fun k => if k =? j then i else if k =? i then j else k). split; [|split].
  - intros k Hk. destruct (k =? j); [exact Hi|]. destruct (k =? i); [exact Hj|exact Hk].
  - intros a b Ha Hb. destruct (Nat.eqb_spec a j), (Nat.eqb_spec b j), (Nat.eqb_spec a i), (Nat.eqb_spec b i); lia.
  - intros k Hk. rewrite nth_swap by assumption. destruct (k =? j); [reflexivity|]. destruct (k =? i); reflexivity.
Qed.

(** ** byte arithmetic of the shuffle *)
Lemma b2i_bsub a b : b2i b <= b2i a -> b2i (bsub a b) = b2i a - b2i b.
Proof.
  intros H. unfold b2i in *. unfold bsub. rewrite b2n_n2b. pose proof (b2n_lt a). pose proof (b2n_lt b).
  replace (b2n a + 256 - b2n b)%N with ((b2n a - b2n b) + 1 * 256)%N by lia. rewrite N.mod_add by lia.
  rewrite N.mod_small by lia. lia.
Qed.

Lemma b2i_bmod a b : b2i b <> 0 -> b2i (bmod a b) = b2i a mod b2i b.
Proof.
  intros H. unfold b2i in *. unfold bmod. rewrite b2n_n2b. pose proof (b2n_lt a). pose proof (b2n_lt b).
  assert (b2n b <> 0)%N by lia. pose proof (N.mod_lt (b2n a) (b2n b) H2).
  rewrite N.mod_small by lia. apply N2Nat.inj_mod.
Qed.

Lemma b2i_badd1 a : b2i a < 255 -> b2i (badd x01 a) = S (b2i a).
Proof.
  intros H. unfold b2i in *. unfold badd. rewrite b2n_n2b. change (b2n x01) with 1%N. rewrite N.mod_small by lia. lia.
Qed.

Lemma b2i_0 a : b2i a = 0 <-> a = x00.
Proof. split; [|intros ->; reflexivity]. intros H. apply b2i_inj. exact H. Qed.

Definition permJ (ks : nat -> byte) (n i : nat) : nat := 1 + b2i (ks i) mod (n - i).

Lemma permStep_eq ks n i buff : 3 <= b2i n -> i < b2i n - 2 -> length buff = b2i n ->
  permStep n (Read ks (zeros (b2i n))) i buff =
  if permJ ks (b2i n) i <? b2i n then Ret (swap buff i (permJ ks (b2i n) i)) else Panic PIndex.
Proof.
  intros Hn Hi Hb. pose proof (b2i_lt n) as Hn256. unfold permStep.
  rewrite Read_zeros. rewrite (idx_ok _ i x00) by (rewrite take_stream_length; lia). cbn [bind].
  rewrite nth_take_stream by lia. cbv zeta.
  assert (Em : b2i (bsub n (i2b i)) = b2i n - i) by (rewrite b2i_bsub; rewrite b2i_i2b; lia).
  destruct (beq (bsub n (i2b i)) x00) eqn:E0.
  { apply beq_true in E0. rewrite E0 in Em. change (b2i x00) with 0 in Em. lia. }
  assert (Hmod : b2i (ks i) mod (b2i n - i) < b2i n - i) by (apply Nat.mod_upper_bound; lia).
  assert (Ej : b2i (badd x01 (bmod (ks i) (bsub n (i2b i)))) = permJ ks (b2i n) i).
  { unfold permJ. rewrite b2i_badd1; rewrite b2i_bmod; rewrite Em; lia. }
  rewrite (idx_ok buff i x00) by lia. cbn [bind]. rewrite Ej.
  destruct (Nat.ltb_spec (permJ ks (b2i n) i) (b2i n)) as [Hj|Hj].
  - rewrite (idx_ok buff _ x00) by lia. cbn [bind]. rewrite upd_ok by lia. cbn [bind].
    rewrite upd_ok by (rewrite set_nth_length; lia). reflexivity.
  - rewrite idx_panic by lia. reflexivity.
Qed.

Lemma permJ_lt ks n i : 3 <= n -> 0 < i -> i < n - 2 -> permJ ks n i < n.
Proof. intros Hn H0 Hi. unfold permJ. pose proof (Nat.mod_upper_bound (b2i (ks i)) (n - i)). lia. Qed.

Definition identity (n : nat) : list byte := map i2b (seq 0 n).

Lemma identity_length n : length (identity n) = n.
Proof. unfold identity. rewrite map_length, seq_length. reflexivity. Qed.

Lemma fill_identity n : foreach (seq 0 n) (fun i b => upd b i (i2b i)) (zeros n) = Ret (identity n).
Proof.
  rewrite (foreach_upd_map x00 _ (fun i _ => i2b i)); [reflexivity|rewrite zeros_length; reflexivity|].
  intros i o Hi Ho. rewrite zeros_length in Ho. apply upd_ok. lia.
Qed.

Lemma identity_NoDup n : n <= 256 -> NoDup (identity n).
Proof.
  intros H. unfold identity. apply NoDup_nth with (d := x00). rewrite map_length, seq_length.
  intros i j Hi Hj E. rewrite !nth_map_seq in E by assumption. apply i2b_inj in E; lia.
Qed.

(** Perm on [n >= 3] *)
Lemma Perm_ok ks n : 3 <= b2i n -> b2i (ks 0) mod b2i n <> b2i n - 1 ->
  exists p, Perm ks n = Ret p /\ Permutation (identity (b2i n)) p /\ b2i (nth 0 p x00) = 1 + b2i (ks 0) mod b2i n.
Proof.
  intros Hn Hk. pose proof (b2i_lt n) as Hn256. unfold Perm. rewrite fill_identity. cbn [bind].
  assert (E2 : b2i (bsub n x02) = b2i n - 2) by (rewrite b2i_bsub; change (b2i x02) with 2; lia). rewrite E2.
  pose proof (Nat.mod_upper_bound (b2i (ks 0)) (b2i n)) as Hmod.
  destruct (foreach_seq (fun i p => length p = b2i n /\ Permutation (identity (b2i n)) p /\
       (0 < i -> b2i (nth 0 p x00) = 1 + b2i (ks 0) mod b2i n) /\ (i = 0 -> p = identity (b2i n)))
     (permStep n (Read ks (zeros (b2i n)))) (b2i n - 2) 0 (identity (b2i n))) as (p & E & L & P & F & _).
  - split; [apply identity_length|]. split; [reflexivity|]. split; [lia|reflexivity].
  - intros i p [_ Hi] (L & P & F & F0). cbn [Nat.add] in Hi. rewrite permStep_eq by assumption.
    assert (Hj : permJ ks (b2i n) i < b2i n).
    { destruct i as [|i]; [|apply permJ_lt; lia]. unfold permJ. rewrite Nat.sub_0_r. lia. }
    destruct (Nat.ltb_spec (permJ ks (b2i n) i) (b2i n)); [|lia].
    eexists. split; [reflexivity|]. split; [rewrite swap_length; lia|]. split.
    + etransitivity; [exact P|]. apply swap_perm; lia.
    + split; [intros _|lia]. rewrite nth_swap by lia. assert (Hj1 : 1 <= permJ ks (b2i n) i) by (unfold permJ; lia).
      destruct (Nat.eqb_spec 0 (permJ ks (b2i n) i)); [lia|]. destruct (Nat.eqb_spec 0 i) as [<-|Hne].
      * rewrite F0 by reflexivity. unfold identity. rewrite nth_map_seq by lia. rewrite b2i_i2b by lia.
        unfold permJ. rewrite Nat.sub_0_r. reflexivity.
      * apply F. lia.
  - exists p. split; [exact E|]. split; [exact P|]. apply F. lia.
Qed.

Lemma Perm_panic ks n : 3 <= b2i n -> b2i (ks 0) mod b2i n = b2i n - 1 -> Perm ks n = Panic PIndex.
Proof.
  intros Hn Hk. pose proof (b2i_lt n) as Hn256. unfold Perm. rewrite fill_identity. cbn [bind].
  assert (E2 : b2i (bsub n x02) = b2i n - 2) by (rewrite b2i_bsub; change (b2i x02) with 2; lia). rewrite E2.
  replace (b2i n - 2) with (S (b2i n - 3)) by lia. cbn [seq foreach].
  rewrite permStep_eq by (rewrite ?identity_length; lia).
  destruct (Nat.ltb_spec (permJ ks (b2i n) 0) (b2i n)) as [H|H]; [|reflexivity].
  unfold permJ in H. rewrite Nat.sub_0_r in H. lia.
Qed.

Lemma Perm_0 ks : Perm ks x00 = Panic PIndex.
Proof. reflexivity. Qed.

Lemma Perm_1 ks : Perm ks x01 = Panic PIndex.
Proof.
  unfold Perm. rewrite fill_identity. cbn [bind]. rewrite Read_zeros. change (b2i (bsub x01 x02)) with (S 254).
  change (b2i x01) with 1. cbn [seq foreach]. unfold permStep. cbn [take_stream map seq idx nth_error bind].
  change (beq (bsub x01 (i2b 0)) x00) with false. cbv iota. change (bsub x01 (i2b 0)) with x01.
  replace (bmod (ks 0) x01) with x00; [reflexivity|].
  symmetry. apply b2i_inj. rewrite b2i_bmod by discriminate. change (b2i x01) with 1. apply Nat.mod_1_r.
Qed.

Lemma Perm_2 ks : Perm ks x02 = Ret [x00; x01].
Proof. reflexivity. Qed.

(** Perm(255), as used by the split functions *)
Lemma Perm255_ok ks : ks 0 <> xfe -> exists p, Perm ks xff = Ret p /\ length p = 255 /\ NoDup p /\ ~ In xff p.
Proof.
  intros H. destruct (Perm_ok ks xff) as (p & E & P & _).
  - change (b2i xff) with 255. lia.
  - change (b2i xff) with 255. intros F. apply H. apply b2i_inj. change (b2i xfe) with 254. pose proof (b2i_lt (ks 0)).
    destruct (Nat.eq_dec (b2i (ks 0)) 255) as [E|E]; [rewrite E in F; discriminate F|].
    rewrite Nat.mod_small in F by lia. exact F.
  - exists p. change (b2i xff) with 255 in P. split; [exact E|]. split; [rewrite <- (Permutation_length P); reflexivity|]. split.
    + eapply Permutation_NoDup; [exact P|]. apply identity_NoDup. lia.
    + intros F. apply (Permutation_in _ (Permutation_sym P)) in F. unfold identity in F. apply in_map_iff in F as (i & Ei & Hi).
      apply in_seq in Hi. assert (b2i (i2b i) = 255) by (rewrite Ei; reflexivity). rewrite b2i_i2b in H0; lia.
Qed.

Lemma Perm255_panic ks : ks 0 = xfe -> Perm ks xff = Panic PIndex.
Proof. intros H. apply Perm_panic; rewrite ?H; change (b2i xff) with 255; [lia|reflexivity]. Qed.

(** ** GetUniqueBytes *)
Lemma Read_one ks b : Read ks [b] = [bxor b (ks 0)].
Proof. reflexivity. Qed.

Lemma uniqueAt_taken fuel ks seen b : In b seen -> In (bxor b (ks 0)) seen -> uniqueAt fuel ks seen b = Diverge.
Proof.
  revert b. induction fuel as [|f IH]; intros b H1 H2; cbn [uniqueAt]; apply mem_In in H1; rewrite H1; [reflexivity|].
  rewrite Read_one. apply IH; [exact H2|]. rewrite bxor_cancel_r. apply mem_In. exact H1.
Qed.

Lemma uniqueAt_fresh fuel ks seen b : ~ In b seen -> uniqueAt fuel ks seen b = Ret b.
Proof. intros H. apply mem_false in H. destruct fuel; cbn [uniqueAt]; rewrite H; reflexivity. Qed.

Lemma uniqueAt_toggle fuel ks seen b : In b seen -> ~ In (bxor b (ks 0)) seen ->
  uniqueAt (S fuel) ks seen b = Ret (bxor b (ks 0)).
Proof. intros H1 H2. cbn [uniqueAt]. apply mem_In in H1. rewrite H1, Read_one. apply uniqueAt_fresh. exact H2. Qed.

Definition uniqStep (fuel : nat) (ks : nat -> byte) (i : nat) (st : list byte * list byte) : outcome (list byte * list byte) :=
  let '(buff, isExist) := st in
  do b <- idx buff i;
  do b' <- uniqueAt fuel ks isExist b;
  do buff' <- upd buff i b';
  Ret (buff', b' :: isExist).

Definition uniqInv (ks : nat -> byte) (n m : nat) (st : list byte * list byte) : Prop :=
  let '(buff, isExist) := st in
  length buff = n /\ isExist = rev (firstn m buff) /\ picks ks m (firstn m buff) /\
  forall i, m <= i < n -> nth i buff x00 = ks i.

Lemma picks_snoc ks m out b : picks ks m out ->
  (~ In (ks m) out /\ b = ks m) \/ (In (ks m) out /\ b = gadd (ks m) (ks 0) /\ ~ In (gadd (ks m) (ks 0)) out) ->
  picks ks (S m) (out ++ [b]).
Proof.
  intros (L & H) Hb. split; [rewrite app_length; cbn; lia|]. intros i Hi.
  destruct (Nat.eq_dec i m) as [->|Hne].
  - rewrite firstn_app_exact by exact L. rewrite app_nth2 by lia. rewrite L, Nat.sub_diag. cbn [nth].
    destruct Hb as [(A & ->)|(A & -> & B)]; [left|right]; auto.
  - rewrite firstn_app. replace (i - length out) with 0 by lia. cbn [firstn]. rewrite app_nil_r.
    rewrite app_nth1 by lia. apply H. lia.
Qed.

Lemma picks_firstn ks n m out : picks ks n out -> m <= n -> picks ks m (firstn m out).
Proof.
  intros (L & H) Hm. split; [rewrite firstn_length; lia|]. intros i Hi.
  rewrite firstn_firstn, Nat.min_l by lia. rewrite nth_firstn by exact Hi. apply H. lia.
Qed.

Lemma picks_unique ks n out out' : picks ks n out -> picks ks n out' -> out = out'.
Proof.
  revert out out'. induction n as [|n IH]; intros out out' P P'.
  - destruct P as (L & _), P' as (L' & _). destruct out, out'; try discriminate. reflexivity.
  - assert (E : firstn n out = firstn n out') by (apply IH; eapply picks_firstn; eauto).
    destruct P as (L & H), P' as (L' & H'). specialize (H n (Nat.lt_succ_diag_r _)). specialize (H' n (Nat.lt_succ_diag_r _)).
    rewrite E in H.
    assert (En : nth n out x00 = nth n out' x00).
    { destruct H as [(A & ->)|(A & -> & B)], H' as [(A' & ->)|(A' & -> & B')]; (reflexivity || contradiction). }
    apply nth_ext with x00 x00; [congruence|]. intros i Hi. destruct (Nat.eq_dec i n) as [->|Hne]; [exact En|].
    rewrite <- (nth_firstn out n), <- (nth_firstn out' n) by lia. rewrite E. reflexivity.
Qed.

Lemma picks_NoDup ks n out : picks ks n out -> NoDup out.
Proof.
  revert out. induction n as [|n IH]; intros out P.
  - destruct P as (L & _). destruct out; [constructor|discriminate].
  - pose proof (IH _ (picks_firstn _ _ n _ P (le_S _ _ (le_n n)))) as ND. destruct P as (L & H).
    specialize (H n (Nat.lt_succ_diag_r _)).
    assert (E : out = firstn n out ++ [nth n out x00]).
    { rewrite <- (firstn_skipn n out) at 1. f_equal. apply nth_ext with x00 x00; [rewrite skipn_length; cbn; lia|].
      intros i Hi. rewrite skipn_length in Hi. assert (i = 0) by lia. subst i. rewrite nth_skipn, Nat.add_0_r. reflexivity. }
    rewrite E. apply (Permutation_NoDup (l := nth n out x00 :: firstn n out)).
    + apply Permutation_cons_append.
    + constructor; [|exact ND]. destruct H as [(A & ->)|(_ & -> & B)]; assumption.
Qed.

Lemma firstn_set_nth {A} (l : list A) m v : m < length l -> firstn (S m) (set_nth l m v) = firstn m l ++ [v].
Proof.
  intros H. unfold set_nth. rewrite firstn_app, firstn_length, Nat.min_l by lia.
  replace (S m - m) with 1 by lia. rewrite firstn_firstn, Nat.min_r by lia. reflexivity.
Qed.

Lemma uniqInv_step fuel ks n m st : m < n -> uniqInv ks n m st ->
  (exists st', uniqStep (S fuel) ks m st = Ret st' /\ uniqInv ks n (S m) st') \/
  ((forall f, uniqStep f ks m st = Diverge) /\ exists out, picks ks m out /\ In (ks m) out /\ In (gadd (ks m) (ks 0)) out).
Proof.
  intros Hm. destruct st as [buff seen]. intros (L & -> & P & R). unfold uniqStep.
  rewrite (idx_ok buff m x00) by lia. cbn [bind]. rewrite R by lia.
  assert (Fin : forall b, (~ In (ks m) (firstn m buff) /\ b = ks m) \/ (In (ks m) (firstn m buff) /\ b = gadd (ks m) (ks 0) /\ ~ In (gadd (ks m) (ks 0)) (firstn m buff)) ->
     exists st', (do buff' <- upd buff m b; Ret (buff', b :: rev (firstn m buff))) = Ret st' /\ uniqInv ks n (S m) st').
  { intros b Hb. rewrite upd_ok by lia. eexists. split; [reflexivity|]. cbn [uniqInv].
    rewrite firstn_set_nth by lia. split; [rewrite set_nth_length; lia|]. split; [rewrite rev_unit; reflexivity|].
    split; [apply picks_snoc; assumption|]. intros i Hi. rewrite nth_set_nth by lia.
    destruct (Nat.eqb_spec i m); [lia|]. apply R. lia. }
  destruct (in_dec byte_eq_dec (ks m) (firstn m buff)) as [H1|H1].
  - destruct (in_dec byte_eq_dec (gadd (ks m) (ks 0)) (firstn m buff)) as [H2|H2].
    + right. split; [|exists (firstn m buff); auto]. intros f. rewrite uniqueAt_taken; [reflexivity| |]; apply -> in_rev; assumption.
    + left. rewrite uniqueAt_toggle; [|apply -> in_rev; exact H1|intros F; apply in_rev in F; exact (H2 F)]. cbn [bind].
      apply Fin. right. auto.
  - left. rewrite uniqueAt_fresh by (intros F; apply in_rev in F; exact (H1 F)). cbn [bind]. apply Fin. left. auto.
Qed.

(** fuel 1 is enough or no fuel is *)
Lemma uniq_loop ks n : forall k m st, m + k = n -> uniqInv ks n m st ->
  (exists buff seen, picks ks n buff /\ forall fuel, foreach (seq m k) (uniqStep (S fuel) ks) st = Ret (buff, seen)) \/
  ((forall f, foreach (seq m k) (uniqStep f ks) st = Diverge) /\
    exists i out, i < n /\ picks ks i out /\ In (ks i) out /\ In (gadd (ks i) (ks 0)) out).
Proof.
  assert (Zero : forall m st, uniqStep 0 ks m st = Diverge \/ forall f, uniqStep f ks m st = uniqStep 0 ks m st).
  { intros m [buff seen]. unfold uniqStep. destruct (idx buff m) as [b| | | |]; cbn [bind]; auto.
    destruct (mem b seen) eqn:E; [left; cbn [uniqueAt]; rewrite E; reflexivity|right].
    intros f. rewrite !uniqueAt_fresh by (apply mem_false; exact E). reflexivity. }
  assert (Succ : forall f m st r, uniqStep (S f) ks m st = Ret r -> forall g, uniqStep (S g) ks m st = Ret r).
  { intros f m [buff seen] r H g. unfold uniqStep in *. destruct (idx buff m) as [b| | | |]; cbn [bind] in *; try discriminate.
    destruct (in_dec byte_eq_dec b seen) as [H1|H1].
    - destruct (in_dec byte_eq_dec (bxor b (ks 0)) seen) as [H2|H2].
      + rewrite uniqueAt_taken in H by assumption. discriminate.
      + rewrite uniqueAt_toggle in * by assumption. exact H.
    - rewrite uniqueAt_fresh in * by exact H1. exact H. }
  induction k as [|k IH]; intros m st Hm I.
  - left. destruct st as [buff seen]. destruct I as (L & -> & P & _). exists buff, (rev (firstn m buff)).
    assert (m = n) by lia. subst m. rewrite <- L in P at 2. rewrite firstn_all in P. split; [exact P|]. intros; reflexivity.
  - destruct (uniqInv_step 0 ks n m st) as [(st' & E & I')|(D & W)]; [lia|exact I| |].
    + destruct (IH (S m) st') as [(buff & seen & P & F)|(D & W)]; [lia|exact I'| |].
      * left. exists buff, seen. split; [exact P|]. intros fuel. cbn [seq foreach]. rewrite (Succ 0 m st st' E fuel). cbn [bind]. apply F.
      * right. split; [|exact W]. intros [|f]; cbn [seq foreach].
        -- destruct (Zero m st) as [Z|Z]; [rewrite Z; reflexivity|]. rewrite <- (Z 1), E. cbn [bind]. apply D.
        -- rewrite (Succ 0 m st st' E f). cbn [bind]. apply D.
    + right. split.
      * intros f. cbn [seq foreach]. rewrite D. reflexivity.
      * destruct W as (out & W). exists m, out. split; [lia|exact W].
Qed.

Lemma uniqInv_init ks n : uniqInv ks n 0 (Read ks (zeros n), []).
Proof.
  rewrite Read_zeros. cbn [uniqInv]. split; [apply take_stream_length|]. split; [reflexivity|]. split.
  - split; [reflexivity|]. intros; lia.
  - intros i Hi. apply nth_take_stream. lia.
Qed.

Lemma GetUniqueBytes_small ks n : b2i n < 20 ->
  (exists out, picks ks (b2i n) out /\ forall fuel, GetUniqueBytes (S fuel) ks n = Ret out) \/
  ((forall fuel, GetUniqueBytes fuel ks n = Diverge) /\
   exists i out, i < b2i n /\ picks ks i out /\ In (ks i) out /\ In (gadd (ks i) (ks 0)) out).
Proof.
  intros Hn. assert (E20 : (20 <=? b2n n)%N = false) by (apply N.leb_gt; unfold b2i in Hn; lia).
  destruct (uniq_loop ks (b2i n) (b2i n) 0 (Read ks (zeros (b2i n)), [])) as [(buff & seen & P & F)|(D & W)];
    [lia|apply uniqInv_init| |].
  - left. exists buff. split; [exact P|]. intros fuel. unfold GetUniqueBytes. rewrite E20. cbv zeta.
    fold (uniqStep (S fuel) ks). change (foreach (seq 0 (b2i n)) _ _) with (foreach (seq 0 (b2i n)) (uniqStep (S fuel) ks) (Read ks (zeros (b2i n)), [])).
    rewrite F. reflexivity.
  - right. split; [|exact W]. intros fuel. unfold GetUniqueBytes. rewrite E20. cbv zeta.
    change (foreach (seq 0 (b2i n)) _ _) with (foreach (seq 0 (b2i n)) (uniqStep fuel ks) (Read ks (zeros (b2i n)), [])).
    rewrite D. reflexivity.
Qed.

Lemma GetUniqueBytes_0 fuel ks n out : b2i n < 20 -> GetUniqueBytes fuel ks n = Ret out -> picks ks (b2i n) out.
Proof.
  intros Hn H. destruct (GetUniqueBytes_small ks n Hn) as [(o & P & F)|(D & _)]; [|rewrite D in H; discriminate].
  destruct fuel as [|f]; [|rewrite F in H; injection H as <-; exact P].
  (* fuel 0: returns only if no duplicate occurs, with the same result *)
  specialize (F 0). enough (o = out) by (subst; exact P).
  assert (M : forall k st r, foreach k (uniqStep 0 ks) st = Ret r -> foreach k (uniqStep 1 ks) st = Ret r).
  { induction k as [|i k IH]; intros st r; cbn [foreach]; [auto|].
    destruct st as [buff seen]. unfold uniqStep at 1 3. destruct (idx buff i) as [b| | | |]; cbn [bind]; try discriminate.
    destruct (mem b seen) eqn:E; [cbn [uniqueAt]; rewrite E; discriminate|]. rewrite !uniqueAt_fresh by (apply mem_false; exact E).
    cbn [bind]. destruct (upd buff i b) as [b'| | | |]; cbn [bind]; try discriminate. apply IH. }
  unfold GetUniqueBytes in *. destruct (20 <=? b2n n)%N; [congruence|]. cbv zeta in *.
  change (foreach (seq 0 (b2i n)) _ _) with (foreach (seq 0 (b2i n)) (uniqStep 0 ks) (Read ks (zeros (b2i n)), [])) in H.
  change (foreach (seq 0 (b2i n)) _ _) with (foreach (seq 0 (b2i n)) (uniqStep 1 ks) (Read ks (zeros (b2i n)), [])) in F.
  destruct (foreach (seq 0 (b2i n)) (uniqStep 0 ks) (Read ks (zeros (b2i n)), [])) as [[u v]| | | |] eqn:E; try discriminate.
  rewrite (M _ _ _ E) in F. cbn [bind] in *. congruence.
Qed.

Lemma picks_distinct ks n : NoDup (take_stream ks n) -> picks ks n (take_stream ks n).
Proof.
  intros ND. split; [apply take_stream_length|]. intros i Hi. left. split; [|apply nth_take_stream; exact Hi].
  intros F. apply In_nth with (d := x00) in F as (j & Hj & E). rewrite firstn_length, take_stream_length in Hj.
  rewrite nth_firstn in E by lia. rewrite <- (nth_take_stream ks n i x00) in E by exact Hi.
  assert (j = i); [|lia]. eapply (NoDup_nth _ x00); [exact ND| | |exact E]; rewrite take_stream_length; lia.
Qed.

(** a stuck prefix and a full selection exclude each other *)
Lemma picks_stuck ks n out i out' : picks ks n out -> i < n -> picks ks i out' -> In (ks i) out' -> ~ In (gadd (ks i) (ks 0)) out' .
Proof.
  intros P Hi P' H1. assert (E : out' = firstn i out) by (eapply picks_unique; [exact P'|]; eapply picks_firstn; [exact P|lia]).
  rewrite E in *. destruct P as (_ & P). destruct (P i Hi) as [(A & _)|(_ & _ & B)]; [contradiction|exact B].
Qed.

Lemma NoDup_app_l {A} (l m : list A) : NoDup (l ++ m) -> NoDup l.
Proof.
  induction l as [|a l IH]; intros H; [constructor|]. cbn in H. inversion H as [|? ? Ha H']; subst. constructor; [|apply IH; exact H'].
  intros F. apply Ha. apply in_or_app. left. exact F.
Qed.

Lemma GetUniqueBytes_large fuel ks n : 20 <= b2i n -> ks 0 <> xfe ->
  exists out, GetUniqueBytes fuel ks n = Ret out /\ length out = b2i n /\ NoDup out /\ ~ In xff out.
Proof.
  intros Hn Hk. destruct (Perm255_ok ks Hk) as (p & E & L & ND & H). pose proof (b2i_lt n).
  exists (firstn (b2i n) p). unfold GetUniqueBytes.
  assert (E20 : (20 <=? b2n n)%N = true) by (apply N.leb_le; unfold b2i in Hn; lia). rewrite E20, E. cbn [bind].
  rewrite slice_ok by lia. rewrite Nat.sub_0_r. cbn [skipn]. split; [reflexivity|]. split; [rewrite firstn_length; lia|].
  rewrite <- (firstn_skipn (b2i n) p) in ND, H. split; [exact (NoDup_app_l _ _ ND)|].
  intros F. apply H. apply in_or_app. left. exact F.
Qed.

Lemma GetUniqueBytes_panic fuel ks n : 20 <= b2i n -> ks 0 = xfe -> GetUniqueBytes fuel ks n = Panic PIndex.
Proof.
  intros Hn Hk. unfold GetUniqueBytes.
  assert (E20 : (20 <=? b2n n)%N = true) by (apply N.leb_le; unfold b2i in Hn; lia). rewrite E20, (Perm255_panic ks Hk). reflexivity.
Qed.
