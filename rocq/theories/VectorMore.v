(** [AddVector] on vectors of different lengths. *)
From Coq Require Import List NArith ZArith Lia Arith Bool.
From Coq.Init Require Import Byte.
From Verif Require Import GoSem Bytes Spec GaloisTables Galois GF Vector GoFacts VectorFacts.
Import ListNotations.

Lemma div_mul_le n b : 0 < b -> n / b * b <= n.
Proof. intros H. rewrite Nat.mul_comm. apply Nat.mul_div_le. lia. Qed.
Lemma div_mul_gt n b : 0 < b -> n < n / b * b + b.
Proof. intros H. pose proof (Nat.div_mod n b). pose proof (Nat.mod_upper_bound n b). lia. Qed.

Lemma xor_prefix_length inp out : length inp <= length out -> length (xor_prefix inp out) = length out.
Proof.
  intros H. unfold xor_prefix. rewrite app_length, xor_bytes_length, skipn_length; [lia|]. rewrite firstn_length. lia.
Qed.

Lemma nth_xor_prefix inp out i : length inp <= length out ->
  nth i (xor_prefix inp out) x00 = if i <? length inp then gadd (nth i inp x00) (nth i out x00) else nth i out x00.
Proof.
  intros H. unfold xor_prefix.
  assert (L : length inp = length (firstn (length inp) out)) by (rewrite firstn_length; lia).
  destruct (Nat.ltb_spec i (length inp)) as [A|A].
  - rewrite app_nth1 by (rewrite xor_bytes_length; lia). rewrite nth_xor_bytes by exact L. rewrite nth_firstn by exact A. reflexivity.
  - rewrite app_nth2 by (rewrite xor_bytes_length; lia). rewrite xor_bytes_length by exact L.
    rewrite nth_skipn. f_equal. lia.
Qed.

Lemma simd_stage_le bs (f : list byte -> list byte -> list byte) inp out : 0 < bs ->
  (forall x y, length x = bs -> length y = bs -> f x y = map2 gadd x y) ->
  length inp <= length out ->
  let done := length inp / bs * bs in
  (do o <- blockLoop bs f inp out;
   do i' <- slice inp done (length inp);
   do o' <- slice o done (length o);
   Ret (firstn done o, i', o')) = Ret (map2 gadd (firstn done inp) (firstn done out), skipn done inp, skipn done out).
Proof.
  intros Hb Hf Hl done.
  assert (Hd : done <= length inp) by (apply div_mul_le; exact Hb).
  destruct (blockLoop_spec bs f gadd inp out Hb Hf Hl) as (o & E & L & N). rewrite E. cbn [bind].
  rewrite !slice_tail by lia. cbn [bind]. f_equal. f_equal; [f_equal|].
  - apply nth_ext with x00 x00; [rewrite map2_length; rewrite !firstn_length; lia|].
    intros i Hi. rewrite firstn_length in Hi. rewrite nth_firstn by lia. rewrite N. fold done.
    destruct (Nat.ltb_spec i done); [|lia].
    rewrite (nth_map2 gadd _ _ _ _ x00 x00); rewrite ?firstn_length; try lia. rewrite !nth_firstn by lia. reflexivity.
  - apply nth_ext with x00 x00; [rewrite !skipn_length; lia|].
    intros i Hi. rewrite !nth_skipn, N. fold done. destruct (Nat.ltb_spec (done + i) done); [lia|reflexivity].
Qed.

Lemma xorTail_le inp out : length inp <= length out -> xorTail inp out = Ret (xor_prefix inp out).
Proof.
  intros H. unfold xorTail. rewrite slice_ok by lia. rewrite Nat.sub_0_r. cbn [bind skipn].
  rewrite (xor_loop inp (firstn (length inp) out) (fun v old => bxor old v)); [reflexivity| |intros x y; exact (bxor_comm y x)].
  rewrite firstn_length. lia.
Qed.

Lemma xorTail_panic inp out : length out < length inp -> xorTail inp out = Panic PSlice.
Proof. intros H. unfold xorTail. rewrite slice_panic by lia. reflexivity. Qed.

Lemma xor_prefix_split d inp out : d <= length inp -> length inp <= length out ->
  map2 gadd (firstn d inp) (firstn d out) ++ xor_prefix (skipn d inp) (skipn d out) = xor_prefix inp out.
Proof.
  intros H1 H2. 
  assert (Lm : length (map2 gadd (firstn d inp) (firstn d out)) = d) by (rewrite map2_length; rewrite !firstn_length; lia).
  apply nth_ext with x00 x00.
  { rewrite app_length, Lm, !xor_prefix_length by (rewrite ?skipn_length; lia). rewrite skipn_length. lia. }
  intros i Hi. rewrite nth_xor_prefix by exact H2.
  destruct (Nat.lt_ge_cases i d) as [A|A].
  - rewrite app_nth1 by lia. rewrite (nth_map2 gadd _ _ _ _ x00 x00); rewrite ?firstn_length; try lia. rewrite !nth_firstn by lia.
    destruct (Nat.ltb_spec i (length inp)); [reflexivity|lia].
  - rewrite app_nth2 by lia. rewrite Lm, nth_xor_prefix by (rewrite !skipn_length; lia). rewrite skipn_length, !nth_skipn.
    replace (d + (i - d)) with i by lia.
    destruct (Nat.ltb_spec (i - d) (length inp - d)); destruct (Nat.ltb_spec i (length inp)); try lia; reflexivity.
Qed.

(** second stage and tail of the amd64 code *)
Definition stage2 (i1 o1 : list byte) : outcome (list byte) :=
  do '(pre2, inp2, out2) <-
    (if 16 <=? length i1 then
       do o <- sSE2XorSlice i1 o1;
       let done := length i1 / 16 * 16 in
       do i' <- slice i1 done (length i1);
       do o' <- slice o done (length o);
       Ret (firstn done o, i', o')
     else Ret ([], i1, o1));
  do tl <- xorTail inp2 out2; Ret (pre2 ++ tl).

Lemma stage2_le i1 o1 : length i1 <= length o1 -> stage2 i1 o1 = Ret (xor_prefix i1 o1).
Proof.
  intros H. unfold stage2. destruct (16 <=? length i1).
  - unfold sSE2XorSlice. cbv zeta. rewrite (simd_stage_le 16) by (lia || (intros; apply pxor_gadd)).
    cbn [bind]. rewrite xorTail_le by (rewrite !skipn_length; lia). cbn [bind].
    rewrite xor_prefix_split by (lia || apply div_mul_le; lia). reflexivity.
  - cbn [bind]. rewrite xorTail_le by exact H. reflexivity.
Qed.

Lemma pxor_len x y bs : length x = bs -> length y = bs -> length (pxor y x) = bs.
Proof. intros Hx Hy. unfold pxor. rewrite map2_length; lia. Qed.

Lemma stage2_gt i1 o1 : length o1 < length i1 ->
  (stage2 i1 o1 = UB \/ stage2 i1 o1 = Panic PSlice) /\ (length o1 + 16 <= length i1 -> stage2 i1 o1 = UB).
Proof.
  intros H. unfold stage2. destruct (Nat.leb_spec 16 (length i1)) as [L|L].
  - pose proof (div_mul_gt (length i1) 16 ltac:(lia)). pose proof (div_mul_le (length i1) 16 ltac:(lia)).
    destruct (Nat.lt_ge_cases (length o1) (length i1 / 16 * 16)) as [A|A].
    + unfold sSE2XorSlice. rewrite blockLoop_UB; [split; auto|lia|intros; apply pxor_len; assumption|exact A].
    + split; [|lia]. right. unfold sSE2XorSlice.
      set (dn := length i1 / 16 * 16) in *.
      assert (Q : exists o, blockLoop 16 (fun x y => pxor y x) i1 o1 = Ret o /\ length o = length o1).
      { unfold blockLoop. apply (foreach_seq (fun _ o => length o = length o1)); [reflexivity|].
        intros k o [_ Hk] Lo. cbn [Nat.add] in Hk.
        assert (16 * k + 16 <= dn) by (unfold dn; nia).
        destruct (Nat.leb_spec (16 * k + 16) (length i1)); [|lia].
        destruct (Nat.leb_spec (16 * k + 16) (length o)); [|lia]. cbn [andb].
        eexists. split; [reflexivity|]. fold (row 16 i1 k). fold (row 16 o k).
        assert (L1 : length (row 16 i1 k) = 16) by (apply row_length; lia).
        assert (L2 : length (row 16 o k) = 16) by (apply row_length; lia).
        rewrite splice_length; [exact Lo|]. rewrite (pxor_len _ _ 16) by assumption. lia. }
      destruct Q as (o & E & Lo). rewrite E. cbn [bind]. cbv zeta. rewrite !slice_tail by lia. cbn [bind].
      rewrite xorTail_panic; [reflexivity|]. rewrite !skipn_length. lia.
  - split; [|lia]. right. cbn [bind]. rewrite xorTail_panic by exact H. reflexivity.
Qed.

Lemma AddVector_amd64_stage2 inp out : AddVector_amd64 true inp out =
  if 128 <=? length inp then
    do '(pre1, inp1, out1) <-
      (do o <- sSE2XorSlice_64 inp out;
       let done := length inp / 64 * 64 in
       do i' <- slice inp done (length inp);
       do o' <- slice o done (length o);
       Ret (firstn done o, i', o'));
    do r <- stage2 inp1 out1; Ret (pre1 ++ r)
  else stage2 inp out.
Proof.
  unfold AddVector_amd64, stage2. destruct (128 <=? length inp).
  - cbv zeta. destruct (bind (sSE2XorSlice_64 inp out) _) as [[[p i1] o1]|?|?| |]; cbn [bind]; try reflexivity.
    destruct (if 16 <=? length i1 then _ else _) as [[[p2 i2] o2]|?|?| |]; cbn [bind]; try reflexivity.
    destruct (xorTail i2 o2); reflexivity.
  - cbn [bind]. destruct (if 16 <=? length inp then _ else _) as [[[p2 i2] o2]|?|?| |]; cbn [bind]; try reflexivity.
Qed.

Lemma AddVector_amd64_le sse2 inp out : length inp <= length out -> AddVector_amd64 sse2 inp out = Ret (xor_prefix inp out).
Proof.
  intros H. destruct sse2; [|apply xorTail_le; exact H]. rewrite AddVector_amd64_stage2.
  destruct (128 <=? length inp); [|apply stage2_le; exact H].
  unfold sSE2XorSlice_64. cbv zeta. rewrite (simd_stage_le 64) by (lia || (intros; apply pxor_app4; assumption)).
  cbn [bind]. rewrite stage2_le by (rewrite !skipn_length; lia). cbn [bind].
  rewrite xor_prefix_split by (lia || apply div_mul_le; lia). reflexivity.
Qed.

Lemma AddVector_amd64_gt inp out : length out < length inp ->
  (AddVector_amd64 true inp out = UB \/ AddVector_amd64 true inp out = Panic PSlice) /\
  (length out + 16 <= length inp -> AddVector_amd64 true inp out = UB).
Proof.
  intros H. rewrite AddVector_amd64_stage2. destruct (Nat.leb_spec 128 (length inp)) as [L|L]; [|apply stage2_gt; exact H].
  pose proof (div_mul_gt (length inp) 64 ltac:(lia)). pose proof (div_mul_le (length inp) 64 ltac:(lia)).
  set (f64 := fun x y : list byte =>
    pxor (firstn 16 y) (firstn 16 x) ++
    pxor (firstn 16 (skipn 16 y)) (firstn 16 (skipn 16 x)) ++
    pxor (firstn 16 (skipn 32 y)) (firstn 16 (skipn 32 x)) ++
    pxor (skipn 48 y) (skipn 48 x)).
  assert (Hf : forall x y, length x = 64 -> length y = 64 -> length (f64 x y) = 64).
  { intros x y Hx Hy. unfold f64. rewrite pxor_app4 by assumption. rewrite map2_length; lia. }
  unfold sSE2XorSlice_64. fold f64.
  destruct (Nat.lt_ge_cases (length out) (length inp / 64 * 64)) as [A|A].
  - rewrite blockLoop_UB by (lia || assumption). split; auto.
  - set (dn := length inp / 64 * 64) in *.
    assert (Q : exists o, blockLoop 64 f64 inp out = Ret o /\ length o = length out).
    { unfold blockLoop. apply (foreach_seq (fun _ o => length o = length out)); [reflexivity|].
      intros k o [_ Hk] Lo. cbn [Nat.add] in Hk.
      assert (64 * k + 64 <= dn) by (unfold dn; nia).
      destruct (Nat.leb_spec (64 * k + 64) (length inp)); [|lia].
      destruct (Nat.leb_spec (64 * k + 64) (length o)); [|lia]. cbn [andb].
      eexists. split; [reflexivity|]. fold (row 64 inp k). fold (row 64 o k).
      assert (L1 : length (row 64 inp k) = 64) by (apply row_length; lia).
      assert (L2 : length (row 64 o k) = 64) by (apply row_length; lia).
      rewrite splice_length; [exact Lo|]. rewrite Hf by assumption. lia. }
    destruct Q as (o & E & Lo). rewrite E. cbn [bind]. cbv zeta. rewrite !slice_tail by lia. cbn [bind].
    destruct (stage2_gt (skipn dn inp) (skipn dn o)) as [[S|S] T]; [rewrite !skipn_length; lia| |].
    + rewrite S. cbn [bind]. split; auto.
    + split; [rewrite S; right; reflexivity|]. rewrite !skipn_length in T. intros G. rewrite T by lia. reflexivity.
Qed.

Lemma arm_f_len x y : length x = 32 -> length y = 32 ->
  length (pxor (firstn 16 x) (firstn 16 y) ++ pxor (skipn 16 x) (skipn 16 y)) = 32.
Proof.
  intros Hx Hy. rewrite app_length. unfold pxor. rewrite !map2_length; rewrite ?firstn_length, ?skipn_length; lia.
Qed.

Lemma AddVector_arm64_le inp out : length inp <= length out -> AddVector_arm64 inp out = Ret (xor_prefix inp out).
Proof.
  intros Hl. unfold AddVector_arm64, galXorNEON.
  destruct (blockLoop_spec 32 (fun x y => pxor (firstn 16 x) (firstn 16 y) ++ pxor (skipn 16 x) (skipn 16 y)) gadd inp out)
    as (o & E & L & N); [lia| |lia|].
  { intros x y Hx Hy. unfold pxor. rewrite <- map2_split by lia. apply map2_ext. intros; reflexivity. }
  rewrite E. cbn [bind]. cbv zeta. set (dn := length inp / 32 * 32) in *.
  assert (Hd : dn <= length inp) by (apply div_mul_le; lia).
  destruct (foreach_upd x00 (fun i o => do v <- idx inp i; do old <- idx o i; upd o i (bxor old v)) (fun i old => gadd (nth i inp x00) old) dn (length inp - dn) o)
      as (o2 & E2 & L2 & N2); [lia| |].
  { intros i o' Hi Ho. rewrite (idx_ok inp i x00) by lia. cbn [bind]. rewrite (idx_ok o' i x00) by lia. cbn [bind]. rewrite upd_ok by lia.
    rewrite bxor_comm. reflexivity. }
  rewrite E2. f_equal. apply nth_ext with x00 x00; [rewrite xor_prefix_length; lia|].
  intros i Hi. rewrite N2, N, nth_xor_prefix by exact Hl. rewrite L2, L in Hi.
  destruct (Nat.leb_spec dn i); destruct (Nat.ltb_spec i (dn + (length inp - dn))); destruct (Nat.ltb_spec i dn);
    destruct (Nat.ltb_spec i (length inp)); cbn; try lia; reflexivity.
Qed.

Lemma AddVector_arm64_gt inp out : length out < length inp ->
  (AddVector_arm64 inp out = UB \/ AddVector_arm64 inp out = Panic PIndex) /\
  (length out + 32 <= length inp -> AddVector_arm64 inp out = UB).
Proof.
  intros H. unfold AddVector_arm64, galXorNEON.
  pose proof (div_mul_gt (length inp) 32 ltac:(lia)). pose proof (div_mul_le (length inp) 32 ltac:(lia)).
  set (f := fun x y : list byte => pxor (firstn 16 x) (firstn 16 y) ++ pxor (skipn 16 x) (skipn 16 y)).
  destruct (Nat.lt_ge_cases (length out) (length inp / 32 * 32)) as [A|A].
  - rewrite blockLoop_UB; [split; auto|lia|exact arm_f_len|exact A].
  - split; [|lia]. right.
    set (dn := length inp / 32 * 32) in *.
    assert (Q : exists o, blockLoop 32 f inp out = Ret o /\ length o = length out).
    { unfold blockLoop. apply (foreach_seq (fun _ o => length o = length out)); [reflexivity|].
      intros k o [_ Hk] Lo. cbn [Nat.add] in Hk.
      assert (32 * k + 32 <= dn) by (unfold dn; nia).
      destruct (Nat.leb_spec (32 * k + 32) (length inp)); [|lia].
      destruct (Nat.leb_spec (32 * k + 32) (length o)); [|lia]. cbn [andb].
      eexists. split; [reflexivity|]. fold (row 32 inp k). fold (row 32 o k).
      rewrite splice_length; [exact Lo|]. pose proof (arm_f_len (row 32 inp k) (row 32 o k) ltac:(apply row_length; lia) ltac:(apply row_length; lia)) as LL. fold (f (row 32 inp k) (row 32 o k)) in LL. lia. }
    destruct Q as (o & E & Lo). rewrite E. cbn [bind]. cbv zeta.
    replace (length inp - dn) with ((length out - dn) + S (length inp - length out - 1)) by lia.
    rewrite seq_app, foreach_app.
    destruct (foreach_upd x00 (fun i o => do v <- idx inp i; do old <- idx o i; upd o i (bxor old v)) (fun i old => bxor old (nth i inp x00)) dn (length out - dn) o)
      as (o2 & E2 & L2 & _); [lia| |].
    { intros i o' Hi Ho. rewrite (idx_ok inp i x00) by lia. cbn [bind]. rewrite (idx_ok o' i x00) by lia. cbn [bind]. rewrite upd_ok by lia. reflexivity. }
    rewrite E2. cbn [bind seq foreach]. replace (dn + (length out - dn)) with (length out) by lia.
    rewrite (idx_ok inp (length out) x00) by lia. cbn [bind]. rewrite (idx_panic o2) by lia. reflexivity.
Qed.
