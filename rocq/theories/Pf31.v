(** Proofs about randomizer.Randomizer (C78). *)
From Coq Require Import List NArith ZArith Lia Arith Bool.
From Coq.Init Require Import Byte.
From Verif Require Import GoSem Bytes Spec GF GoFacts PolynomialFacts SplitFacts CombineFacts RandomizerFacts Csprng CsprngFacts Libs AES AESFacts Randomizer RandomizerNew Worker SpecRz Pf8.
Import ListNotations.

(*PROPS
From Coq Require Import List NArith ZArith Lia Arith Bool.
From Coq.Init Require Import Byte.
From Verif Require Import GoSem Bytes Spec Csprng Libs AES Randomizer RandomizerNew Worker SpecRz ExData Pf31.
Import ListNotations.
*)

Lemma rzDo_pos r c : rz_ks (snd (rzDo r c)) = rz_ks r /\ rz_pos (snd (rzDo r c)) = rz_pos r + uses c.
Proof.
  destruct c as [buff|n]; [split; reflexivity|]. cbn [rzDo uses].
  assert (P : forall st, rzPerm r n = Ret st -> rz_ks (snd st) = rz_ks r /\ rz_pos (snd st) = rz_pos r + b2i n).
  { intros [out r'] H. unfold rzPerm in H. destruct (foreach (seq 0 (b2i n)) _ _) as [b| | | |]; cbn [bind] in H; try discriminate.
    unfold rzRead in H. cbv iota beta zeta in H. destruct (foreach _ _ (b, _)) as [[b' m]| | | |]; cbn [bind] in H; try discriminate.
    injection H as _ H. rewrite <- H. cbn [snd rz_ks rz_pos]. rewrite zeros_length. split; reflexivity. }
  destruct (Nat.lt_ge_cases (b2i n) 2) as [Hn|Hn].
  - destruct (Nat.eq_dec (b2i n) 0) as [Z|Z].
    + assert (n = x00) by (apply b2i_inj; exact Z). subst n. rewrite rzPerm_0. cbn [snd]. split; [reflexivity|]. change (b2i x00) with 0. lia.
    + assert (n = x01) by (apply b2i_inj; change (b2i x01) with 1; lia). subst n. destruct (rzPerm_1 r) as (r' & E). rewrite E. exact (P _ E).
  - destruct (rzPerm_ok r n Hn) as (b & r' & E & _). rewrite E. exact (P _ E).
Qed.

(** Perm looks only at the next n bytes of the key stream *)
Lemma rzPerm_local r r' n : (forall i, i < b2i n -> rz_ks r (rz_pos r + i) = rz_ks r' (rz_pos r' + i)) ->
  fst (rzDo r (CallPerm n)) = fst (rzDo r' (CallPerm n)).
Proof.
  intros H. cbn [rzDo]. unfold rzPerm. destruct (foreach (seq 0 (b2i n)) _ _) as [b| | | |]; cbn [bind]; try reflexivity.
  unfold rzRead. cbv iota beta zeta.
  replace (xorStreamFrom (rz_ks r) (rz_pos r) (zeros (b2i n))) with (xorStreamFrom (rz_ks r') (rz_pos r') (zeros (b2i n))).
  - destruct (foreach _ _ (b, _)) as [[b' m]| | | |]; reflexivity.
  - apply nth_ext with (d := x00) (d' := x00); [now rewrite !xorStreamFrom_length|].
    intros i Hi. rewrite xorStreamFrom_length, zeros_length in Hi.
    rewrite !nth_xorStreamFrom by (rewrite zeros_length; exact Hi). f_equal. symmetry. apply H, Hi.
Qed.

Lemma rzHistory_nth calls : forall r k c, nth_error calls k = Some c ->
  nth_error (rzHistory r calls) k = Some (fst (rzDo {| rz_ks := rz_ks r; rz_pos := start r calls k |} c)).
Proof.
  induction calls as [|c0 calls IH]; intros r k c H; [destruct k; discriminate|].
  cbn [rzHistory]. destruct (rzDo r c0) as [out r'] eqn:D. destruct k as [|k]; cbn [nth_error] in H |- *.
  - injection H as <-. unfold start. cbn [firstn map list_sum fold_right]. rewrite Nat.add_0_r. destruct r as [ks pos]. cbn [rz_ks rz_pos]. rewrite D. reflexivity.
  - rewrite (IH r' k c H). pose proof (rzDo_pos r c0) as [K P]. rewrite D in K, P. cbn [snd] in K, P.
    do 3 f_equal. rewrite K. f_equal. unfold start. cbn [firstn map list_sum fold_right]. rewrite P. unfold list_sum. lia.
Qed.

(** C78: any history of Read and Perm calls on one Randomizer uses consecutive, hence disjoint, stretches of one key stream. Call number [k] uses the
    bytes start .. start + uses - 1: a Read XORs them into the buffer, a Perm depends on nothing else. *)
Lemma C78_history_pf : forall r calls k c, nth_error calls k = Some c ->
  exists result, nth_error (rzHistory r calls) k = Some result /\
  (forall buff, c = CallRead buff -> exists out, result = Ret out /\ length out = length buff /\
     forall i, i < length buff -> nth i out x00 = gadd (nth i buff x00) (rz_ks r (start r calls k + i))) /\
  (forall n r', c = CallPerm n -> (forall i, i < b2i n -> rz_ks r' (rz_pos r' + i) = rz_ks r (start r calls k + i)) ->
     result = match rzPerm r' n with Ret (out, _) => Ret out | Fail e => Fail e | Panic p => Panic p | UB => UB | Diverge => Diverge end) /\
  (forall l, k < l -> l < length calls -> start r calls k + uses c <= start r calls l).
Proof.
  intros r calls k c H. eexists. split; [exact (rzHistory_nth calls r k c H)|]. split; [|split].
  - intros buff ->. cbn [rzDo]. eexists. split; [reflexivity|]. split; [apply xorStreamFrom_length|].
    intros i Hi. rewrite nth_xorStreamFrom by exact Hi. reflexivity.
  - intros n r' -> A. rewrite (rzPerm_local _ r' n) by (intros i Hi; cbn [rz_ks rz_pos]; symmetry; apply A, Hi). cbn [rzDo].
    destruct (rzPerm r' n) as [[out r'']| | | |]; reflexivity.
  - intros l Hkl Hl. unfold start.
    assert (Hc : map uses (firstn l calls) = map uses (firstn k calls) ++ uses c :: map uses (firstn (l - S k) (skipn (S k) calls))).
    { rewrite <- (map_cons uses c), <- map_app. f_equal.
      apply nth_error_split in H as (a & b & E & L). subst calls k.
      rewrite firstn_app, (firstn_all2 a) by lia. replace (l - length a) with (S (l - S (length a))) by lia. cbn [firstn].
      rewrite firstn_app, firstn_all, Nat.sub_diag. cbn [firstn]. rewrite app_nil_r. f_equal. f_equal. f_equal.
      rewrite skipn_app, skipn_all2 by lia. replace (S (length a) - length a) with 1 by lia. reflexivity. }
    rewrite Hc. rewrite list_sum_app. unfold list_sum. cbn [fold_right]. lia.
Qed.

Lemma NewRandomizer_ok E mr : NewRandomizer E mr = Ret {| rz_ks := NewCSPRNG E mr; rz_pos := 0 |}.
Proof. reflexivity. Qed.

Lemma chunks buffs : forall r, exists outs, rzHistory r (map CallRead buffs) = map Ret outs /\ map (@length byte) outs = map (@length byte) buffs /\
  concat outs = xorStreamFrom (rz_ks r) (rz_pos r) (concat buffs).
Proof.
  induction buffs as [|b buffs IH]; intros r.
  - exists []. repeat split.
  - cbn [map rzHistory rzDo]. destruct (rzRead r b) as [out r'] eqn:R. destruct (IH r') as (outs & E & L & C).
    exists (out :: outs). unfold rzRead in R. injection R as R1 R2. split; [|split].
    + rewrite E. reflexivity.
    + cbn [map]. rewrite L. f_equal. rewrite <- R1. apply xorStreamFrom_length.
    + cbn [concat]. rewrite C, xorStreamFrom_app, R1. rewrite <- R2. reflexivity.
Qed.

(** C78: NewRandomizer always succeeds. Seeded with the same 32 bytes, its first Read gives what every Read of a csprng.CSPRNG gives; and reading in pieces of
    any sizes gives the same bytes as reading at once. *)
Lemma C78_seed_pf : forall E mr, exists r, NewRandomizer E mr = Ret r /\
  (forall buff, fst (rzRead r buff) = Read (NewCSPRNG E mr) buff) /\
  forall buffs, exists outs, rzHistory r (map CallRead buffs) = map Ret outs /\ map (@length byte) outs = map (@length byte) buffs /\
    concat outs = Read (NewCSPRNG E mr) (concat buffs).
Proof.
  intros E mr. eexists. split; [apply NewRandomizer_ok|]. split; [reflexivity|]. intros buffs. apply chunks.
Qed.

Lemma be_num_bytes k : forall n, be_num (be_bytes k n) = (n mod 256 ^ N.of_nat k)%N.
Proof.
  induction k as [|k IH]; intros n.
  - cbn [be_bytes]. change (N.of_nat 0) with 0%N. rewrite N.pow_0_r, N.mod_1_r. reflexivity.
  - cbn [be_bytes]. rewrite be_num_app, IH. replace (N.of_nat (S k)) with (N.succ (N.of_nat k)) by lia. rewrite N.pow_succ_r by lia.
    assert (P : (256 ^ N.of_nat k <> 0)%N) by (apply N.pow_nonzero; lia). rewrite N.mod_mul_r by (assumption || lia). rewrite b2n_n2b. lia.
Qed.

Lemma be_bytes_length k : forall n, length (be_bytes k n) = k.
Proof. induction k as [|k IH]; intros n; [reflexivity|]. cbn [be_bytes]. rewrite app_length, IH. cbn. lia. Qed.

(** the 16-byte blocks of a CTR key stream with AES do not repeat *)
Lemma ctr_block key iv i : aesKeyOk key = true ->
  map (fun k => ctrStream AES key iv (16 * i + k)) (seq 0 16) = AES key (be_bytes 16 (be_num iv + N.of_nat i)).
Proof.
  intros K. apply nth_ext with (d := x00) (d' := x00); [rewrite map_length, seq_length, AES_length by exact K; reflexivity|].
  intros k Hk. rewrite map_length, seq_length in Hk. rewrite nth_map_seq by exact Hk. unfold ctrStream.
  replace ((16 * i + k) mod 16) with k by (rewrite Nat.add_comm, Nat.mul_comm, Nat.mod_add, Nat.mod_small by lia; reflexivity).
  replace ((16 * i + k) / 16) with i by (rewrite Nat.mul_comm, Nat.div_add_l, Nat.div_small by lia; lia). reflexivity.
Qed.

Lemma ctr_blocks_distinct key iv i j : aesKeyOk key = true -> (N.of_nat i < 2 ^ 128)%N -> (N.of_nat j < 2 ^ 128)%N ->
  map (fun k => ctrStream AES key iv (16 * i + k)) (seq 0 16) = map (fun k => ctrStream AES key iv (16 * j + k)) (seq 0 16) -> i = j.
Proof.
  intros K Hi Hj E. rewrite !ctr_block in E by exact K. apply AES_inj in E; [|exact K|apply be_bytes_length|apply be_bytes_length].
  apply (f_equal be_num) in E. rewrite !be_num_bytes in E. change (256 ^ N.of_nat 16)%N with (2 ^ 128)%N in E.
  revert E Hi Hj. generalize (be_num iv). intros v. assert (P : (2 ^ 128 <> 0)%N) by discriminate. revert P. generalize (2 ^ 128)%N. intros q P E Hi Hj.
  pose proof (N.div_mod (v + N.of_nat i) q P) as D1. pose proof (N.div_mod (v + N.of_nat j) q P) as D2. rewrite E in D1.
  assert (Q : ((v + N.of_nat i) / q = (v + N.of_nat j) / q)%N).
  { remember ((v + N.of_nat i) / q)%N as a. remember ((v + N.of_nat j) / q)%N as b. clear Heqa Heqb E. remember ((v + N.of_nat j) mod q)%N as m. clear Heqm.
    destruct (N.lt_trichotomy a b) as [L|[L|L]]; [|exact L|].
    - exfalso. assert (q * (a + 1) <= q * b)%N by (apply N.mul_le_mono_l; lia). lia.
    - exfalso. assert (q * (b + 1) <= q * a)%N by (apply N.mul_le_mono_l; lia). lia. }
  rewrite Q in D1. lia.
Qed.

(** C78: reading blocks of 16 zeroed bytes from a new Randomizer (with AES), one after the other, never gives the same block twice, for up to 2^128
    reads; whereas a CSPRNG gives the same block every time. *)
Lemma C78_blocks_pf : forall mr r n, NewRandomizer AES mr = Ret r -> (N.of_nat n <= 2 ^ 128)%N ->
  NoDup (rzHistory r (map CallRead (repeat (repeat x00 16) n))) /\ length (rzHistory r (map CallRead (repeat (repeat x00 16) n))) = n.
Proof.
  intros mr r n R Hn. rewrite NewRandomizer_ok in R. injection R as <-.
  assert (L : forall calls r, length (rzHistory r calls) = length calls).
  { induction calls as [|c calls IH]; intros r; [reflexivity|]. cbn [rzHistory]. destruct (rzDo r c). cbn [length]. rewrite IH. reflexivity. }
  set (calls := map CallRead (repeat (repeat x00 16) n)). set (r := {| rz_ks := NewCSPRNG AES mr; rz_pos := 0 |}).
  assert (Lc : length calls = n) by (unfold calls; rewrite map_length, repeat_length; reflexivity).
  split; [|rewrite L; exact Lc].
  assert (St : forall k, k <= n -> start r calls k = 16 * k).
  { intros k Hk. unfold start, calls. cbn [rz_pos r Nat.add]. rewrite firstn_map, map_map. clear - Hk. revert n Hk. unfold list_sum.
    assert (U : uses (CallRead (repeat x00 16)) = 16) by reflexivity. revert U. generalize (repeat x00 16). intros B U.
    induction k as [|k IH]; intros n Hk; [destruct n; reflexivity|]. destruct n as [|n]; [lia|]. cbn [repeat firstn map fold_right]. rewrite IH by lia.
    rewrite U. lia. }
  assert (Ev : forall k, k < n -> nth_error (rzHistory r calls) k = Some (Ret (map (fun i => ctrStream AES (firstn 16 (take_stream mr 32)) (skipn 16 (take_stream mr 32)) (16 * k + i)) (seq 0 16)))).
  { intros k Hk. assert (C : nth_error calls k = Some (CallRead (repeat x00 16))).
    { unfold calls. rewrite nth_error_map. rewrite (nth_error_nth' _ (repeat x00 16)) by (rewrite repeat_length; exact Hk). rewrite nth_repeat. reflexivity. }
    rewrite (rzHistory_nth calls r k _ C). cbn [rzDo]. unfold rzRead. cbn [fst rz_ks rz_pos]. rewrite (St k) by lia. do 2 f_equal.
    apply nth_ext with (d := x00) (d' := x00); [rewrite xorStreamFrom_length, map_length, seq_length, repeat_length; reflexivity|].
    intros i Hi. rewrite xorStreamFrom_length, repeat_length in Hi. rewrite nth_xorStreamFrom by (rewrite repeat_length; exact Hi).
    rewrite nth_map_seq by exact Hi. rewrite nth_repeat, <- gadd_bxor, gadd_0_l. reflexivity. }
  apply NoDup_nth_error. intros i j Hi E. rewrite L, Lc in Hi. rewrite (Ev i Hi) in E.
  destruct (Nat.lt_ge_cases j n) as [Hj|Hj].
  - rewrite (Ev j Hj) in E. apply (f_equal (fun o => match o with Some (Ret l) => l | _ => [] end)) in E. cbv beta iota in E.
    refine (ctr_blocks_distinct _ _ i j _ _ _ E); [reflexivity|lia|lia].
  - rewrite (proj2 (nth_error_None _ _)) in E by (rewrite L; lia). discriminate.
Qed.

(*COPY
(** a history: two reads, a permutation, a read *)
Example C78_run : match NewRandomizer (fun k b => b) (fun i => i2b (7 * i)) with
  | Ret r => rzHistory r [CallRead [x00; x00]; CallRead [xff]; CallPerm x03; CallRead [x00]] = [Ret [x70; x77]; Ret [x81]; Ret [x00; x00; x01]; Ret [x9a]]
  | _ => False end.
Proof. vm_compute. reflexivity. Qed.
(** three blocks of AES key stream, then what a CSPRNG gives twice *)
Example C78_run_aes : match NewRandomizer AES (fun i => i2b (7 * i)) with
  | Ret r => exists a b c, rzHistory r (map CallRead (repeat (repeat x00 16) 3)) = [Ret a; Ret b; Ret c] /\ a <> b /\ b <> c /\
      Read (NewCSPRNG AES (fun i => i2b (7 * i))) (repeat x00 16) = a
  | _ => False end.
Proof. vm_compute. eexists _, _, _. repeat split; discriminate. Qed.
END*)
