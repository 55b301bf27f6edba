(** Facts about the split functions of package krawczyk on memory. *)
From Coq Require Import List NArith ZArith Lia Arith Bool Permutation.
From Coq.Init Require Import Byte.
From Verif Require Import GoSem Bytes Spec Galois GF Vector Csprng Pool Polynomial Shamir GoFacts VectorFacts PolynomialFacts SplitFacts CombineFacts CsprngFacts RandomizerFacts Libs Krawczyk KrawczykFacts
  Memory MemCalls SpecMemCalls MemFacts MemSplit MemTop KrSplitMem.
Import ListNotations.

Definition none : nat -> Prop := fun _ => False.

Lemma keeps_trans m m1 m2 : keeps m m1 -> keeps m1 m2 -> keeps m m2.
Proof.
  intros (A & B & C) (A1 & B1 & C1). split; [exact A1|]. split; [lia|]. intros a L N. destruct (C a L N) as [D1 D2].
  destruct (C1 a ltac:(lia) D2) as [E1 E2]. split; [congruence|exact E2].
Qed.
Lemma fresh_keeps m m1 m2 s : keeps m m1 -> keeps m1 m2 -> fresh m m1 s -> fresh m m2 s /\ mcontents m2 s = mcontents m1 s.
Proof. intros K K1 [U L]. destruct (keeps_usable _ _ _ K1 U) as [U2 C]. split; [split; assumption|exact C]. Qed.
Lemma fresh_later m m1 m2 s : length (m_heap m) <= length (m_heap m1) -> fresh m1 m2 s -> fresh m m2 s.
Proof. intros L [U A]. split; [exact U|lia]. Qed.
Lemma mem_ok_alloc m h : mem_ok m -> step none (m_heap m) h -> mem_ok (setHeap m h).
Proof. intros MO S. exact (mem_ok_step m h none S MO). Qed.

(** ** new arrays and appends to full slices *)
Lemma mnew_ok data m : mem_ok m ->
  exists h s, mnew data m = (setHeap m h, Ret s) /\ step none (m_heap m) h /\ usable (setHeap m h) s /\ contents h s = data /\
    sl_len s = length data /\ sl_cap s = length data /\ length (m_heap m) <= sl_arr s.
Proof.
  intros MO. unfold mnew, alloc. eexists. eexists. split; [reflexivity|]. split; [apply step_alloc|].
  split; [apply usable_new; [exact MO|lia|lia]|]. split; [apply contents_alloc|]. cbn [sl_len sl_cap sl_arr]. repeat split; lia.
Qed.
Lemma mappend_ok extra s data m : mem_ok m -> usable m s -> sl_cap s = sl_len s -> data <> [] ->
  exists h s', mappend extra s data m = (setHeap m h, Ret s') /\ step none (m_heap m) h /\ usable (setHeap m h) s' /\ contents h s' = mcontents m s ++ data /\
    sl_len s' = sl_len s + length data /\ length (m_heap m) <= sl_arr s'.
Proof.
  intros MO U C D. unfold mappend. assert (0 < length data) by (destruct data; [congruence|cbn [length]; lia]).
  destruct (Nat.leb_spec (sl_len s + length data) (sl_cap s)); [lia|]. unfold alloc. eexists. eexists. split; [reflexivity|]. split; [apply step_alloc|].
  pose proof (usable_length m s U) as LU. assert (LA : length (mcontents m s ++ data ++ zeros extra) = sl_len s + length data + extra).
  { rewrite !app_length, zeros_length, LU. lia. }
  cbn [sl_arr sl_cap]. split; [apply usable_new; [exact MO|lia|lia]|]. split; [|cbn [sl_len sl_arr]; split; [reflexivity|lia]].
  unfold contents. cbn [sl_arr sl_off sl_len skipn]. rewrite app_nth2, Nat.sub_diag by lia. cbn [nth]. rewrite app_assoc, firstn_app.
  assert (L2 : length (mcontents m s ++ data) = sl_len s + length data) by (rewrite app_length, LU; reflexivity).
  rewrite L2, Nat.sub_diag, firstn_O, app_nil_r. apply firstn_all2. lia.
Qed.

Lemma mnews_ok shards : forall out m, mem_ok m ->
  exists h ws, mforeach shards (fun s out => mdo w <- mnew s; mret (out ++ [w])) out m = (setHeap m h, Ret (out ++ ws)) /\ step none (m_heap m) h /\
    Forall (usable (setHeap m h)) ws /\ map (contents h) ws = shards /\ (forall w, In w ws -> sl_cap w = sl_len w).
Proof.
  induction shards as [|d shards IH]; intros out m MO.
  - exists (m_heap m), []. rewrite setHeap_same, app_nil_r. split; [reflexivity|]. split; [apply step_refl|]. split; [constructor|]. split; [reflexivity|]. intros w [].
  - destruct (mnew_ok d m MO) as (h1 & s & F1 & S1 & U1 & C1 & L1 & L2 & A1).
    set (F := fun s out => mdo w <- mnew s; mret (out ++ [w])) in *.
    assert (FF : F d out m = (setHeap m h1, Ret (out ++ [s]))) by (unfold F; rewrite (mbind_ret _ _ _ _ _ F1); reflexivity).
    change (mforeach (d :: shards) F out m) with (mbind (F d out) (mforeach shards F) m). rewrite (mbind_ret _ _ _ _ _ FF).
    pose proof (mem_ok_alloc m h1 MO S1) as MO1. destruct (IH (out ++ [s]) (setHeap m h1) MO1) as (h2 & ws & F2 & S2 & U2 & C2 & L3).
    rewrite F2. cbn [setHeap m_heap] in S2. rewrite setHeap_setHeap in *. destruct (keeps_usable (setHeap m h1) (setHeap m h2) s) as [U3 C3].
    { exact (keeps_alloc (setHeap m h1) h2 MO1 S2). } { exact U1. }
    exists h2, (s :: ws). split; [rewrite <- app_assoc; reflexivity|]. split; [eapply step_trans; [exact S1|exact S2|tauto]|].
    split; [constructor; assumption|]. split; [cbn [map]; f_equal; [|exact C2]; unfold mcontents in C3; cbn [setHeap m_heap] in C3; rewrite C3; exact C1|].
    intros w [<-|W]; [lia|apply L3, W].
Qed.

Lemma mappends_ok extra enc m : mem_ok m -> Forall (usable m) enc -> (forall w, In w enc -> sl_cap w = sl_len w) -> forall n a out h0,
  a + n <= length enc -> step none (m_heap m) h0 ->
  exists h ws, mforeach (seq a n) (fun i out => mdo s <- mlift (idx enc i); mdo s' <- mappend extra s [i2b i]; mret (out ++ [s'])) out (setHeap m h0) = (setHeap m h, Ret (out ++ ws)) /\
    step none (m_heap m) h /\ step none h0 h /\ Forall (usable (setHeap m h)) ws /\
    map (contents h) ws = map (fun i => nth i (map (mcontents m) enc) [] ++ [i2b i]) (seq a n).
Proof.
  intros MO UE CE. induction n as [|n IH]; intros a out h0 L S0.
  - exists h0, []. rewrite app_nil_r. split; [reflexivity|]. split; [exact S0|]. split; [apply step_refl|]. split; [constructor|reflexivity].
  - set (F := fun i out => mdo s <- mlift (idx enc i); mdo s' <- mappend extra s [i2b i]; mret (out ++ [s'])) in *.
    change (mforeach (seq a (S n)) F out (setHeap m h0)) with (mbind (F a out) (mforeach (seq (S a) n) F) (setHeap m h0)).
    set (s := nth a enc nilSlice). assert (Hs : In s enc) by (apply nth_In; lia).
    pose proof (mem_ok_alloc m h0 MO S0) as MO0. rewrite Forall_forall in UE.
    destruct (keeps_usable m (setHeap m h0) s (keeps_alloc m h0 MO S0) (UE s Hs)) as [Us Cs].
    destruct (mappend_ok extra s [i2b a] (setHeap m h0) MO0 Us (CE s Hs) ltac:(discriminate)) as (h1 & s' & F1 & S1 & U1 & C1 & L1 & A1).
    assert (FF : F a out (setHeap m h0) = (setHeap (setHeap m h0) h1, Ret (out ++ [s']))).
    { unfold F. unfold mlift. rewrite (idx_ok enc a nilSlice) by lia. fold s. erewrite mbind_ret by reflexivity. rewrite (mbind_ret _ _ _ _ _ F1). reflexivity. }
    rewrite (mbind_ret _ _ _ _ _ FF).
    rewrite setHeap_setHeap in *. cbn [setHeap m_heap] in S1.
    assert (S01 : step none (m_heap m) h1) by (eapply step_trans; [exact S0|exact S1|tauto]).
    destruct (IH (S a) (out ++ [s']) h1 ltac:(lia) S01) as (h2 & ws & F2 & S2 & S12 & U2 & C2).
    rewrite F2. destruct (keeps_usable (setHeap m h1) (setHeap m h2) s') as [U3 C3].
    { exact (keeps_alloc (setHeap m h1) h2 (mem_ok_alloc m h1 MO S01) S12). } { exact U1. }
    exists h2, (s' :: ws). split; [rewrite <- app_assoc; reflexivity|]. split; [exact S2|]. split; [eapply step_trans; [exact S1|exact S12|tauto]|].
    split; [constructor; assumption|]. cbn [seq map]. rewrite C2. f_equal. unfold mcontents in C3. cbn [setHeap m_heap] in C3. rewrite C3, C1, Cs.
    f_equal. symmetry. apply (nth_map' (mcontents m) enc a [] nilSlice). lia.
Qed.

(** ** the rows of a matrix *)
Definition mrow (o c i : nat) : gslice := {| sl_arr := o; sl_off := c * i; sl_len := c; sl_cap := c |}.

Lemma mNewByteMatrix_ok r c m :
  mNewByteMatrix r c m = (setHeap m (m_heap m ++ [zeros (r * c)]), Ret (map (mrow (length (m_heap m)) c) (seq 0 r))).
Proof.
  unfold mNewByteMatrix. set (o := length (m_heap m)).
  assert (F0 : mmake (r * c) m = (setHeap m (m_heap m ++ [zeros (r * c)]), Ret {| sl_arr := o; sl_off := 0; sl_len := r * c; sl_cap := r * c |})).
  { unfold mmake, alloc. rewrite zeros_length. reflexivity. }
  rewrite (mbind_ret _ _ _ _ _ F0). clear F0. set (a := {| sl_arr := o; sl_off := 0; sl_len := r * c; sl_cap := r * c |}).
  set (m1 := setHeap m (m_heap m ++ [zeros (r * c)])).
  assert (H : forall k b, b + k <= r -> mforeach (seq b k) (fun (_ : nat) '(lo, hi, out) => mdo w <- mlift (reslice3 a lo hi hi); mret (hi, hi + c, out ++ [w]))
    (c * b, c * b + c, map (mrow o c) (seq 0 b)) m1 = (m1, Ret (c * (b + k), c * (b + k) + c, map (mrow o c) (seq 0 (b + k))))).
  { induction k as [|k IH]; intros b L; [rewrite Nat.add_0_r; reflexivity|]. cbn [seq mforeach].
    assert (RS : reslice3 a (c * b) (c * b + c) (c * b + c) = Ret (mrow o c b)).
    { unfold reslice3. cbn [a sl_cap sl_arr sl_off]. assert (c * b + c <= r * c) by nia. remember (c * b) as cb. rewrite (proj2 (Nat.leb_le cb (cb + c))) by lia.
      rewrite (proj2 (Nat.leb_le (cb + c) (cb + c))) by lia. rewrite (proj2 (Nat.leb_le (cb + c) (r * c))) by lia. cbn [andb]. unfold mrow. rewrite <- Heqcb.
      f_equal. f_equal; lia. }
    unfold mbind at 1. unfold mbind at 1. unfold mlift. rewrite RS. unfold mret at 1.
    specialize (IH (S b) ltac:(lia)). replace (b + S k) with (S b + k) by lia. rewrite <- IH. f_equal. f_equal; [f_equal; lia|].
    rewrite seq_S, map_app. reflexivity. }
  specialize (H r 0 ltac:(lia)). rewrite Nat.mul_0_r in H. cbn [Nat.add seq map] in H.
  rewrite (mbind_ret _ _ _ _ _ H). reflexivity.
Qed.

Lemma mrow_separate o c n : separate (map (mrow o c) (seq 0 n)).
Proof.
  intros i j Hi Hj. rewrite map_length, seq_length in Hj. rewrite !nth_map_seq by lia. cbn [mrow sl_arr sl_off sl_len]. intros _. nia.
Qed.

Lemma mcopy_same dst src m : inb (m_heap m) dst -> length (mcontents m src) = sl_len dst ->
  mcopy dst src m = (setHeap m (hwrite (m_heap m) (sl_arr dst) (sl_off dst) (mcontents m src)), Ret tt).
Proof. intros I L. unfold mcopy. rewrite gocopy_same by (rewrite L; unfold mcontents; rewrite contents_length by exact I; reflexivity). apply mwrite_ok. Qed.

Lemma foreach_const n : forall a (t : unit), foreach (seq a n) (fun _ t => Ret t) t = Ret t.
Proof. induction n as [|k IH]; intros a t; [reflexivity|]. cbn [seq foreach bind]. apply IH. Qed.

Lemma mKrAssemble_ok n ms enc lm le m : mem_ok m -> 0 < n -> length ms = n -> length enc = n -> Forall (usable m) ms -> Forall (usable m) enc ->
  (forall i, i < n -> length (nth i (map (mcontents m) ms) []) = lm) -> (forall i, i < n -> length (nth i (map (mcontents m) enc) []) = le) ->
  call_ok m (mKrAssemble n ms enc m) (krAssemble n (map (mcontents m) ms) (map (mcontents m) enc)).
Proof.
  intros MO Hn Lms Lenc Ums Uenc Hms Henc.
  rewrite (krAssemble_ok n _ _ lm le) by (rewrite ?map_length; assumption).
  assert (NM : forall i, i < n -> nth i (map (mcontents m) ms) [] = mcontents m (nth i ms nilSlice)) by (intros i Hi; apply (nth_map' (mcontents m)); lia).
  assert (NE : forall i, i < n -> nth i (map (mcontents m) enc) [] = mcontents m (nth i enc nilSlice)) by (intros i Hi; apply (nth_map' (mcontents m)); lia).
  rewrite Forall_forall in Ums, Uenc.
  assert (UM : forall i, i < n -> usable m (nth i ms nilSlice)) by (intros i Hi; apply Ums, nth_In; lia).
  assert (UE : forall i, i < n -> usable m (nth i enc nilSlice)) by (intros i Hi; apply Uenc, nth_In; lia).
  assert (LM : forall i, i < n -> sl_len (nth i ms nilSlice) = lm) by (intros i Hi; rewrite <- (usable_length m) by (apply UM, Hi); rewrite <- NM by exact Hi; apply Hms, Hi).
  assert (LE : forall i, i < n -> sl_len (nth i enc nilSlice) = le) by (intros i Hi; rewrite <- (usable_length m) by (apply UE, Hi); rewrite <- NE by exact Hi; apply Henc, Hi).
  unfold mKrAssemble. unfold mlift. rewrite (idx_ok enc 0 nilSlice) by lia. rewrite (idx_ok ms 0 nilSlice) by lia.
  do 2 (erewrite mbind_ret by reflexivity). rewrite LM, LE by exact Hn. set (c := le + lm). set (o := length (m_heap m)).
  rewrite (mbind_ret _ _ _ _ _ (mNewByteMatrix_ok n c m)). fold o.
  set (rows := map (mrow o c) (seq 0 n)).
  set (val := fun i => mcontents m (nth i ms nilSlice) ++ mcontents m (nth i enc nilSlice)).
  set (R := fun (k : nat) (_ : unit) (_ : unit) (m' : memory) => exists h, m' = setHeap m h /\ step none (m_heap m) h /\ o < length h /\ length (nth o h []) = n * c /\
    forall i, i < k -> contents h (mrow o c i) = val i).
  assert (Inb : forall h i, i < n -> o < length h -> length (nth o h []) = n * c -> inb h (mrow o c i)).
  { intros h i Hi Lo La. split; cbn [mrow sl_arr sl_off sl_len]; [exact Lo|]. rewrite La. nia. }
  match goal with |- context [mforeach (seq 0 n) ?f tt] => edestruct (mforeach_seq (T := unit) R f (fun _ t => Ret t) n 0) as (m4 & [] & F4 & R4) end.
  2: { exists (m_heap m ++ [zeros (n * c)]). split; [reflexivity|]. split; [apply step_alloc|]. split; [rewrite app_length; cbn [length]; unfold o; lia|].
       split; [unfold o; rewrite app_nth2, Nat.sub_diag by lia; apply zeros_length|]. intros i Hi. lia. }
  2: { exact (foreach_const n 0 tt). }
  { intros i [] [] m1 [] Hi (h & -> & S & Lo & La & V) _. cbv beta. cbn [Nat.add] in Hi.
    assert (Er : idx rows i = Ret (mrow o c i)).
    { rewrite (idx_ok rows i nilSlice) by (unfold rows; rewrite map_length, seq_length; lia). unfold rows. rewrite nth_map_seq by lia. reflexivity. }
    rewrite Er, (idx_ok ms i nilSlice), (idx_ok enc i nilSlice) by lia.
    erewrite mbind_ret by reflexivity.
    rewrite (mbind_ret _ _ _ _ _ (mslice_ok (mrow o c i) 0 lm _ ltac:(lia) ltac:(cbn [mrow sl_cap]; unfold c; lia))).
    erewrite mbind_ret by reflexivity.
    pose proof (Inb h i ltac:(lia) Lo La) as Ir.
    destruct (keeps_usable m (setHeap m h) (nth i ms nilSlice) (keeps_alloc m h MO S) (UM i ltac:(lia))) as [_ CM].
    assert (I1 : inb h (window (mrow o c i) 0 lm)) by (apply inb_window; [exact Ir|lia|cbn [mrow sl_len]; unfold c; lia]).
    assert (LMc : length (mcontents m (nth i ms nilSlice)) = lm) by (rewrite (usable_length m) by (apply UM; lia); apply LM; lia).
    assert (LEc : length (mcontents m (nth i enc nilSlice)) = le) by (rewrite (usable_length m) by (apply UE; lia); apply LE; lia).
    rewrite (mbind_ret _ _ _ _ _ (mcopy_same (window (mrow o c i) 0 lm) (nth i ms nilSlice) (setHeap m h) I1 ltac:(rewrite CM; cbn [window sl_len]; lia))).
    rewrite CM. rewrite setHeap_setHeap. cbn [setHeap m_heap window sl_arr sl_off mrow].
    set (h1 := hwrite h o (c * i + 0) (mcontents m (nth i ms nilSlice))).
    assert (Cc : c * i + c <= n * c) by nia.
    assert (S1 : step (eq o) h h1) by (apply step_hwrite; [exact Lo|rewrite La, LMc; unfold c in *; lia]).
    assert (S01 : step none (m_heap m) h1) by (eapply step_trans; [exact S|exact S1|]; intros a La' Q; exfalso; unfold o in Q; lia).
    assert (Lo1 : o < length h1) by (destruct S1; lia).
    assert (La1 : length (nth o h1 []) = n * c) by (rewrite (proj1 (proj2 S1)) by exact Lo; exact La).
    rewrite (mbind_ret _ _ _ _ _ (mslice_ok (mrow o c i) lm (sl_len (mrow o c i)) (setHeap m h1) ltac:(cbn [sl_len mrow]; unfold c; lia) ltac:(cbn [mrow sl_cap sl_len]; lia))).

    erewrite mbind_ret by reflexivity. cbn [sl_len mrow].
    destruct (keeps_usable m (setHeap m h1) (nth i enc nilSlice) (keeps_alloc m h1 MO S01) (UE i ltac:(lia))) as [_ CE].
    pose proof (Inb h1 i ltac:(lia) Lo1 La1) as Ir1.
    assert (I2 : inb h1 (window (mrow o c i) lm c)) by (apply inb_window; [exact Ir1|unfold c; lia|cbn [mrow sl_len]; lia]).
    rewrite (mcopy_same (window (mrow o c i) lm c) (nth i enc nilSlice) (setHeap m h1) I2 ltac:(rewrite CE; cbn [window sl_len]; unfold c; lia)).
    rewrite CE, setHeap_setHeap. cbn [setHeap m_heap window sl_arr sl_off mrow].
    eexists. exists tt. split; [reflexivity|]. exists (hwrite h1 o (c * i + lm) (mcontents m (nth i enc nilSlice))). split; [reflexivity|].
    assert (S2 : step (eq o) h1 (hwrite h1 o (c * i + lm) (mcontents m (nth i enc nilSlice)))) by (apply step_hwrite; [exact Lo1|rewrite La1, LEc; unfold c in *; lia]).
    split; [eapply step_trans; [exact S01|exact S2|]; intros a La' Q; exfalso; unfold o in Q; lia|].
    split; [destruct S2; lia|]. split; [rewrite (proj1 (proj2 S2)) by exact Lo1; exact La1|].
    intros j Hj.
    assert (W1 : contents h1 (mrow o c i) = splice (contents h (mrow o c i)) 0 (mcontents m (nth i ms nilSlice))).
    { unfold h1. exact (contents_hwrite h (mrow o c i) 0 (mcontents m (nth i ms nilSlice)) Ir ltac:(cbn [mrow sl_len]; unfold c; lia)). }
    assert (W2 : contents (hwrite h1 o (c * i + lm) (mcontents m (nth i enc nilSlice))) (mrow o c i) = splice (contents h1 (mrow o c i)) lm (mcontents m (nth i enc nilSlice))).
    { exact (contents_hwrite h1 (mrow o c i) lm (mcontents m (nth i enc nilSlice)) Ir1 ltac:(cbn [mrow sl_len]; unfold c; lia)). }
    destruct (Nat.eq_dec j i) as [->|Hne].
    - rewrite W2, W1. unfold val. pose proof (contents_length _ _ Ir) as Lr. cbn [mrow sl_len] in Lr.
      unfold splice. cbn [firstn app Nat.add]. rewrite LMc, LEc.
      rewrite firstn_app, LMc, Nat.sub_diag, firstn_O, app_nil_r, firstn_all2 by lia.
      rewrite skipn_all2 by (rewrite app_length, skipn_length; unfold mrow in *; rewrite Lr; unfold c; lia). rewrite app_nil_r. reflexivity.
    - assert (Hj' : j < i) by lia. rewrite <- (V j Hj').
      assert (c * j + c <= c * i) by nia.
      apply (list_eq_nth x00).
      + assert (Ij : inb h (mrow o c j)) by (apply Inb; [lia|assumption|assumption]).
        rewrite !contents_length; [reflexivity|exact Ij|]. eapply step_inb; [exact S2|]. eapply step_inb; [exact S1|exact Ij].
      + intros k Hk. rewrite contents_length in Hk by (eapply step_inb; [exact S2|]; eapply step_inb; [exact S1|apply Inb; [lia|assumption|assumption]]).
        rewrite !nth_contents by exact Hk. cbn [mrow sl_arr sl_off sl_len] in *. rewrite nth_hwrite by exact Lo1. rewrite Nat.eqb_refl.
        rewrite nth_splice by (rewrite La1, LEc; unfold c in *; lia).
        destruct (Nat.leb_spec (c * i + lm) (c * j + k)); [lia|]. cbn [andb].
        unfold h1. rewrite nth_hwrite by exact Lo. rewrite Nat.eqb_refl. rewrite nth_splice by (rewrite La, LMc; unfold c in *; lia).
        destruct (Nat.leb_spec (c * i + 0) (c * j + k)); [lia|]. reflexivity. }
  rewrite (mbind_ret _ _ _ _ _ F4). destruct R4 as (h & -> & S & Lo & La & V). unfold mret.
  split; cbn [fst snd]; [apply keeps_alloc; assumption|]. split; [|split].
  - f_equal. unfold rows. rewrite map_map. apply map_ext_in. intros i Hi. apply in_seq in Hi. rewrite NM, NE by lia. unfold mcontents at 3. cbn [setHeap m_heap]. rewrite V by lia. reflexivity.
  - apply Forall_forall. intros s J. unfold rows in J. apply in_map_iff in J as (i & <- & J). apply in_seq in J.
    split; [|cbn [mrow sl_arr]; unfold o; lia]. split; cbn [mrow sl_len sl_cap sl_arr sl_off]; [lia|]. intros _. cbn [setHeap m_heap]. split; [exact Lo|].
    split; [rewrite La; nia|]. intros Q. apply (inv_lt [] m) in Q; [unfold o in Q; lia|exact MO].
  - apply mrow_separate.
Qed.

(** ** the split functions *)
Lemma step_none_trans h h1 h2 : step none h h1 -> step none h1 h2 -> step none h h2.
Proof. intros A B. eapply step_trans; [exact A|exact B|tauto]. Qed.

Lemma call_ok_later m h r v : mem_ok m -> step none (m_heap m) h -> call_ok (setHeap m h) r v -> call_ok m r v.
Proof.
  intros MO S (K & R). pose proof (keeps_alloc m h MO S) as K0. split; [eapply keeps_trans; eassumption|].
  destruct (snd r) as [sl|e|p| |]; try exact R. destruct R as (R1 & R2 & R3). split; [exact R1|]. split; [|exact R3].
  eapply Forall_impl; [|exact R2]. intros s F. eapply fresh_later; [|exact F]. cbn [setHeap m_heap]. apply S.
Qed.

Lemma mKey_ok key m : mem_ok m -> length key = 16 ->
  exists h0 h k, mmake LenKey m = (setHeap m h0, Ret k) /\ mwrite k key (setHeap m h0) = (setHeap m h, Ret tt) /\ step none (m_heap m) h /\ usable (setHeap m h) k /\ contents h k = key /\
    sl_len k = 16 /\ sl_cap k = 16.
Proof.
  intros MO L. set (o := length (m_heap m)). set (k := {| sl_arr := o; sl_off := 0; sl_len := 16; sl_cap := 16 |}).
  assert (F0 : mmake LenKey m = (setHeap m (m_heap m ++ [zeros 16]), Ret k)) by reflexivity.
  assert (E0 : nth o (m_heap m ++ [zeros 16]) [] = zeros 16) by (unfold o; rewrite app_nth2, Nat.sub_diag by lia; reflexivity).
  assert (Lo : o < length (m_heap m ++ [zeros 16])) by (rewrite app_length; cbn [length]; unfold o; lia).
  assert (S1 : step (eq o) (m_heap m ++ [zeros 16]) (hwrite (m_heap m ++ [zeros 16]) o 0 key)) by (apply step_hwrite; [exact Lo|rewrite E0, L, zeros_length; lia]).
  assert (S0 : step none (m_heap m) (hwrite (m_heap m ++ [zeros 16]) o 0 key)).
  { eapply step_trans; [apply step_alloc|exact S1|]. intros a La Q. exfalso. unfold o in Q. lia. }
  exists (m_heap m ++ [zeros 16]), (hwrite (m_heap m ++ [zeros 16]) o 0 key), k. split; [exact F0|]. split; [rewrite mwrite_ok, setHeap_setHeap; reflexivity|]. split; [exact S0|].
  assert (L16 : length (nth o (hwrite (m_heap m ++ [zeros 16]) o 0 key) []) = 16) by (rewrite (proj1 (proj2 S1)) by exact Lo; rewrite E0; apply zeros_length).
  split.
  { apply (fresh_alloc m _ 16 S0); [destruct S1 as [S1 _]; fold o; lia|exact L16|exact MO]. }
  split; [|split; reflexivity].
  assert (I : inb (m_heap m ++ [zeros 16]) k) by (split; cbn [k sl_arr sl_off sl_len]; [exact Lo|rewrite E0, zeros_length; lia]).
  pose proof (contents_hwrite (m_heap m ++ [zeros 16]) k 0 key I ltac:(cbn [k sl_len]; lia)) as C. cbn [k sl_arr sl_off Nat.add] in C. etransitivity; [exact C|].
  apply splice_all. rewrite L. apply (contents_length _ k I).
Qed.

Lemma rsNew_range zp d p : rsNew zp d p = None -> (0 < d /\ 0 <= p /\ d + p <= 256)%Z.
Proof.
  unfold rsNew. destruct (Z.leb_spec d 0); [discriminate|]. destruct (Z.ltb_spec p 0); [discriminate|]. cbn [orb].
  destruct ((p =? 0)%Z && negb zp); [discriminate|]. destruct (Z.ltb_spec 256 (d + p)); [discriminate|]. lia.
Qed.

Section KrSplit.
Context (E : blockCipher) (zp : bool) (extra : nat) (keyBytes : list byte) (m : memory) (secret : gslice) (parts threshold : Z).
Context (mshare : gslice -> Z -> Z -> M (list gslice)) (vshare : list byte -> Z -> Z -> outcome (list (list byte))).
Hypothesis (MO : mem_ok m) (U : usable m secret) (HK : length keyBytes = 16).
Hypothesis HS : forall h k, step none (m_heap m) h -> usable (setHeap m h) k ->
  call_ok (setHeap m h) (mshare k parts threshold (setHeap m h)) (vshare (contents h k) parts threshold).
Hypothesis HV : forall l ss, (0 < threshold)%Z -> length l = 20 -> vshare l parts threshold = Ret ss ->
  length ss = Z.to_nat parts /\ forall s, In s ss -> length s = 21.

Lemma mKrSplitWith_call :
  call_ok m (mKrSplitWith E zp extra keyBytes mshare secret parts threshold m) (krSplitWith E zp keyBytes vshare (mcontents m secret) parts threshold).
Proof.
  unfold mKrSplitWith, krSplitWith. rewrite (usable_length m secret U).
  destruct (krCheck (sl_len secret) parts threshold) as [e|] eqn:CK.
  { unfold mlift. split; cbn [fst snd]; [apply keeps_refl, MO|reflexivity]. }
  rewrite encrypt_ok by (apply aes16; exact HK). cbn [bind]. fold (krCipher E keyBytes (mcontents m secret)). set (c := krCipher E keyBytes (mcontents m secret)).
  assert (LC : length c = sl_len secret) by (unfold c; rewrite krCipher_length; apply usable_length, U).
  destruct (mKey_ok keyBytes m MO HK) as (h0 & h1 & key & F0 & F1 & S1 & U1 & C1 & L1 & P1).
  rewrite (mbind_ret _ _ _ _ _ F0), (mbind_ret _ _ _ _ _ F1). clear F0 F1.
  pose proof (mem_ok_alloc m h1 MO S1) as MO1.
  destruct (keeps_usable m (setHeap m h1) secret (keeps_alloc m h1 MO S1) U) as [_ CS].
  destruct (mnew_ok c (setHeap m h1) MO1) as (h2 & es & F2 & S2 & U2 & C2 & L2 & P2 & A2). rewrite setHeap_setHeap in F2, U2. cbn [setHeap m_heap] in S2, A2.
  match goal with |- call_ok m (mbind ?f ?k (setHeap m h1)) _ => assert (F2' : f (setHeap m h1) = (setHeap m h2, Ret es)) end.
  { rewrite CS. unfold mcontents at 2. cbn [setHeap m_heap]. rewrite C1, encrypt_ok by (apply aes16; exact HK). exact F2. }
  rewrite (mbind_ret _ _ _ _ _ F2'). clear F2 F2'.
  pose proof (step_none_trans _ _ _ S1 S2) as S02. pose proof (mem_ok_alloc m h2 MO S02) as MO2.
  destruct (rsNew zp threshold (parts - threshold)) as [e|] eqn:RN.
  { unfold mlift. split; cbn [fst snd]; [apply keeps_alloc; assumption|reflexivity]. }
  apply rsNew_range in RN as (T1 & T2 & T3).
  set (d := Z.to_nat threshold). set (n := Z.to_nat parts).
  assert (Cc : mcontents (setHeap m h2) es = c) by exact C2.
  destruct (list_eq_dec byte_eq_dec c []) as [Ec|Ec].
  { unfold mbind at 1. rewrite Cc, Ec. cbn [rsSplit length Nat.eqb bind]. split; cbn [fst snd]; [apply keeps_alloc; assumption|reflexivity]. }
  assert (Pos : 0 < length c) by (destruct c; [congruence|cbn [length]; lia]).
  set (per := rsPerShard d (length c)). set (enc := map (cw d per (rsData d c)) (seq 0 n)).
  assert (RS : (do s <- rsSplit d n c; rsEncode d n s) = Ret enc).
  { rewrite rsSplit_ok by exact Ec. cbn [bind]. apply rsEncode_ok; try lia; [apply rsPerShard_pos; lia|apply rsData_length|intros i Hi; apply rsData_row_length; lia]. }
  assert (RS2 : rsSplit d n c = Ret (rsData d c ++ repeat (zeros per) (n - d))) by (apply rsSplit_ok; exact Ec).
  rewrite RS2. rewrite RS2 in RS. cbn [bind] in RS |- *. rewrite RS. cbn [bind].
  match goal with |- call_ok m (mbind ?f ?k (setHeap m h2)) _ => assert (F3 : f (setHeap m h2) = (setHeap m h2, Ret enc)) end.
  { rewrite Cc, RS2. cbn [bind]. rewrite RS. reflexivity. }
  rewrite (mbind_ret _ _ _ _ _ F3). clear F3.
  destruct (mnews_ok enc [] (setHeap m h2) MO2) as (h3 & ws & F3 & S3 & U3 & C3 & P3). rewrite setHeap_setHeap in F3, U3. cbn [setHeap m_heap app] in S3, F3.
  rewrite (mbind_ret _ _ _ _ _ F3). clear F3.
  pose proof (step_none_trans _ _ _ S02 S3) as S03. pose proof (mem_ok_alloc m h3 MO S03) as MO3.
  assert (Le : length enc = n) by (unfold enc; rewrite map_length, seq_length; reflexivity).
  assert (Lw : length ws = n) by (rewrite <- Le, <- C3, map_length; reflexivity).
  destruct (mappends_ok extra ws (setHeap m h3) MO3 U3 P3 (length ws) 0 [] h3 ltac:(lia) (step_refl _ _)) as (h4 & ws' & F4 & S4 & _ & U4 & C4).
  rewrite setHeap_setHeap in F4, U4. cbn [setHeap m_heap app] in S4, F4. change (map (mcontents (setHeap m h3)) ws) with (map (contents h3) ws) in C4. rewrite C3 in C4.
  rewrite (mbind_ret _ _ _ _ _ F4). clear F4.
  pose proof (step_none_trans _ _ _ S03 S4) as S04. pose proof (mem_ok_alloc m h4 MO S04) as MO4.
  rewrite appendIds_ok. cbn [bind]. rewrite Lw, <- Le in C4. rewrite <- C4. rewrite L2.
  set (lb := leBytes LenLen (N.of_nat (length c) mod 4294967296)).
  pose proof (step_none_trans _ _ _ S2 (step_none_trans _ _ _ S3 S4)) as S14.
  destruct (keeps_usable (setHeap m h1) (setHeap m h4) key) as [Uk Ck]; [exact (keeps_alloc (setHeap m h1) h4 MO1 S14)|exact U1|].
  destruct (mappend_ok extra key lb (setHeap m h4) MO4 Uk ltac:(lia) ltac:(unfold lb, LenLen; cbn [leBytes]; discriminate)) as (h5 & kl & F5 & S5 & U5 & C5 & L5 & A5).
  rewrite setHeap_setHeap in F5, U5. cbn [setHeap m_heap] in S5, A5. rewrite (mbind_ret _ _ _ _ _ F5). clear F5.
  pose proof (step_none_trans _ _ _ S04 S5) as S05. pose proof (mem_ok_alloc m h5 MO S05) as MO5.
  assert (Ckl : contents h5 kl = keyBytes ++ lb) by (rewrite C5, Ck; unfold mcontents; cbn [setHeap m_heap]; rewrite C1; reflexivity).
  specialize (HS h5 kl S05 U5). rewrite Ckl in HS. destruct HS as (K6 & R6).
  destruct (mshare kl parts threshold (setHeap m h5)) as [m6 r6] eqn:F6. cbn [fst snd] in K6, R6.
  assert (K06 : keeps m m6) by (eapply keeps_trans; [apply keeps_alloc; [exact MO|exact S05]|exact K6]).
  unfold mbind at 1. rewrite F6. destruct r6 as [ms|e|p| |]; try (rewrite R6; cbn [bind]; split; cbn [fst snd]; [exact K06|reflexivity]).
  destruct R6 as (R6 & Fr & Sep). rewrite R6. cbn [bind].
  assert (L20 : length (keyBytes ++ lb) = 20) by (rewrite app_length, HK; unfold lb; rewrite leBytes_length; reflexivity).
  destruct (HV _ _ T1 L20 R6) as [V1 V2]. rewrite map_length in V1.
  assert (MO6 : mem_ok m6) by apply K6.
  assert (Kw : keeps (setHeap m h4) m6) by (eapply keeps_trans; [exact (keeps_alloc (setHeap m h4) h5 MO4 S5)|]; rewrite setHeap_setHeap; exact K6).
  assert (Uw : Forall (fun w => usable m6 w /\ mcontents m6 w = contents h4 w) ws').
  { eapply Forall_impl; [|exact U4]. intros w Hw. exact (keeps_usable _ _ w Kw Hw). }
  assert (Cw : map (mcontents m6) ws' = map (contents h4) ws').
  { apply map_ext_in. rewrite Forall_forall in Uw. intros w Hw. apply Uw, Hw. }
  assert (Lw' : length ws' = n) by (pose proof (f_equal (@length _) C4) as Q; rewrite !map_length, seq_length in Q; lia).
  rewrite <- Cw.
  assert (CA : call_ok m6 (mKrAssemble n ms ws' m6) (krAssemble n (map (mcontents m6) ms) (map (mcontents m6) ws'))).
  { apply (mKrAssemble_ok n ms ws' 21 (per + 1)); try assumption; try lia.
    - eapply Forall_impl; [|exact Fr]. intros s Hs. apply Hs.
    - eapply Forall_impl; [|exact Uw]. intros s Hs. apply Hs.
    - intros i Hi. apply V2, nth_In. rewrite map_length. lia.
    - intros i Hi. rewrite Cw, C4. rewrite nth_map_seq by lia. unfold enc. rewrite nth_map_seq by lia. rewrite app_length, cw_length. reflexivity. }
  destruct CA as (K7 & R7). split; [eapply keeps_trans; eassumption|].
  destruct (snd (mKrAssemble n ms ws' m6)) as [out|e|p| |]; try exact R7. destruct R7 as (R7 & F7 & S7). split; [exact R7|]. split; [|exact S7].
  eapply Forall_impl; [|exact F7]. intros s Hs. eapply fresh_later; [|exact Hs]. apply K06.
Qed.
End KrSplit.

Lemma share_lengths polys xs n (l : list byte) ss : n <= length xs -> length polys = length l -> ss = map (share_at polys) (tagsOf n xs) ->
  length ss = n /\ forall s, In s ss -> length s = length l + 1.
Proof.
  intros L LP ->. split; [rewrite map_length; apply tagsOf_length; exact L|].
  intros s Hs. apply in_map_iff in Hs as (x & <- & _). rewrite share_at_length, LP. reflexivity.
Qed.

Lemma nextStale_step m h : mem_ok m -> step none (m_heap m) h -> nextStale (setHeap m h) = nextStale m.
Proof.
  intros MO S. unfold nextStale. cbn [setHeap m_bpool m_heap]. destruct (m_bpool m) as [|b r] eqn:B; [reflexivity|].
  destruct (Nat.eq_dec (sl_cap b) 0) as [Z|Z]; [rewrite Z; reflexivity|]. destruct MO as [F _]. unfold buffers in F. rewrite B in F. cbn [app] in F.
  destruct (Forall_inv F ltac:(lia)) as (A & _). rewrite (proj2 (proj2 S)) by (try exact A; tauto). reflexivity.
Qed.

Lemma mKrSplit_call E zp extra size ar growcap krand perm stream polB trB evBufs secret parts threshold m :
  grow_ok growcap -> length perm = 255 -> mem_ok m -> usable m secret ->
  call_ok m (mKrSplit E zp extra size ar growcap krand perm stream secret parts threshold m)
    (krSplit E zp ar growcap krand perm stream polB trB evBufs (mcontents m secret) parts threshold).
Proof.
  intros G LP MO U. unfold mKrSplit, krSplit. apply mKrSplitWith_call; [exact MO|exact U|apply take_stream_length| |].
  - intros h k S Uk. exact (mSplit_call size ar growcap perm stream polB trB evBufs k parts threshold (setHeap m h) G LP (mem_ok_alloc m h MO S) Uk).
  - intros l ss T L R. destruct (checkArgs l parts threshold) as [e|] eqn:CK.
    { unfold Split, SplitBufs in R. rewrite CK in R. discriminate. }
    pose proof CK as (T1 & PP & NE)%checkArgs_None. rewrite (Split_ok ar growcap perm stream polB trB evBufs l parts threshold G CK) in R by lia.
    change 21 with (20 + 1). rewrite <- L. eapply share_lengths; [| |injection R as R; symmetry; exact R].
    + rewrite map_length, LP. lia.
    + apply polysOf_length.
Qed.

Lemma mKrSplitWithRandomizer_call fuel E zp extra size ar growcap ks trB evBufs secret parts threshold m :
  grow_ok growcap -> mem_ok m -> usable m secret ->
  call_ok m (mKrSplitWithRandomizer fuel E zp extra size ar growcap ks secret parts threshold m)
    (krSplitWithRandomizer fuel E zp ar growcap ks (nextStale m) trB evBufs (mcontents m secret) parts threshold).
Proof.
  intros G MO U. unfold mKrSplitWithRandomizer, krSplitWithRandomizer. apply mKrSplitWith_call; [exact MO|exact U|rewrite Read_length; apply zeros_length| |].
  - intros h k S Uk. rewrite <- (nextStale_step m h MO S).
    exact (mSplitWithRandomizer_call size fuel ar growcap ks trB evBufs k parts threshold (setHeap m h) G (mem_ok_alloc m h MO S) Uk).
  - intros l ss T L R. destruct (SWR_inv _ _ _ _ _ _ _ _ _ _ _ G R) as (V & xs & X & ->). destruct (GetUniqueBytes_inv _ _ _ _ X) as (Lx & _).
    pose proof V as (_ & V2 & V3 & V4). rewrite b2i_z2b in Lx by lia. change 21 with (20 + 1). rewrite <- L. eapply share_lengths; [| |reflexivity].
    + lia.
    + apply polysOf_length.
Qed.
