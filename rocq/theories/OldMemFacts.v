(** Facts about SplitWithRandomizerOld on memory. *)
From Coq Require Import List NArith ZArith Lia Arith Bool Permutation.
From Coq.Init Require Import Byte.
From Verif Require Import GoSem Bytes Spec Galois GF Vector Csprng Pool Polynomial Shamir GoFacts VectorFacts PolynomialFacts SplitFacts CsprngFacts
  Memory MemCalls SpecMemCalls MemFacts MemSplit MemTop KrSplitMem KrSplitMemFacts.
Import ListNotations.

Definition crow (oc t N p : nat) : gslice := {| sl_arr := oc; sl_off := t * p; sl_len := t; sl_cap := t * N - t * p |}.

Lemma mMake_ok ks s degree m : inb (m_heap m) s -> let t := degree + 1 in let N := sl_len s in let oc := length (m_heap m) in
  exists h, mMakePolynomialsWithRandomizer ks s degree m = (setHeap m h, Ret (map (crow oc t N) (seq 0 N))) /\ step none (m_heap m) h /\
    length h = S oc /\ length (nth oc h []) = t * N /\
    map (contents h) (map (crow oc t N) (seq 0 N)) = polysOf t (mcontents m s) (take_stream ks (t * N)).
Proof.
  intros IS t N oc. unfold mMakePolynomialsWithRandomizer. cbv zeta. fold t N.
  set (co := {| sl_arr := oc; sl_off := 0; sl_len := t * N; sl_cap := t * N |}).
  assert (F0 : mmake (t * N) m = (setHeap m (m_heap m ++ [zeros (t * N)]), Ret co)) by (unfold mmake, alloc; rewrite zeros_length; reflexivity).
  rewrite (mbind_ret _ _ _ _ _ F0). clear F0.
  set (h1 := m_heap m ++ [zeros (t * N)]).
  assert (L1 : length h1 = S oc) by (unfold h1; rewrite app_length; cbn [length]; unfold oc; lia).
  assert (A1 : nth oc h1 [] = zeros (t * N)) by (unfold h1, oc; rewrite app_nth2, Nat.sub_diag by lia; reflexivity).
  set (h2 := hwrite h1 oc 0 (take_stream ks (t * N))).
  assert (LT : length (take_stream ks (t * N)) = t * N) by apply take_stream_length.
  match goal with |- context [mbind ?f ?k (setHeap m h1)] => assert (F1 : f (setHeap m h1) = (setHeap m h2, Ret tt)) end.
  { assert (C : mcontents (setHeap m h1) co = zeros (t * N)).
    { unfold mcontents, contents. cbn [setHeap m_heap co sl_arr sl_off sl_len skipn]. rewrite A1. apply firstn_all2. rewrite zeros_length. lia. }
    rewrite C, Read_zeros, mwrite_ok, setHeap_setHeap. reflexivity. }
  rewrite (mbind_ret _ _ _ _ _ F1). clear F1.
  assert (S12 : step (eq oc) h1 h2) by (apply step_hwrite; [lia|rewrite A1, zeros_length, LT; lia]).
  assert (S02 : step none (m_heap m) h2) by (eapply step_trans; [apply step_alloc|exact S12|]; intros a La Q; exfalso; unfold oc in Q; lia).
  assert (A2 : nth oc h2 [] = take_stream ks (t * N)).
  { unfold h2. rewrite nth_hwrite, Nat.eqb_refl, A1 by lia. unfold splice. cbn [firstn app Nat.add]. rewrite LT, skipn_all2, app_nil_r by (rewrite zeros_length; lia). reflexivity. }
  set (sec := mcontents m s).
  set (R := fun (k : nat) (_ : unit) (out : list gslice) (m' : memory) => exists h, m' = setHeap m h /\ out = map (crow oc t N) (seq 0 k) /\ step none (m_heap m) h /\
    length h = S oc /\ length (nth oc h []) = t * N /\
    forall p c, p < N -> c < t -> nth (t * p + c) (nth oc h []) x00 = if (c =? 0) && (p <? k) then nth p sec x00 else ks (t * p + c)).
  match goal with |- context [mforeach (seq 0 N) ?f ?s0 _] => edestruct (mforeach_seq (T := unit) R f (fun _ t => Ret t) N 0) as (m4 & out4 & F4 & R4) end.
  2: { exists h2. split; [reflexivity|]. split; [reflexivity|]. split; [exact S02|]. split; [destruct S12 as (Q & _); unfold h2; rewrite hwrite_length by lia; exact L1|].
       split; [rewrite A2; exact LT|]. intros p c Hp Hc. rewrite andb_false_r, A2. apply nth_take_stream. nia. }
  2: { exact (foreach_const N 0 tt). }
  { intros i [] out m1 [] Hi (h & -> & -> & S & Lh & La & V) _. cbv beta zeta. cbn [Nat.add] in Hi.
    assert (HN : t * i + t <= t * N) by nia.
    remember (t * i) as k eqn:K.
    rewrite (mbind_ret _ _ _ _ _ (mslice_ok co k (k + degree + 1) (setHeap m h) ltac:(lia) ltac:(cbn [co sl_cap]; unfold t in *; lia))).
    assert (I1 : inb h s) by (eapply step_inb; [exact S|exact IS]).
    assert (C1 : mcontents (setHeap m h) s = sec) by (apply (step_contents _ _ _ _ S); [apply IS|tauto]).
    assert (Ls : length sec = N) by (apply contents_length; exact IS).
    rewrite (mbind_ret _ _ _ _ _ (mload_ret s i (setHeap m h) (nth i sec x00) I1 ltac:(rewrite C1; apply idx_ok; lia))).
    rewrite (mbind_ret _ _ _ _ _ (mstore_ok (window co k (k + degree + 1)) 0 (nth i sec x00) (setHeap m h) ltac:(cbn [window sl_len]; lia))).
    unfold mret. eexists. eexists. split; [reflexivity|]. cbn [setHeap m_heap window co sl_arr sl_off]. rewrite setHeap_setHeap.
    replace (0 + k + 0) with k by lia.
    exists (hwrite h oc k [nth i sec x00]). split; [reflexivity|]. split.
    { rewrite seq_S, map_app. cbn [map Nat.add]. f_equal. f_equal. unfold window, crow. cbn [sl_arr sl_off sl_cap co]. rewrite <- K. f_equal; unfold t; lia. }
    assert (SW : step (eq oc) h (hwrite h oc k [nth i sec x00])) by (apply step_hwrite; [lia|rewrite La; cbn [length]; unfold t in *; lia]).
    split; [eapply step_trans; [exact S|exact SW|]; intros a La' Q; exfalso; unfold oc in Q; lia|].
    split; [rewrite hwrite_length by lia; exact Lh|]. split; [rewrite (proj1 (proj2 SW)) by lia; exact La|].
    intros p c Hp Hc. rewrite nth_hwrite, Nat.eqb_refl by lia. rewrite nth_splice by (rewrite La; cbn [length]; unfold t in *; lia). cbn [length].
    destruct (Nat.eq_dec p i) as [->|Ne].
    - rewrite <- K. destruct (Nat.leb_spec k (k + c)); [|lia]. cbn [andb]. destruct (Nat.ltb_spec (k + c) (k + 1)).
      + assert (c = 0) by lia. subst c. replace (k + 0 - k) with 0 by lia. cbn [nth Nat.eqb andb]. destruct (Nat.ltb_spec i (Datatypes.S i)); [reflexivity|lia].
      + destruct (Nat.eqb_spec c 0); [lia|]. cbn [andb]. rewrite K, V by lia. destruct (Nat.eqb_spec c 0); [lia|]. reflexivity.
    - assert (Q : (k <=? t * p + c) && (t * p + c <? k + 1) = false).
      { apply andb_false_iff. destruct (Nat.lt_ge_cases p i) as [L|L].
        - left. apply Nat.leb_gt. assert (t * p + t <= k) by (rewrite K; nia). lia.
        - right. apply Nat.ltb_ge. assert (k + t <= t * p) by (rewrite K; nia). lia. }
      rewrite Q, V by assumption. destruct (Nat.eqb_spec c 0); cbn [andb]; [|reflexivity].
      destruct (Nat.ltb_spec p i), (Nat.ltb_spec p (Datatypes.S i)); try reflexivity; lia. }
  destruct R4 as (h & -> & -> & S & Lh & La & V). cbn [Nat.add] in *. exists h. split; [exact F4|]. split; [exact S|]. split; [exact Lh|]. split; [exact La|].
  assert (Ls : length sec = N) by (apply contents_length; exact IS).
  rewrite map_map. unfold polysOf. fold sec. rewrite Ls. apply map_ext_in. intros p Hp. apply in_seq in Hp.
  assert (IC : inb h (crow oc t N p)) by (split; cbn [crow sl_arr sl_off sl_len]; [lia|rewrite La; nia]).
  assert (LP : length (polyOf t (take_stream ks (t * N)) sec p) = t) by (apply polyOf_length; [unfold t; lia|rewrite LT; nia]).
  apply (list_eq_nth x00); [rewrite (contents_length _ _ IC), LP; reflexivity|].
  intros c Hc. rewrite (contents_length _ _ IC) in Hc. cbn [crow sl_len] in Hc. rewrite nth_contents by exact Hc. cbn [crow sl_arr sl_off].
  rewrite V by lia. unfold polyOf. destruct (Nat.ltb_spec p N); [|lia]. rewrite andb_true_r. destruct c as [|c]; cbn [Nat.eqb nth]; [reflexivity|].
  rewrite nth_skipn, nth_row by lia. rewrite nth_take_stream by nia. f_equal.
Qed.

Lemma mTranspose_ok rows t m : 0 < length rows -> (forall r, In r rows -> inb (m_heap m) r /\ sl_len r = t) ->
  let N := length rows in let ot := length (m_heap m) in
  exists h, mTranspose rows m = (setHeap m h, Ret (map (mrow ot N) (seq 0 t))) /\ step none (m_heap m) h /\ length h = S ot /\ length (nth ot h []) = t * N /\
    forall c p, c < t -> p < N -> nth (N * c + p) (nth ot h []) x00 = nth c (nth p (map (mcontents m) rows) []) x00.
Proof.
  intros HN HR N ot. unfold mTranspose. unfold mlift. rewrite (idx_ok rows 0 nilSlice) by exact HN. erewrite mbind_ret by reflexivity.
  rewrite (proj2 (HR _ (nth_In _ nilSlice HN))). cbv zeta. fold N. unfold mNewMatrix. rewrite (mbind_ret _ _ _ _ _ (mNewByteMatrix_ok t N m)). fold ot.
  set (V := fun c p => nth c (nth p (map (mcontents m) rows) []) x00).
  assert (HV : forall c p, p < N -> V c p = nth c (mcontents m (nth p rows nilSlice)) x00).
  { intros c p Hp. unfold V. rewrite (nth_map' (mcontents m) rows p [] nilSlice) by exact Hp. reflexivity. }
  set (R := fun (i : nat) (_ _ : unit) (m' : memory) => exists h, m' = setHeap m h /\ step none (m_heap m) h /\ length h = S ot /\ length (nth ot h []) = t * N /\
    forall c p, c < i -> p < N -> nth (N * c + p) (nth ot h []) x00 = V c p).
  match goal with |- context [mforeach (seq 0 t) ?f tt] => edestruct (mforeach_seq (T := unit) R f (fun _ t => Ret t) t 0) as (m4 & [] & F4 & R4) end.
  2: { exists (m_heap m ++ [zeros (t * N)]). split; [reflexivity|]. split; [apply step_alloc|]. split; [rewrite app_length; cbn [length]; unfold ot; lia|].
       split; [unfold ot; rewrite app_nth2, Nat.sub_diag by lia; apply zeros_length|]. intros c p Hc. lia. }
  2: { exact (foreach_const t 0 tt). }
  2: { rewrite (mbind_ret _ _ _ _ _ F4). destruct R4 as (h & -> & Q). exists h. split; [reflexivity|exact Q]. }
  intros i [] [] m1 [] Hi (h0 & -> & S0 & L0 & LA0 & W0) _. cbv beta. cbn [Nat.add] in Hi.
  set (R2 := fun (j : nat) (_ _ : unit) (m' : memory) => exists h, m' = setHeap m h /\ step none (m_heap m) h /\ length h = S ot /\ length (nth ot h []) = t * N /\
    (forall c p, c < i -> p < N -> nth (N * c + p) (nth ot h []) x00 = V c p) /\ forall p, p < j -> nth (N * i + p) (nth ot h []) x00 = V i p).
  match goal with |- context [mforeach (seq 0 N) ?f tt] => edestruct (mforeach_seq (T := unit) R2 f (fun _ t => Ret t) N 0) as (m5 & [] & F5 & R5) end.
  2: { exists h0. split; [reflexivity|]. split; [exact S0|]. split; [exact L0|]. split; [exact LA0|]. split; [exact W0|]. intros p Hp. lia. }
  2: { exact (foreach_const N 0 tt). }
  2: { exists m5, tt. split; [exact F5|]. destruct R5 as (h & -> & S & L & LA & W & W2). cbn [Nat.add] in W2. exists h. split; [reflexivity|]. split; [exact S|]. split; [exact L|]. split; [exact LA|].
       intros c p Hc Hp. destruct (Nat.eq_dec c i) as [->|Ne]; [apply W2, Hp|apply W; lia]. }
  intros j [] [] m1 [] Hj (h & -> & S & L & LA & W & W2) _. cbv beta. cbn [Nat.add] in Hj.
  rewrite (idx_ok rows j nilSlice) by exact (proj2 Hj). erewrite mbind_ret by reflexivity.
  destruct (HR _ (nth_In rows nilSlice (proj2 Hj))) as [Ir Lr].
  assert (C1 : mcontents (setHeap m h) (nth j rows nilSlice) = mcontents m (nth j rows nilSlice)) by (apply (step_contents _ _ _ _ S); [apply Ir|tauto]).
  assert (Lc : length (mcontents m (nth j rows nilSlice)) = t) by (rewrite <- Lr; apply contents_length; exact Ir).
  rewrite (mbind_ret _ _ _ _ _ (mload_ret (nth j rows nilSlice) i (setHeap m h) (V i j) ltac:(eapply step_inb; [exact S|exact Ir])
    ltac:(rewrite C1, HV by lia; apply idx_ok; lia))).
  rewrite (idx_ok _ i nilSlice) by (rewrite map_length, seq_length; lia). erewrite mbind_ret by reflexivity. rewrite nth_map_seq by lia.
  rewrite mstore_ok by (cbn [mrow sl_len]; lia). eexists. exists tt. split; [reflexivity|]. cbn [setHeap m_heap mrow sl_arr sl_off]. rewrite setHeap_setHeap.
  assert (HB : N * i + N <= t * N) by nia.
  assert (SW : step (eq ot) h (hwrite h ot (N * i + j) [V i j])) by (apply step_hwrite; [lia|rewrite LA; cbn [length]; lia]).
  exists (hwrite h ot (N * i + j) [V i j]). split; [reflexivity|].
  split; [eapply step_trans; [exact S|exact SW|]; intros a La' Q; exfalso; unfold ot in Q; lia|].
  split; [rewrite hwrite_length by lia; exact L|]. split; [rewrite (proj1 (proj2 SW)) by lia; exact LA|].
  split.
  - intros c p Hc Hp. rewrite nth_hwrite, Nat.eqb_refl by lia. rewrite nth_splice by (rewrite LA; cbn [length]; lia). cbn [length].
    assert (N * c + N <= N * i) by nia. destruct (Nat.leb_spec (N * i + j) (N * c + p)); [lia|]. cbn [andb]. apply W; assumption.
  - intros p Hp. rewrite nth_hwrite, Nat.eqb_refl by lia. rewrite nth_splice by (rewrite LA; cbn [length]; lia). cbn [length].
    destruct (Nat.eq_dec p j) as [->|Ne].
    + destruct (Nat.leb_spec (N * i + j) (N * i + j)); [|lia]. destruct (Nat.ltb_spec (N * i + j) (N * i + j + 1)); [|lia]. cbn [andb]. rewrite Nat.sub_diag. reflexivity.
    + destruct (Nat.leb_spec (N * i + j) (N * i + p)); [lia|]. cbn [andb]. apply W2. lia.
Qed.

(** [cs]: the rows of the coefficients, in arrays that belong to no pool *)
Lemma mEvaluateRows_ok size ar growcap cs N x out bb m o' :
  grow_ok growcap -> mem_ok m -> 0 < N -> (forall c, In c cs -> inb (m_heap m) c /\ sl_len c = N /\ ~ pooled m (sl_arr c)) ->
  inb (m_heap m) out -> sl_len out = N + 1 -> sl_len out <= sl_cap out -> ~ pooled m (sl_arr out) ->
  evaluatePolynomialsAt ar growcap bb (map (mcontents m) cs) x (mcontents m out) = Ret o' ->
  exists m', mEvaluatePolynomialsAt size ar growcap cs x out m = (m', Ret tt) /\ mem_ok m' /\ m_bpool m' = m_bpool m /\ length o' = N + 1 /\
    nth (sl_arr out) (m_heap m') [] = splice (nth (sl_arr out) (m_heap m) []) (sl_off out) o' /\
    step (fun a => a = sl_arr out \/ In a (arraysOf (m_epool m))) (m_heap m) (m_heap m') /\
    (forall a, In a (arraysOf (m_epool m')) -> In a (arraysOf (m_epool m)) \/ length (m_heap m) <= a).
Proof.
  intros G I0 PN HC IO LO CO NO E. unfold evaluatePolynomialsAt in E. unfold mEvaluatePolynomialsAt.
  apply bind_inv in E as (c0 & E0 & E). apply (idx_inv _ _ _ []) in E0 as (H0 & E0). rewrite map_length in H0.
  assert (HN0 : In (nth 0 cs nilSlice) cs) by (apply nth_In; exact H0).
  assert (L0 : length c0 = N).
  { rewrite E0. rewrite (nth_map' (mcontents m) cs 0 [] nilSlice) by exact H0. rewrite <- (proj1 (proj2 (HC _ HN0))). apply contents_length, HC, HN0. }
  cbv zeta in E. rewrite L0, map_length in E. clear c0 E0 L0.
  apply bind_inv in E as (r0 & E0 & E). apply slice_inv in E0 as (_ & E0 & R0).
  assert (LR0 : length r0 = N) by (rewrite R0, firstn_length, skipn_length; lia). clear R0 E0.
  pose proof (contents_length _ _ IO : length (mcontents m out) = sl_len out) as LOo.
  set (degree := length cs - 1) in *.
  assert (HD : degree < length cs) by (unfold degree; lia).
  apply bind_inv in E as (top & E1 & E). apply bind_inv in E as (res & E2 & E). apply bind_inv in E as (w & E3 & E). inversion E; subst o'. clear E.
  apply (idx_inv _ _ _ []) in E1 as (_ & E1). rewrite (nth_map' (mcontents m) cs degree [] nilSlice) in E1 by exact HD.
  apply slice_inv in E3 as (_ & H3 & E3).
  set (ct := nth degree cs nilSlice) in *. assert (Hct : In ct cs) by (apply nth_In; exact HD). destruct (HC ct Hct) as (Ict & Lct & Nct).
  assert (LT : length top = N) by (rewrite E1, <- Lct; apply contents_length; exact Ict).
  rewrite gocopy_same in E2 by lia.
  unfold mlift. rewrite (idx_ok cs 0 nilSlice) by exact H0. erewrite mbind_ret by reflexivity. rewrite (proj1 (proj2 (HC _ HN0))).
  (* the buffer *)
  destruct (mgetE_ok [] m I0) as (rb0 & m1 & F1 & I1 & HH1 & BP1 & AE1 & RB1 & EP1). rewrite (mbind_ret _ _ _ _ _ F1). clear F1.
  destruct (mresetGrow_ok growcap rb0 N [] m1 G ltac:(lia) I1) as (rb & m2 & F2 & I2 & CR & BP2 & EP2 & S2 & AR & _).
  rewrite (mbind_ret _ _ _ _ _ F2). clear F2.
  rewrite (mbind_ret _ _ _ _ _ (mslice_ok rb 0 N m2 ltac:(lia) CR)).
  rewrite (idx_ok cs degree nilSlice) by exact HD. fold ct. erewrite mbind_ret by reflexivity.
  pose proof (inv_backed _ _ _ I2 ltac:(lia)) as (BA & BO & BC).
  rewrite HH1 in S2, AR.
  assert (IRB : inb (m_heap m2) (window rb 0 N)).
  { split; cbn [window sl_arr sl_off sl_len]; [exact BA|]. rewrite BO. lia. }
  assert (RBW : sl_arr rb < length (m_heap m) -> In (sl_arr rb) (arraysOf (m_epool m))).
  { intros L. destruct AR as [[AR1 AR2]|AR]; [|lia]. rewrite AR2. apply RB1, AR1. }
  assert (NRB : forall a, a < length (m_heap m) -> ~ pooled m a -> a <> sl_arr rb).
  { intros a La Na Q. apply Na. unfold pooled, buffers. rewrite arraysOf_app. apply in_or_app. right. rewrite Q in *. apply RBW, La. }
  assert (CRB : forall c, In c cs -> sl_arr c <> sl_arr rb) by (intros c Hc; destruct (HC c Hc) as ((A & _) & _ & B); apply NRB; assumption).
  assert (ORB : sl_arr out <> sl_arr rb) by (apply NRB; [apply IO|exact NO]).
  (* the copy of the top coefficients *)
  assert (CT : mcontents m2 ct = top).
  { rewrite E1. apply (step_contents _ _ _ _ S2); [apply Ict|tauto]. }
  set (h3 := hwrite (m_heap m2) (sl_arr rb) (sl_off (window rb 0 N)) top).
  assert (F3 : mcopy (window rb 0 N) ct m2 = (setHeap m2 h3, Ret tt)).
  { rewrite (mcopy_same (window rb 0 N) ct m2 IRB) by (rewrite CT; cbn [window sl_len]; lia). rewrite CT. reflexivity. }
  rewrite (mbind_ret _ _ _ _ _ F3). clear F3.
  assert (S3 : step (eq (sl_arr rb)) (m_heap m2) h3).
  { apply step_hwrite; [exact BA|]. rewrite LT. cbn [window sl_off]. lia. }
  assert (C3 : contents h3 (window rb 0 N) = top).
  { unfold h3. rewrite <- (Nat.add_0_r (sl_off (window rb 0 N))). change (sl_arr rb) with (sl_arr (window rb 0 N)).
    rewrite contents_hwrite by (try exact IRB; cbn [window sl_len]; lia). apply splice_0. rewrite contents_length by exact IRB.
    cbn [window sl_len]. lia. }
  (* Horner's rule *)
  set (R := fun (t : list byte) (s : gslice) (m' : memory) => exists h', m' = setHeap m2 h' /\ contents h' s = t /\ sl_len s = N /\ sl_len s <= sl_cap s /\ inb h' s /\
    (sl_arr s = sl_arr rb \/ length (m_heap m2) <= sl_arr s) /\ step (eq (sl_arr rb)) (m_heap m2) h').
  match goal with |- context [mforeach _ ?f _] => edestruct (mforeach_sim (X := nat) R f) as (m4 & s4 & F4 & R4); [| |exact E2|] end.
  2: { exists h3. split; [reflexivity|]. split; [exact C3|]. split; [cbn [window sl_len]; lia|]. split; [cbn [window sl_len sl_cap]; lia|].
       split; [eapply step_inb; [exact S3|exact IRB]|]. split; [left; reflexivity|exact S3]. }
  { intros i t s m' t' _ (h' & -> & D1 & D2 & D3 & D4 & D5 & D6) K.
    apply bind_inv in K as (ci & K1 & K). apply bind_inv in K as (mu & K2 & K).
    cbv beta. apply (idx_inv _ _ _ []) in K1 as (Q1 & K1). rewrite map_length in Q1. rewrite (nth_map' (mcontents m) cs i [] nilSlice) in K1 by exact Q1.
    rewrite (idx_ok cs i nilSlice) by exact Q1. erewrite mbind_ret by reflexivity. set (c := nth i cs nilSlice) in *.
    assert (Hc : In c cs) by (apply nth_In; exact Q1). destruct (HC c Hc) as (Ic & Lc & Nc).
    destruct (mMulConst_ok ar x s (setHeap m2 h') D4 D3) as (h5 & s5 & F5 & X1 & X2 & X3 & X4 & X5 & X6). cbn [setHeap m_heap] in *.
    rewrite (mbind_ret _ _ _ _ _ F5). clear F5. rewrite setHeap_setHeap.
    assert (ST : step (eq (sl_arr rb)) (m_heap m2) h5).
    { eapply step_trans; [exact D6|exact X5|]. intros a La Q. destruct D5 as [D5|D5]; [rewrite <- D5; exact Q|lia]. }
    assert (A5 : sl_arr s5 = sl_arr rb \/ length (m_heap m2) <= sl_arr s5).
    { destruct X6 as [X6|X6]; [rewrite X6; exact D5|]. right. destruct D6 as (D6 & _). lia. }
    pose proof (step_inb _ _ _ _ S2 Ic) as Ic2.
    assert (IW : inb h5 c) by (apply (step_inb _ _ _ _ ST), Ic2).
    assert (CI : mcontents (setHeap m2 h5) c = ci).
    { rewrite K1. unfold mcontents. cbn [setHeap m_heap].
      rewrite (step_contents _ _ _ _ ST); [apply (step_contents _ _ _ _ S2); [apply Ic|tauto]|apply Ic2|].
      intros Q. apply (CRB c Hc). symmetry. exact Q. }
    destruct (mAddVector_ok ar c s5 (setHeap m2 h5) IW X4 ltac:(lia)) as (h6 & F6 & Y1 & Y2).
    cbn [setHeap m_heap] in *. rewrite F6. eexists. eexists. split; [reflexivity|].
    exists h6. rewrite setHeap_setHeap. split; [reflexivity|]. split.
    - rewrite Y1, CI. rewrite MulConstVector_ok in K2. inversion K2; subst mu. rewrite AddVector_ok in K; [inversion K; subst t'|].
      + f_equal. unfold mcontents. cbn [setHeap m_heap]. rewrite X1. unfold mcontents. cbn [setHeap m_heap]. rewrite D1. reflexivity.
      + rewrite map_length, <- D1, contents_length by exact D4. rewrite K1. unfold mcontents. rewrite contents_length by exact Ic. lia.
    - split; [lia|]. split; [exact X3|]. split; [eapply step_inb; [exact Y2|exact X4]|]. split; [exact A5|].
      eapply step_trans; [exact ST|exact Y2|]. intros a La Q. destruct A5 as [A5|A5]; [rewrite <- A5; exact Q|lia]. }
  destruct R4 as (h4 & -> & D1 & D2 & D3 & D4 & D5 & D6).
  rewrite (mbind_ret _ _ _ _ _ F4). clear F4.
  (* the result *)
  rewrite (mbind_ret _ _ _ _ _ (mslice_ok out 0 N _ ltac:(lia) ltac:(lia))).
  assert (SO : step (fun a => a = sl_arr rb) (m_heap m) h4).
  { eapply step_trans; [eapply step_weaken; [exact S2|tauto]|exact D6|]. intros a _ Q. symmetry. exact Q. }
  assert (IO4 : inb h4 (window out 0 N)) by (apply inb_window; [eapply step_inb; [exact SO|exact IO]|lia|lia]).
  assert (LRES : length res = N) by (rewrite <- D1, contents_length by exact D4; exact D2).
  assert (WL : length w = N) by (rewrite E3, firstn_length, skipn_length; rewrite LOo; lia).
  assert (F7 : mcopy (window out 0 N) s4 (setHeap m2 h4) = (setHeap m2 (hwrite h4 (sl_arr out) (sl_off out + 0) res), Ret tt)).
  { unfold mcopy. unfold mcontents at 2. cbn [setHeap m_heap]. rewrite D1.
    rewrite gocopy_same by (unfold mcontents; cbn [setHeap m_heap]; rewrite contents_length by exact IO4; cbn [window sl_len]; lia).
    rewrite mwrite_ok. reflexivity. }
  rewrite (mbind_ret _ _ _ _ _ F7). clear F7.
  assert (S7 : step (eq (sl_arr out)) h4 (hwrite h4 (sl_arr out) (sl_off out + 0) res)).
  { destruct IO4 as [W1 W2]. cbn [window sl_arr sl_off sl_len] in W1, W2. apply step_hwrite; [exact W1|rewrite LRES; lia]. }
  set (h7 := hwrite h4 (sl_arr out) (sl_off out + 0) res) in *.
  assert (S27 : step (fun a => a = sl_arr rb \/ a = sl_arr out) (m_heap m2) h7).
  { eapply step_trans; [eapply step_weaken; [exact D6|]|exact S7|]; intros a _ Q; auto. }
  assert (I7 : inv [rb] (setHeap m2 h7)).
  { eapply inv_step; [exact S27|reflexivity|exact I2]. }
  destruct (mputE_ok size rb [] (setHeap m2 h7) I7) as (m8 & F8 & I8 & HH8 & BP8 & EP8).
  rewrite F8. exists m8. split; [reflexivity|]. split; [exact I8|].
  split; [rewrite BP8; cbn [setHeap m_bpool]; rewrite BP2; exact BP1|].
  rewrite gocopy_same by lia.
  split; [rewrite splice_length by (rewrite LRES, LOo; lia); lia|].
  split; [|split].
  - assert (SPL : splice (nth (sl_arr out) (m_heap m) []) (sl_off out) (splice (mcontents m out) 0 res) = splice (nth (sl_arr out) (m_heap m) []) (sl_off out + 0) res).
    { unfold mcontents, contents. replace (sl_len out) with (sl_off out + sl_len out - sl_off out) by lia. destruct IO as [_ IO2]. apply (splice_splice_inner x00); lia. }
    rewrite SPL, HH8. cbn [setHeap m_heap]. unfold h7. rewrite nth_hwrite by apply IO4. rewrite Nat.eqb_refl.
    f_equal. apply SO; [apply IO|]. exact ORB.
  - rewrite HH8. cbn [setHeap m_heap]. eapply step_trans; [eapply step_weaken; [exact S2|tauto]|exact S27|].
    intros a La [Q|Q]; [right|left; exact Q]. rewrite Q in *. apply RBW, La.
  - intros a J. apply EP8 in J. cbn [setHeap m_epool] in J. rewrite arraysOf_cons in J by lia. destruct J as [J|J].
    + subst a. destruct (Nat.lt_ge_cases (sl_arr rb) (length (m_heap m))) as [L|L]; [left; apply RBW, L|right; exact L].
    + left. apply EP1. rewrite EP2 in J. exact J.
Qed.

Definition oldLoop ar growcap (evBufs : nat -> bbuf) (M : list (list byte)) (N n : nat) (xs buff : list byte) : outcome (list byte) :=
  foreach (seq 0 n)
      (fun i buff =>
         let s := (N + 1) * i in
         do w <- slice buff s (s + N + 1);
         do x <- tagOf xs i;
         do w' <- evaluatePolynomialsAt ar growcap (evBufs i) M x w;
         Ret (splice buff s w')) buff.

Lemma mOldLoop_ok size ar growcap evBufs cs N n xs o m buff r :
  grow_ok growcap -> mem_ok m -> 0 < N -> (forall c, In c cs -> inb (m_heap m) c /\ sl_len c = N /\ ~ pooled m (sl_arr c) /\ sl_arr c <> o) ->
  o < length (m_heap m) -> nth o (m_heap m) [] = buff -> length buff = (N + 1) * n -> ~ pooled m o ->
  oldLoop ar growcap evBufs (map (mcontents m) cs) N n xs buff = Ret r ->
  exists m', mforeach (seq 0 n)
       (fun i _ =>
          mdo x <- mlift (tagOf xs i);
          mdo o <- mlift (idx (map (win o N n) (seq 0 n)) i);
          mEvaluatePolynomialsAt size ar growcap cs x o) tt m = (m', Ret tt) /\ mem_ok m' /\ m_bpool m' = m_bpool m /\
    length r = (N + 1) * n /\ nth o (m_heap m') [] = r /\
    step (fun a => a = o \/ In a (arraysOf (m_epool m))) (m_heap m) (m_heap m') /\
    (forall a, In a (arraysOf (m_epool m')) -> In a (arraysOf (m_epool m)) \/ length (m_heap m) <= a).
Proof.
  intros G MO PN HC LO BO LB NO E. unfold oldLoop in E.
  set (R := fun (i : nat) (t : list byte) (_ : unit) (m' : memory) => mem_ok m' /\ m_bpool m' = m_bpool m /\ length t = (N + 1) * n /\
    nth o (m_heap m') [] = t /\ step (fun a => a = o \/ In a (arraysOf (m_epool m))) (m_heap m) (m_heap m') /\
    (forall a, In a (arraysOf (m_epool m')) -> In a (arraysOf (m_epool m)) \/ length (m_heap m) <= a)).
  match goal with |- context [mforeach _ ?f _] => edestruct (mforeach_seq R f) as (m4 & [] & F4 & R4); [| |exact E|] end.
  2: { split; [exact MO|]. split; [reflexivity|]. split; [exact LB|]. split; [exact BO|]. split; [apply step_refl|]. intros a Q. left. exact Q. }
  2: { exists m4. rewrite F4. split; [reflexivity|]. exact R4. }
  clear E. intros i t [] m1 t' Hi (I1 & BP1 & LT & B1 & S1 & EP1) K. cbv beta zeta in K |- *.
  apply bind_inv in K as (w & K1 & K). apply bind_inv in K as (x & K2 & K). apply bind_inv in K as (o1 & K4 & K).
  inversion K; subst t'. clear K.
  assert (HN : (N + 1) * i + N + 1 <= (N + 1) * n) by nia.
  remember ((N + 1) * i) as k eqn:KE. apply slice_inv in K1 as (H1 & H2 & K1).
  unfold mlift. rewrite K2. erewrite mbind_ret by reflexivity.
  rewrite (idx_ok _ i nilSlice) by (rewrite map_length, seq_length; lia). erewrite mbind_ret by reflexivity.
  rewrite nth_map_seq by lia.
  assert (LO1 : o < length (m_heap m1)) by (destruct S1 as (S1 & _); lia).
  assert (IW : inb (m_heap m1) (win o N n i)).
  { split; cbn [win sl_arr sl_off sl_len]; [exact LO1|]. rewrite B1, LT. lia. }
  assert (CW : mcontents m1 (win o N n i) = w).
  { unfold mcontents. rewrite (contents_win _ _ _ _ _ t B1). rewrite K1. unfold row. rewrite <- KE. f_equal. lia. }
  assert (PM : forall a, a < length (m_heap m) -> ~ pooled m a -> ~ pooled m1 a).
  { intros a La Na Q. apply Na. unfold pooled, buffers in *. rewrite arraysOf_app in *. rewrite BP1 in Q. apply in_app_or in Q as [Q|Q]; apply in_or_app; [left; exact Q|].
    apply EP1 in Q as [Q|Q]; [right; exact Q|lia]. }
  assert (NE : forall a, ~ pooled m a -> ~ In a (arraysOf (m_epool m))).
  { intros a Na Q. apply Na. unfold pooled, buffers. rewrite arraysOf_app. apply in_or_app. right. exact Q. }
  assert (CC1 : map (mcontents m1) cs = map (mcontents m) cs).
  { apply map_ext_in. intros c Hc. destruct (HC c Hc) as (Ic & _ & Nc & Oc). apply (step_contents _ _ _ _ S1); [apply Ic|]. intros [Q|Q]; [exact (Oc Q)|exact (NE _ Nc Q)]. }
  edestruct (mEvaluateRows_ok size ar growcap cs N x (win o N n i) (evBufs i) m1 o1) as (m2 & F2 & I2 & BP2 & L2 & A2 & S2 & EP2); try assumption.
  { intros c Hc. destruct (HC c Hc) as (Ic & Lc & Nc & Oc). split; [eapply step_inb; [exact S1|exact Ic]|]. split; [exact Lc|]. apply PM; [apply Ic|exact Nc]. }
  { reflexivity. }
  { cbn [win sl_len sl_cap]. lia. }
  { cbn [win sl_arr]. apply PM; assumption. }
  { rewrite CC1, CW. exact K4. }
  exists m2, tt. split; [exact F2|]. cbn [win sl_arr sl_off] in A2, S2.
  split; [exact I2|]. split; [rewrite BP2; exact BP1|]. split; [rewrite splice_length; [exact LT|rewrite L2; lia]|].
  split; [rewrite A2, B1, <- KE; reflexivity|]. split.
  - eapply step_trans; [exact S1|exact S2|]. intros a La [Q|Q]; [left; exact Q|]. apply EP1 in Q as [Q|Q]; [right; exact Q|lia].
  - intros a Q. apply EP2 in Q as [Q|Q]; [apply EP1, Q|]. right. destruct S1 as (S1 & _). lia.
Qed.

Lemma mSplitWithRandomizerOld_call size ar growcap ks evBufs secret parts threshold m :
  grow_ok growcap -> mem_ok m -> usable m secret ->
  call_ok m (mSplitWithRandomizerOld size ar growcap ks secret parts threshold m)
    (SplitWithRandomizerOld ar growcap ks evBufs (mcontents m secret) parts threshold).
Proof.
  intros G MO U. unfold mSplitWithRandomizerOld. destruct (checkArgs (mcontents m secret) parts threshold) as [e|] eqn:CK.
  { split; [apply keeps_refl, MO|]. cbn [snd]. unfold SplitWithRandomizerOld. rewrite CK. reflexivity. }
  assert (PX : Perm ks xff = Panic PIndex \/ exists xs, Perm ks xff = Ret xs /\ length xs = 255).
  { destruct (byte_eq_dec (ks 0) xfe) as [Q|Q]; [left; apply Perm255_panic, Q|right]. destruct (Perm255_ok ks Q) as (xs & A & B & _). exists xs. auto. }
  destruct PX as [PX|(xs & PX & LX)].
  { unfold mbind at 1. unfold mlift. rewrite PX. split; [apply keeps_refl, MO|]. cbn [snd]. unfold SplitWithRandomizerOld. rewrite CK, PX. reflexivity. }
  pose proof CK as (T & PP & NE)%checkArgs_None.
  pose proof (SplitWithRandomizerOld_ok ar growcap ks evBufs (mcontents m secret) parts threshold xs G CK PX ltac:(lia)) as V. cbv zeta in V.
  unfold mlift at 1. rewrite PX. erewrite mbind_ret by reflexivity. cbv zeta.
  assert (L0 : 0 < sl_len secret). { rewrite <- (usable_length m secret U). destruct (mcontents m secret); [congruence|cbn [length]; lia]. }
  destruct (usable_inb m secret U L0) as [IS NS].
  pose proof V as V0. unfold SplitWithRandomizerOld in V. rewrite CK, PX in V. cbn [bind] in V. rewrite (usable_length m secret U) in V.
  set (N := sl_len secret) in *. set (n := Z.to_nat parts) in *. set (degree := Z.to_nat (threshold - 1)) in *. set (t := degree + 1).
  apply bind_inv in V as (buff & V1 & V). destruct (mLayoutFlat_ok N n xs m buff V1) as (h1 & F1 & L1 & A1 & LB & S1).
  rewrite (mbind_ret _ _ _ _ _ F1). clear F1. set (o := length (m_heap m)) in *.
  pose proof (mem_ok_alloc m h1 MO S1) as MO1.
  assert (IS1 : inb h1 secret) by (eapply step_inb; [exact S1|exact IS]).
  assert (CS1 : mcontents (setHeap m h1) secret = mcontents m secret) by (apply (step_contents _ _ _ _ S1); [apply IS|tauto]).
  destruct (mMake_ok ks secret degree (setHeap m h1) IS1) as (h2 & F2 & S2 & L2 & A2 & C2). fold N t in F2, L2, A2, C2. cbn [setHeap m_heap] in *. rewrite L1 in *.
  rewrite setHeap_setHeap in F2. rewrite (mbind_ret _ _ _ _ _ F2). clear F2. rewrite CS1 in C2.
  set (rows := map (crow (S o) t N) (seq 0 N)) in *.
  assert (LR : length rows = N) by (unfold rows; rewrite map_length, seq_length; reflexivity).
  destruct (mTranspose_ok rows t (setHeap m h2) ltac:(lia)) as (h3 & F3 & S3 & L3 & A3 & C3).
  { intros r Hr. unfold rows in Hr. apply in_map_iff in Hr as (p & <- & Hp). apply in_seq in Hp. split; [|reflexivity].
    split; cbn [setHeap m_heap crow sl_arr sl_off sl_len]; [lia|rewrite A2; nia]. }
  rewrite LR in *. cbn [setHeap m_heap] in *. rewrite L2 in *. rewrite setHeap_setHeap in F3. rewrite (mbind_ret _ _ _ _ _ F3). clear F3.
  change (map (mcontents (setHeap m h2)) rows) with (map (contents h2) rows) in C3. rewrite C2 in C3.
  set (ot := S (S o)) in *. set (cs := map (mrow ot N) (seq 0 t)) in *.
  rewrite makePolynomialsWithRandomizer_ok in V. cbn [bind] in V. fold t in V. rewrite (usable_length m secret U) in V. fold N in V.
  set (polys := polysOf t (mcontents m secret) (take_stream ks (t * N))) in *.
  assert (Lp : length polys = N) by (unfold polys; rewrite polysOf_length; apply usable_length, U).
  assert (Fp : Forall (fun p => length p = t) polys) by (apply polysOf_row_length; [unfold t; lia|rewrite take_stream_length, (usable_length m secret U); reflexivity]).
  destruct (transpose_ok polys t) as (M & E2 & LM & VM).
  { intros Q. rewrite Q in Lp. cbn [length] in Lp. lia. }
  { intros j Hj. rewrite Forall_forall in Fp. apply Fp, nth_In, Hj. }
  rewrite E2 in V. cbn [bind] in V. apply bind_inv in V as (r & V2 & V).
  pose proof (step_none_trans _ _ _ (step_none_trans _ _ _ S1 S2) S3) as S03. pose proof (mem_ok_alloc m h3 MO S03) as MO3.
  assert (Ics : forall c, c < t -> inb h3 (mrow ot N c)) by (intros c Hc; split; cbn [mrow sl_arr sl_off sl_len]; [lia|rewrite A3; nia]).
  assert (CM : map (mcontents (setHeap m h3)) cs = M).
  { apply nth_ext with [] []; [unfold cs; rewrite !map_length, seq_length; symmetry; exact LM|]. unfold cs. rewrite !map_length, seq_length. intros c Hc.
    rewrite map_map, nth_map_seq by exact Hc. destruct (VM c Hc) as [VL VN]. rewrite Lp in VL, VN. unfold mcontents. cbn [setHeap m_heap].
    apply (list_eq_nth x00); [rewrite contents_length by (apply Ics, Hc); symmetry; exact VL|].
    rewrite contents_length by (apply Ics, Hc). cbn [mrow sl_len]. intros p Hp. rewrite nth_contents by exact Hp. cbn [mrow sl_arr sl_off]. rewrite C3, VN by assumption. reflexivity. }
  assert (Np : forall a, o <= a -> ~ pooled (setHeap m h3) a).
  { intros a La Q. apply (inv_lt [] m) in Q; [unfold o in La; lia|exact MO]. }
  destruct (mOldLoop_ok size ar growcap evBufs cs N n xs o (setHeap m h3) buff r G MO3 L0) as (m4 & F4 & MO4 & BP4 & LR4 & A4 & S4 & EP4).
  { intros c Hc. unfold cs in Hc. apply in_map_iff in Hc as (i & <- & Hi). apply in_seq in Hi. split; [apply Ics; lia|]. split; [reflexivity|].
    cbn [mrow sl_arr]. split; [apply Np; unfold ot; lia|unfold ot; lia]. }
  { cbn [setHeap m_heap]. unfold ot in L3. lia. }
  { cbn [setHeap m_heap]. rewrite <- A1. transitivity (nth o h2 []); [apply S3; [lia|intros []]|apply S2; [lia|intros []]]. }
  { exact LB. }
  { apply Np. lia. }
  { rewrite CM. exact V2. }
  rewrite (mbind_ret _ _ _ _ _ F4). clear F4. unfold mret. cbn [setHeap m_heap m_bpool m_epool] in *.
  assert (PL : forall a, pooled m4 a -> pooled m a \/ length h3 <= a).
  { intros a Q. unfold pooled, buffers in *. rewrite arraysOf_app in *. rewrite BP4 in Q. apply in_app_or in Q as [Q|Q]; [left; apply in_or_app; left; exact Q|].
    apply EP4 in Q as [Q|Q]; [left; apply in_or_app; right; exact Q|right; exact Q]. }
  assert (PO : ~ pooled m4 o).
  { intros Q. apply PL in Q as [Q|Q]; [|unfold ot in L3; lia]. apply (inv_lt [] m) in Q; [unfold o in *; lia|exact MO]. }
  split; cbn [fst snd].
  - apply keeps_step; [exact MO4| |].
    + eapply step_trans; [eapply step_weaken; [exact S03|intros a _ []]|exact S4|]. intros a La [Q|Q]; [unfold o in Q; lia|].
      unfold pooled, buffers. rewrite arraysOf_app. apply in_or_app. right. exact Q.
    + intros a Q. apply PL in Q as [Q|Q]; [left; exact Q|right; unfold ot, o in *; lia].
  - split; [|apply (wins_fresh m m4 N n)].
    + rewrite (usable_length m secret U) in V0. fold N in V0. rewrite V0. rewrite windows_ok in V by exact LR4. rewrite <- V. f_equal. rewrite map_map. apply map_ext_in. intros i Hi. symmetry. apply contents_win. exact A4.
    + fold o. destruct S4 as (S4 & _). unfold ot in L3. lia.
    + fold o. rewrite A4. exact LR4.
    + exact PO.
Qed.
