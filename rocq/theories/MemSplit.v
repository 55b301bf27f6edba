(** Split, SplitWithRandomizer and SplitGeneric on memory. *)
From Coq Require Import List NArith ZArith Lia Arith Bool Permutation.
From Coq.Init Require Import Byte.
From Verif Require Import GoSem Bytes Spec Galois GF Vector Csprng Pool Polynomial Shamir GoFacts VectorFacts PolynomialFacts SplitFacts Memory MemCalls SpecMemCalls MemFacts.
Import ListNotations.

Definition win (o N n i : nat) : gslice := {| sl_arr := o; sl_off := (N + 1) * i; sl_len := N + 1; sl_cap := (N + 1) * n - (N + 1) * i |}.

Lemma mLayoutFlat_ok N n xs m buff : layoutFlat N n xs = Ret buff ->
  exists h', mLayoutFlat N n xs m = (setHeap m h', Ret (map (win (length (m_heap m)) N n) (seq 0 n))) /\
    length h' = S (length (m_heap m)) /\ nth (length (m_heap m)) h' [] = buff /\ length buff = (N + 1) * n /\ step (fun _ => False) (m_heap m) h'.
Proof.
  intros E. unfold layoutFlat in E. unfold mLayoutFlat, mmake, alloc.
  set (o := length (m_heap m)).
  erewrite mbind_ret by reflexivity. rewrite zeros_length.
  set (R := fun (i : nat) (t : list byte) (out : list gslice) (m' : memory) => out = map (win o N n) (seq 0 i) /\ length t = (N + 1) * n /\
    exists h', m' = setHeap m h' /\ length h' = S o /\ nth o h' [] = t /\ step (fun _ => False) (m_heap m) h').
  match goal with |- context [mforeach _ ?f _] => edestruct (mforeach_seq R f) as (m4 & s4 & F4 & R4); [| |exact E|] end.
  2: { split; [reflexivity|]. split; [apply zeros_length|]. exists (m_heap m ++ [zeros ((N + 1) * n)]). split; [reflexivity|].
       split; [rewrite app_length; cbn [length]; unfold o; lia|]. split; [unfold o; rewrite app_nth2, Nat.sub_diag by lia; reflexivity|apply step_alloc]. }
  2: { destruct R4 as (-> & L & h' & -> & A & B & C). exists h'. split; [exact F4|]. split; [exact A|]. split; [exact B|]. split; [exact L|exact C]. }
  intros i t out m' t' Hi (-> & L & h' & -> & A & B & C) G. cbv beta zeta in G |- *.
  apply bind_inv in G as (w & G1 & G). apply bind_inv in G as (tg & G2 & G). apply bind_inv in G as (w' & G3 & G). inversion G; subst t'. clear G.
  assert (HN : (N + 1) * i + N + 1 <= (N + 1) * n) by nia.
  remember ((N + 1) * i) as k eqn:K. remember ((N + 1) * n) as Nn eqn:KN.
  apply slice_inv in G1 as (H1 & H2 & G1). apply upd_inv in G3 as (H3 & G3).
  match goal with |- context [mslice ?s k _] => rewrite (mbind_ret _ _ _ _ _ (mslice_ok s k (k + N + 1) _ ltac:(lia) ltac:(cbn [sl_cap]; lia))) end.
  unfold mlift. rewrite G2. erewrite mbind_ret by reflexivity.
  match goal with |- context [mstore ?s N tg] => rewrite (mbind_ret _ _ _ _ _ (mstore_ok s N tg _ ltac:(cbn [window sl_len]; lia))) end.
  unfold mret. eexists. eexists. split; [reflexivity|]. split; [|split].
  - rewrite seq_S, map_app. cbn [map Nat.add]. f_equal. f_equal. unfold window, win. cbn [sl_arr sl_off sl_cap]. rewrite <- K. f_equal; lia.
  - rewrite splice_length; [exact L|]. rewrite G3, set_length by exact H3. rewrite G1, firstn_length, skipn_length. lia.
  - cbn [window sl_arr sl_off setHeap m_heap]. exists (hwrite h' o (k + N) [tg]). split; [reflexivity|].
    assert (SW : step (eq o) h' (hwrite h' o (k + N) [tg])) by (apply step_hwrite; [lia|rewrite B; cbn [length]; lia]).
    split; [rewrite hwrite_length; lia|]. split.
    + rewrite nth_hwrite by lia. rewrite Nat.eqb_refl, B. rewrite G3, set_splice, G1, (splice_splice_inner x00) by (cbn [length]; lia).
      reflexivity.
    + eapply step_trans; [exact C|exact SW|]. intros a La Q. unfold o in Q. lia.
Qed.

Lemma contents_win h o N n i buff : nth o h [] = buff -> contents h (win o N n i) = row (N + 1) buff i.
Proof. intros E. unfold contents, row, win. cbn [sl_arr sl_off sl_len]. rewrite E. reflexivity. Qed.

Lemma mEvalLoop_ok size ar growcap evBufs c N n xs o held m coef buff r :
  grow_ok growcap -> inv held m -> inb (m_heap m) c -> sl_len c <= sl_cap c -> In (sl_arr c) (arraysOf held) -> mcontents m c = coef ->
  o < length (m_heap m) -> nth o (m_heap m) [] = buff -> length buff = (N + 1) * n -> ~ In o (arraysOf (held ++ buffers m)) ->
  evalLoop ar growcap evBufs coef N n xs buff = Ret r ->
  exists m', mEvalLoop size ar growcap c N n xs (map (win o N n) (seq 0 n)) m = (m', Ret tt) /\ inv held m' /\ m_bpool m' = m_bpool m /\
    length r = (N + 1) * n /\ nth o (m_heap m') [] = r /\
    step (fun a => a = o \/ In a (arraysOf (m_epool m))) (m_heap m) (m_heap m') /\
    (forall a, In a (arraysOf (m_epool m')) -> In a (arraysOf (m_epool m)) \/ length (m_heap m) <= a).
Proof.
  intros G I IC CC HC CE LO BO LB NO E. unfold evalLoop in E. unfold mEvalLoop.
  set (R := fun (i : nat) (t : list byte) (_ : unit) (m' : memory) => inv held m' /\ m_bpool m' = m_bpool m /\ length t = (N + 1) * n /\
    nth o (m_heap m') [] = t /\ step (fun a => a = o \/ In a (arraysOf (m_epool m))) (m_heap m) (m_heap m') /\
    (forall a, In a (arraysOf (m_epool m')) -> In a (arraysOf (m_epool m)) \/ length (m_heap m) <= a)).
  match goal with |- context [mforeach _ ?f _] => edestruct (mforeach_seq R f) as (m4 & [] & F4 & R4); [| |exact E|] end.
  2: { split; [exact I|]. split; [reflexivity|]. split; [exact LB|]. split; [exact BO|]. split; [apply step_refl|]. intros a Q. left. exact Q. }
  2: { exists m4. rewrite F4. split; [reflexivity|]. exact R4. }
  clear E. intros i t [] m1 t' Hi (I1 & BP1 & LT & B1 & S1 & EP1) K. cbv beta zeta in K |- *.
  apply bind_inv in K as (w & K1 & K). apply bind_inv in K as (x & K2 & K). apply bind_inv in K as (o0 & K3 & K). apply bind_inv in K as (o1 & K4 & K).
  inversion K; subst t'. clear K.
  assert (HN : (N + 1) * i + N + 1 <= (N + 1) * n) by nia.
  remember ((N + 1) * i) as k eqn:KE. apply slice_inv in K1 as (H1 & H2 & K1). apply slice_inv in K3 as (_ & H3 & K3).
  unfold mlift. rewrite K2. erewrite mbind_ret by reflexivity.
  rewrite (idx_ok _ i nilSlice) by (rewrite map_length, seq_length; lia). erewrite mbind_ret by reflexivity.
  rewrite nth_map_seq by lia.
  rewrite (mbind_ret _ _ _ _ _ (mslice_ok (win o N n i) 0 N _ ltac:(lia) ltac:(cbn [win sl_cap]; lia))).
  assert (LO1 : o < length (m_heap m1)) by (destruct S1 as (S1 & _); lia).
  assert (IW : inb (m_heap m1) (win o N n i)).
  { split; cbn [win sl_arr sl_off sl_len]; [exact LO1|]. rewrite B1, LT. lia. }
  assert (CW : mcontents m1 (win o N n i) = w).
  { unfold mcontents. rewrite (contents_win _ _ _ _ _ t B1). rewrite K1. unfold row. rewrite <- KE. f_equal. lia. }
  assert (IW0 : inb (m_heap m1) (window (win o N n i) 0 N)) by (apply inb_window; [exact IW|lia|cbn [win sl_len]; lia]).
  assert (CW0 : mcontents m1 (window (win o N n i) 0 N) = o0).
  { unfold mcontents. rewrite contents_window by (cbn [win sl_len]; lia). rewrite K3, <- CW. reflexivity. }
  assert (NH : ~ In (sl_arr c) (arraysOf (buffers m))) by (apply (held_not_buffers held m); assumption).
  assert (OC : sl_arr c <> o).
  { intros Q. apply NO. rewrite arraysOf_app. apply in_or_app. left. rewrite <- Q. exact HC. }
  assert (CC1 : mcontents m1 c = coef).
  { rewrite <- CE. apply (step_contents _ _ _ _ S1); [apply IC|]. intros [Q|Q]; [exact (OC Q)|]. apply NH. unfold buffers. rewrite arraysOf_app. apply in_or_app. right. exact Q. }
  edestruct (mEvaluate_ok size ar growcap c N x (window (win o N n i) 0 N) (evBufs i) held m1 o1) as (m2 & F2 & I2 & BP2 & L2 & A2 & S2 & EP2); try assumption.
  { eapply step_inb; [exact S1|exact IC]. }
  { cbn [window win sl_len]. lia. }
  { cbn [window win sl_len sl_cap]. lia. }
  { cbn [window win sl_arr]. rewrite arraysOf_app. intros Q. apply in_app_or in Q as [Q|Q].
    - apply NO. rewrite arraysOf_app. apply in_or_app. left. exact Q.
    - unfold buffers in Q. rewrite arraysOf_app, BP1 in Q. apply in_app_or in Q as [Q|Q].
      + apply NO. rewrite arraysOf_app. apply in_or_app. right. unfold buffers. rewrite arraysOf_app. apply in_or_app. left. exact Q.
      + apply EP1 in Q as [Q|Q]; [|lia]. apply NO. rewrite arraysOf_app. apply in_or_app. right. unfold buffers. rewrite arraysOf_app. apply in_or_app. right. exact Q. }
  { rewrite CC1, CW0. exact K4. }
  exists m2, tt. split; [exact F2|]. cbn [window win sl_arr sl_off] in A2, S2.
  assert (SP : splice t k (splice w 0 o1) = splice t (k + 0) o1) by (rewrite K1; apply (splice_splice_inner x00); lia).
  split; [exact I2|]. split; [rewrite BP2; exact BP1|]. split; [rewrite SP, splice_length; [exact LT|rewrite L2; lia]|].
  split; [rewrite A2, B1, SP, <- KE; reflexivity|]. split.
  - eapply step_trans; [exact S1|exact S2|]. intros a La [Q|Q]; [left; exact Q|]. apply EP1 in Q as [Q|Q]; [right; exact Q|lia].
  - intros a Q. apply EP2 in Q as [Q|Q]; [apply EP1, Q|]. right. destruct S1 as (S1 & _). lia.
Qed.

(** the common part of Split and SplitWithRandomizer, on contents *)
Definition splitRest (ar : arch) (growcap : nat -> nat -> nat) (pmk : list byte -> nat -> list byte -> outcome (list byte)) (xs : list byte)
           (polB trB : bbuf) (evBufs : nat -> bbuf) (secret : list byte) (parts threshold : Z) : outcome (list (list byte) * bbuf * bbuf) :=
    let N := length secret in
    let n := Z.to_nat parts in
    do buff <- layoutFlat N n xs;
    let degree := Z.to_nat (threshold - 1) in
    let polB := resetGrow growcap polB ((degree + 1) * N) in
    do polBuff <- slice polB 0 ((degree + 1) * N);
    do polynomials <- pmk secret degree polBuff;
    let polB := splice polB 0 polynomials in
    let trB := resetGrow growcap trB (length polynomials) in
    do coefficientBuff <- slice trB 0 (length polynomials);
    do coefficientBuff <- transposeMatrixBuffer coefficientBuff polynomials (degree + 1);
    let trB := splice trB 0 coefficientBuff in
    do buff <- evalLoop ar growcap evBufs coefficientBuff N n xs buff;
    do out <- windows N n buff;
    Ret (out, polB, trB).

Definition fills (mk : gslice -> nat -> gslice -> M unit) (pmk : list byte -> nat -> list byte -> outcome (list byte)) : Prop :=
  forall secret degree buf m, inb (m_heap m) secret -> inb (m_heap m) buf -> sl_len buf <= sl_cap buf -> sl_arr secret <> sl_arr buf ->
    sl_len buf = (degree + 1) * sl_len secret ->
    exists h', mk secret degree buf m = (setHeap m h', Ret tt) /\ pmk (mcontents m secret) degree (mcontents m buf) = Ret (contents h' buf) /\
      step (eq (sl_arr buf)) (m_heap m) h'.

Lemma fills_stream stream : fills (mMakePolynomialsWithBuff stream) (fun i d b => makePolynomialsWithBuff i d b stream).
Proof.
  intros secret degree buf m IS IB CB ND LL. unfold mMakePolynomialsWithBuff, makePolynomialsWithBuff.
  assert (LB : length (mcontents m buf) = sl_len buf) by (apply contents_length, IB). rewrite LB.
  rewrite (mbind_ret _ _ _ _ _ (mwrite_ok buf _ m)).
  set (h1 := hwrite (m_heap m) (sl_arr buf) (sl_off buf) (take_stream stream (sl_len buf))).
  assert (S1 : step (eq (sl_arr buf)) (m_heap m) h1) by (apply step_hwrite; [apply IB|rewrite take_stream_length; apply IB]).
  assert (C1 : mcontents (setHeap m h1) buf = take_stream stream (sl_len buf)).
  { unfold mcontents, h1. cbn [setHeap m_heap]. rewrite <- (Nat.add_0_r (sl_off buf)), contents_hwrite by (try exact IB; rewrite take_stream_length; lia).
    apply splice_0. rewrite take_stream_length. symmetry. exact LB. }
  assert (CS : mcontents (setHeap m h1) secret = mcontents m secret).
  { apply (step_contents _ _ _ _ S1); [apply IS|]. intros Q. apply ND. symmetry. exact Q. }
  destruct (setIntercepts_ok (mcontents m secret) degree (take_stream stream (sl_len buf))) as (r & E & _).
  { rewrite take_stream_length, LL. f_equal. symmetry. apply contents_length, IS. }
  destruct (mSetIntercepts_ok secret degree buf (setHeap m h1) r) as (h2 & F2 & C2 & S2).
  { eapply step_inb; [exact S1|exact IS]. }
  { eapply step_inb; [exact S1|exact IB]. }
  { exact CB. } { exact ND. } { rewrite CS, C1. exact E. }
  exists h2. rewrite F2, setHeap_setHeap. split; [reflexivity|]. split; [rewrite C2; exact E|].
  eapply step_trans; [exact S1|exact S2|]. intros a _ Q. exact Q.
Qed.

Lemma fills_randomizer ks : fills (mMakePolynomialsWithBuffAndRandomizer ks) (fun i d b => makePolynomialsWithBuffAndRandomizer i d b ks).
Proof.
  intros secret degree buf m IS IB CB ND LL. unfold mMakePolynomialsWithBuffAndRandomizer, makePolynomialsWithBuffAndRandomizer.
  assert (LB : length (mcontents m buf) = sl_len buf) by (apply contents_length, IB).
  erewrite mbind_ret by (cbv beta; apply mwrite_ok).
  assert (LR : length (Read ks (mcontents m buf)) = sl_len buf) by (rewrite Read_length; exact LB).
  set (h1 := hwrite (m_heap m) (sl_arr buf) (sl_off buf) (Read ks (mcontents m buf))).
  assert (S1 : step (eq (sl_arr buf)) (m_heap m) h1) by (apply step_hwrite; [apply IB|rewrite LR; apply IB]).
  assert (C1 : mcontents (setHeap m h1) buf = Read ks (mcontents m buf)).
  { unfold mcontents at 1. unfold h1. cbn [setHeap m_heap]. rewrite <- (Nat.add_0_r (sl_off buf)), contents_hwrite by (try exact IB; rewrite LR; lia).
    apply splice_0. rewrite LR. symmetry. exact LB. }
  assert (CS : mcontents (setHeap m h1) secret = mcontents m secret).
  { apply (step_contents _ _ _ _ S1); [apply IS|]. intros Q. apply ND. symmetry. exact Q. }
  destruct (setIntercepts_ok (mcontents m secret) degree (Read ks (mcontents m buf))) as (r & E & _).
  { rewrite LR, LL. f_equal. symmetry. apply contents_length, IS. }
  destruct (mSetIntercepts_ok secret degree buf (setHeap m h1) r) as (h2 & F2 & C2 & S2).
  { eapply step_inb; [exact S1|exact IS]. }
  { eapply step_inb; [exact S1|exact IB]. }
  { exact CB. } { exact ND. } { rewrite CS, C1. exact E. }
  exists h2. rewrite F2, setHeap_setHeap. split; [reflexivity|]. split; [rewrite C2; exact E|].
  eapply step_trans; [exact S1|exact S2|]. intros a _ Q. exact Q.
Qed.

Definition nextB (m : memory) : list byte := match m_bpool m with [] => [] | b :: _ => arrayOf (m_heap m) b end.

Definition own (P : nat -> Prop) (held : list gslice) (m : memory) : Prop := forall a, In a (arraysOf (held ++ buffers m)) -> P a.

Lemma in_cons_arrays a b l : In a (arraysOf (b :: l)) <-> (0 < sl_cap b /\ sl_arr b = a) \/ In a (arraysOf l).
Proof.
  unfold arraysOf. cbn [filter]. destruct (Nat.ltb_spec 0 (sl_cap b)) as [L|L]; cbn [map In]; [tauto|]. split; [auto|]. intros [[Q _]|Q]; [lia|exact Q].
Qed.
Lemma in_app_arrays a k l : In a (arraysOf (k ++ l)) <-> In a (arraysOf k) \/ In a (arraysOf l).
Proof. rewrite arraysOf_app. apply in_app_iff. Qed.

(** get a buffer and make it large enough *)
Lemma mBuffer_ok (P : nat -> Prop) growcap n held m : grow_ok growcap -> 0 < n -> inv held m -> own P held m -> (forall a, length (m_heap m) <= a -> P a) ->
  exists b m1, (forall B (k : gslice -> M B), (mdo b <- mgetB; mdo b <- mresetGrow growcap b n; k b) m = k b m1) /\ inv (b :: held) m1 /\ own P (b :: held) m1 /\ n <= sl_cap b /\
    step (fun _ => False) (m_heap m) (m_heap m1) /\ nth (sl_arr b) (m_heap m1) [] = resetGrow growcap (nextB m) n /\ m_bpool m1 = tl (m_bpool m).
Proof.
  intros G N I O Q. pose proof (eq_refl (m_bpool (fst (mgetB m)))) as TL. unfold mgetB at 2 in TL. destruct (mgetB_ok held m I) as (b0 & m1 & F1 & I1 & H1 & E1 & A1 & B1).
  destruct (mresetGrow_ok growcap b0 n held m1 G N I1) as (b & m2 & F2 & I2 & C2 & BP2 & EP2 & S2 & AR & NN).
  rewrite F1 in TL. cbn [fst] in TL.
  exists b, m2. split; [|split; [exact I2|split; [|split; [exact C2|split; [rewrite <- H1; exact S2|split]]]]].
  - intros B k. rewrite (mbind_ret _ _ _ _ _ F1), (mbind_ret _ _ _ _ _ F2). reflexivity.
  - intros a J. assert (BUF : buffers m2 = buffers m1) by (unfold buffers; rewrite BP2, EP2; reflexivity).
    rewrite BUF in J. cbn [app] in J. apply in_cons_arrays in J as [[J1 J2]|J].
    + subst a. destruct AR as [[AR1 AR2]|AR]; [|apply Q; rewrite AR, H1; lia].
      rewrite AR2. apply O. apply in_app_arrays. right. apply A1. apply in_cons_arrays. left. split; [exact AR1|reflexivity].
    + apply O. apply in_app_arrays in J as [J|J]; apply in_app_arrays; [left; exact J|right]. apply A1. apply in_cons_arrays. right. exact J.
  - rewrite NN. f_equal. rewrite H1. unfold nextB. destruct (m_bpool m) as [|c r]; [rewrite B1; reflexivity|]. destruct B1 as [-> _]. reflexivity.
  - rewrite BP2, TL. unfold poolGet. destruct (m_bpool m); reflexivity.
Qed.

Lemma mSplitRest_strong size ar growcap mk pmk xs evBufs secret parts threshold m :
  grow_ok growcap -> mem_ok m -> inb (m_heap m) secret -> ~ pooled m (sl_arr secret) -> 0 < sl_len secret -> (2 <= threshold)%Z -> fills mk pmk ->
  (forall trB, exists r, splitRest ar growcap pmk xs (nextB m) trB evBufs (mcontents m secret) parts threshold = Ret r) ->
  let N := sl_len secret in let n := Z.to_nat parts in let o := length (m_heap m) in let out := map (win o N n) (seq 0 n) in
  exists m' trB p t, mSplitRest size ar growcap mk xs secret parts threshold m = (m', Ret out) /\
    splitRest ar growcap pmk xs (nextB m) trB evBufs (mcontents m secret) parts threshold = Ret (map (mcontents m') out, p, t) /\
    mem_ok m' /\ step (pooled m) (m_heap m) (m_heap m') /\ (forall a, pooled m' a -> pooled m a \/ o < a) /\
    o < length (m_heap m') /\ length (nth o (m_heap m') []) = (N + 1) * n /\
    let d := Z.to_nat (threshold - 1) in
    exists bt bp old old2 pol coef, m_bpool m' = poolPut size (poolPut size (tl (tl (m_bpool m))) bt) bp /\
      (d + 1) * N <= sl_cap bt /\ (d + 1) * N <= sl_cap bp /\
      firstn ((d + 1) * N) (nth (sl_arr bt) (m_heap m') []) = coef /\ firstn ((d + 1) * N) (nth (sl_arr bp) (m_heap m') []) = pol /\
      length old = (d + 1) * N /\ length old2 = (d + 1) * N /\ length pol = (d + 1) * N /\
      pmk (mcontents m secret) d old = Ret pol /\ transposeMatrixBuffer old2 pol (d + 1) = Ret coef.
Proof.
  intros G MO IS NS LS TH FL H N n o out. unfold mSplitRest. cbv zeta. fold N n.
  set (P := fun a => pooled m a \/ o < a).
  pose proof (contents_length _ _ IS : length (mcontents m secret) = N) as LSC.
  set (degree := Z.to_nat (threshold - 1)) in *.
  assert (T0 : 0 < (degree + 1) * N) by (unfold N; nia).
  (* layout *)
  destruct (H []) as (r0 & E0). unfold splitRest in E0. cbv zeta in E0. rewrite LSC in E0. fold n in E0. apply bind_inv in E0 as (buff & EL & _). clear r0.
  destruct (mLayoutFlat_ok N n xs m buff EL) as (h1 & F1 & L1 & B1 & LB & S1). rewrite (mbind_ret _ _ _ _ _ F1). fold o in F1, B1, L1 |- *. fold out.
  assert (I1 : inv [] (setHeap m h1)) by (eapply inv_step; [exact S1|reflexivity|exact MO]).
  assert (O1 : own P [] (setHeap m h1)) by (intros a J; left; exact J).
  (* polynomial buffer *)
  destruct (mBuffer_ok P growcap ((degree + 1) * N) [] (setHeap m h1) G T0 I1 O1) as (polB & m3 & F3 & I3 & O3 & C3 & S3 & A3 & Z3).
  { cbn [setHeap m_heap]. intros a La. right. lia. }
  cbn [setHeap m_heap] in S3. rewrite F3. clear F3.
  assert (NB : nextB (setHeap m h1) = nextB m).
  { unfold nextB. cbn [setHeap m_bpool m_heap]. destruct MO as [MO1 _]. unfold buffers in MO1. destruct (m_bpool m) as [|b r]; [reflexivity|].
    unfold arrayOf. destruct (Nat.ltb_spec 0 (sl_cap b)) as [Lb|Lb]; [|reflexivity]. inversion MO1 as [|x l X1 X2]; subst.
    apply S1; [apply X1; exact Lb|cbv beta; tauto]. }
  rewrite NB in A3.
  assert (S03 : step (pooled m) (m_heap m) (m_heap m3)).
  { eapply step_trans; [eapply step_weaken; [exact S1|cbv beta; tauto]|exact S3|cbv beta; tauto]. }
  assert (B3 : nth o (m_heap m3) [] = buff) by (rewrite (proj2 (proj2 S3)) by (try (cbv beta; tauto); lia); exact B1).
  rewrite (mbind_ret _ _ _ _ _ (mslice_ok polB 0 ((degree + 1) * N) m3 ltac:(lia) C3)).
  set (pb := window polB 0 ((degree + 1) * N)).
  pose proof (inv_backed _ _ _ I3 ltac:(lia)) as (PB1 & PB2 & PB3).
  assert (IPB : inb (m_heap m3) pb).
  { split; cbn [pb window sl_arr sl_off sl_len]; [exact PB1|]. rewrite PB2. lia. }
  assert (PP : P (sl_arr polB)).
  { apply O3. cbn [app]. apply in_cons_arrays. left. split; [lia|reflexivity]. }
  assert (SP : sl_arr secret <> sl_arr polB).
  { intros Q. destruct PP as [PP|PP]; [apply NS; rewrite Q; exact PP|]. destruct IS as [IS _]. fold o in IS. lia. }
  assert (OP : o <> sl_arr polB).
  { intros Q. destruct PP as [PP|PP]; [|lia]. rewrite <- Q in PP. apply (inv_lt [] m o) in PP; [unfold o in PP; lia|exact MO]. }
  assert (CPB : mcontents m3 pb = firstn ((degree + 1) * N) (resetGrow growcap (nextB m) ((degree + 1) * N))).
  { unfold mcontents, contents. cbn [pb window sl_arr sl_off sl_len]. rewrite PB2, A3, Nat.sub_0_r. reflexivity. }
  assert (CS3 : mcontents m3 secret = mcontents m secret).
  { apply (step_contents _ _ _ _ S03); [apply IS|exact NS]. }
  destruct (FL secret degree pb m3) as (h4 & F4 & PM & S4).
  { eapply step_inb; [exact S03|exact IS]. } { exact IPB. } { cbn [pb window sl_len sl_cap]. lia. } { exact SP. }
  { cbn [pb window sl_len]. fold N. lia. }
  rewrite (mbind_ret _ _ _ _ _ F4). clear F4. cbn [pb window sl_arr] in S4.
  set (m4 := setHeap m3 h4).
  assert (I4 : inv [polB] m4) by (eapply inv_step; [exact S4|reflexivity|exact I3]).
  assert (O4 : own P [polB] m4) by exact O3.
  assert (S04 : step (pooled m) (m_heap m) h4).
  { eapply step_trans; [exact S03|exact S4|]. intros a La Q. subst a. destruct PP as [PP|PP]; [exact PP|unfold o in PP; lia]. }
  assert (IPB4 : inb h4 pb) by (eapply step_inb; [exact S4|exact IPB]).
  assert (L14 : o < length h4) by (destruct S04 as (Q & _), S3 as (Q3 & _), S4 as (Q4 & _); lia).
  (* transpose buffer *)
  assert (LPB : sl_len pb = (degree + 1) * N) by (cbn [pb window sl_len]; lia).
  rewrite LPB.
  destruct (mBuffer_ok P growcap ((degree + 1) * N) [polB] m4 G T0 I4 O4) as (trB & m5 & F5 & I5 & O5 & C5 & S5 & A5 & Z5).
  { intros a La. right. cbn [m4 setHeap m_heap] in La. lia. }
  rewrite F5. clear F5. cbn [m4 setHeap m_heap] in S5.
  rewrite (mbind_ret _ _ _ _ _ (mslice_ok trB 0 ((degree + 1) * N) m5 ltac:(lia) C5)).
  set (cb := window trB 0 ((degree + 1) * N)).
  pose proof (inv_backed _ _ _ I5 ltac:(lia)) as (TB1 & TB2 & TB3).
  assert (ICB : inb (m_heap m5) cb).
  { split; cbn [cb window sl_arr sl_off sl_len]; [exact TB1|]. rewrite TB2. lia. }
  assert (PT : P (sl_arr trB)).
  { apply O5. cbn [app]. apply in_cons_arrays. left. split; [lia|reflexivity]. }
  assert (OT : o <> sl_arr trB).
  { intros Q. destruct PT as [PT|PT]; [|lia]. rewrite <- Q in PT. apply (inv_lt [] m o) in PT; [unfold o in PT; lia|exact MO]. }
  assert (NPT : sl_arr polB <> sl_arr trB).
  { pose proof (head_notin _ _ _ I5 ltac:(lia)) as Q. intros Q2. apply Q. rewrite <- Q2. cbn [app]. apply in_cons_arrays. left. split; [lia|reflexivity]. }
  assert (CCB : mcontents m5 cb = firstn ((degree + 1) * N) (resetGrow growcap (nextB m4) ((degree + 1) * N))).
  { unfold mcontents, contents. cbn [cb window sl_arr sl_off sl_len]. rewrite TB2, A5, Nat.sub_0_r. reflexivity. }
  assert (CPB5 : mcontents m5 pb = contents h4 pb).
  { apply (step_contents _ _ _ _ S5); [apply IPB4|cbv beta; tauto]. }
  (* the contents *)
  destruct (H (nextB m4)) as (r & E). pose proof E as EE. unfold splitRest in E. cbv zeta in E. rewrite LSC in E. fold n degree in E.
  rewrite EL in E. cbn [bind] in E. apply bind_inv in E as (x1 & E1 & E). apply slice_inv in E1 as (_ & _ & E1).
  rewrite Nat.sub_0_r in E1. cbn [skipn] in E1. rewrite <- CPB in E1. subst x1. rewrite CS3 in PM. rewrite PM in E. cbn [bind] in E.
  assert (LPM : length (contents h4 pb) = (degree + 1) * N) by (rewrite contents_length by exact IPB4; exact LPB).
  rewrite LPM in E. apply bind_inv in E as (x2 & E2 & E). apply slice_inv in E2 as (_ & _ & E2).
  rewrite Nat.sub_0_r in E2. cbn [skipn] in E2. rewrite <- CCB in E2. subst x2.
  apply bind_inv in E as (coef & E3 & E). apply bind_inv in E as (buff' & E4 & E). apply bind_inv in E as (out' & E5 & E). inversion E; subst r. clear E.
  (* transpose *)
  destruct (mTranspose_ok cb pb (degree + 1) m5 coef) as (h6 & F6 & C6 & S6).
  { exact ICB. } { eapply step_inb; [exact S5|exact IPB4]. } { exact NPT. } { rewrite CPB5. exact E3. }
  rewrite (mbind_ret _ _ _ _ _ F6). clear F6. cbn [cb window sl_arr] in S6.
  set (m6 := setHeap m5 h6).
  assert (I6 : inv [trB; polB] m6) by (eapply inv_step; [exact S6|reflexivity|exact I5]).
  assert (O6 : own P [trB; polB] m6) by exact O5.
  assert (S06 : step (pooled m) (m_heap m) h6).
  { eapply step_trans; [eapply step_trans; [exact S04|exact S5|cbv beta; tauto]|exact S6|]. intros a La Q. subst a. destruct PT as [PT|PT]; [exact PT|unfold o in PT; lia]. }
  assert (L6 : o < length h6) by (destruct S5 as (Q5 & _), S6 as (Q6 & _); lia).
  assert (B6 : nth o h6 [] = buff).
  { rewrite (proj2 (proj2 S6)); [|destruct S5 as (Q5 & _); lia|intros Q; apply OT; symmetry; exact Q].
    rewrite (proj2 (proj2 S5)) by (try (cbv beta; tauto); lia).
    rewrite (proj2 (proj2 S4)); [exact B3|destruct S3 as (Q3 & _); lia|intros Q; apply OP; symmetry; exact Q]. }
  assert (NO6 : ~ In o (arraysOf ([trB; polB] ++ buffers m6))).
  { intros Q. apply O6 in Q as [Q|Q]; [|lia]. apply (inv_lt [] m o) in Q; [unfold o in Q; lia|exact MO]. }
  (* evaluation *)
  destruct (mEvalLoop_ok size ar growcap evBufs cb N n xs o [trB; polB] m6 coef buff buff' G I6) as (m7 & F7 & I7 & BP7 & L7 & B7 & S7 & EP7); try assumption.
  { eapply step_inb; [exact S6|exact ICB]. }
  { cbn [cb window sl_len sl_cap]. lia. }
  { apply in_cons_arrays. left. split; [lia|reflexivity]. }
  fold out in F7. rewrite (mbind_ret _ _ _ _ _ F7). clear F7.
  destruct (mputB_ok size trB [polB] m7 I7) as (m8 & F8 & I8 & H8 & A8). assert (Z8 : m_bpool m8 = poolPut size (m_bpool m7) trB) by (apply (f_equal fst) in F8; cbn [fst] in F8; rewrite <- F8; reflexivity). rewrite (mbind_ret _ _ _ _ _ F8). clear F8.
  destruct (mputB_ok size polB [] m8 I8) as (m9 & F9 & I9 & H9 & A9). assert (Z9 : m_bpool m9 = poolPut size (m_bpool m8) polB) by (apply (f_equal fst) in F9; cbn [fst] in F9; rewrite <- F9; reflexivity). rewrite (mbind_ret _ _ _ _ _ F9). clear F9.
  unfold mret. exists m9, (nextB m4). eexists. eexists. split; [reflexivity|].
  assert (H97 : m_heap m9 = m_heap m7) by (rewrite H9; exact H8).
  assert (B9 : nth o (m_heap m9) [] = buff') by (rewrite H97; exact B7).
  split.
  { rewrite EE. rewrite windows_ok in E5 by exact L7. inversion E5; subst out'. f_equal. f_equal. f_equal. unfold out. rewrite map_map. apply map_ext_in.
    intros i _. unfold mcontents. symmetry. apply contents_win, B9. }
  split; [exact I9|]. split; [|split; [|split; [|split]]].
  - rewrite H97. eapply step_trans; [exact S06|exact S7|]. intros a La [Q|Q]; [unfold o in Q; lia|].
    assert (Pa : P a). { apply O6. apply in_app_arrays. right. unfold buffers. apply in_app_arrays. right. exact Q. }
    destruct Pa as [Pa|Pa]; [exact Pa|unfold o in Pa; lia].
  - intros a J. apply A9 in J. apply in_cons_arrays in J as [[J1 J2]|J]; [subst a; exact PP|].
    apply A8 in J. apply in_cons_arrays in J as [[J1 J2]|J]; [subst a; exact PT|].
    unfold buffers in J. apply in_app_arrays in J as [J|J].
    + apply O6. apply in_app_arrays. right. unfold buffers. apply in_app_arrays. left. rewrite <- BP7. exact J.
    + apply EP7 in J as [J|J]; [|right; cbn [m6 setHeap m_heap] in J; lia]. apply O6. apply in_app_arrays. right. unfold buffers. apply in_app_arrays. right. exact J.
  - rewrite H97. destruct S7 as (Q7 & _). cbn [m6 setHeap m_heap] in Q7. lia.
  - rewrite B9. exact L7.
  - cbv zeta. fold degree.
    assert (E7 : forall a, a < length h6 -> a <> o -> ~ In a (arraysOf (m_epool m6)) -> nth a (m_heap m9) [] = nth a h6 []).
    { intros a La Q1 Q2. rewrite H97. apply S7; [exact La|]. intros [Q|Q]; [apply Q1; exact Q|apply Q2; exact Q]. }
    assert (NT6 : ~ In (sl_arr trB) (arraysOf (m_epool m6))).
    { intros Q. apply (head_notin _ _ _ I6 ltac:(lia)). cbn [app]. apply in_cons_arrays. right. unfold buffers. apply in_app_arrays. right. exact Q. }
    assert (NP6 : ~ In (sl_arr polB) (arraysOf (m_epool m6))).
    { intros Q. apply (held_not_buffers [trB; polB] m6 (sl_arr polB) I6).
      - apply in_cons_arrays. right. apply in_cons_arrays. left. split; [lia|reflexivity].
      - unfold buffers. apply in_app_arrays. right. exact Q. }
    assert (L56 : length (m_heap m5) <= length h6) by (destruct S6 as (Q6 & _); lia).
    assert (L35 : length (m_heap m3) <= length (m_heap m5)) by (destruct S4 as (Q4 & _), S5 as (Q5 & _); lia).
    exists trB, polB, (mcontents m3 pb), (mcontents m5 cb), (contents h4 pb), coef. split; [|split; [exact C5|split; [exact C3|]]].
    { rewrite Z9, Z8, BP7. cbn [m6 setHeap m_bpool]. rewrite Z5. cbn [m4 setHeap m_bpool]. rewrite Z3. reflexivity. }
    assert (LP3 : length (mcontents m3 pb) = (degree + 1) * N) by (unfold mcontents; rewrite contents_length by exact IPB; exact LPB).
    assert (LP5 : length (mcontents m5 cb) = (degree + 1) * N) by (unfold mcontents; rewrite contents_length by exact ICB; cbn [cb window sl_len]; lia).
    split; [|split; [|split; [exact LP3|split; [exact LP5|split; [exact LPM|split; [exact PM|exact E3]]]]]].
    + rewrite E7; [|lia|intros Q; apply OT; symmetry; exact Q|exact NT6]. rewrite <- C6. unfold contents. cbn [cb window sl_arr sl_off sl_len].
      rewrite TB2, Nat.sub_0_r. reflexivity.
    + rewrite E7; [|lia|intros Q; apply OP; symmetry; exact Q|exact NP6].
      rewrite (proj2 (proj2 S6)); [|lia|intros Q; apply NPT; symmetry; exact Q]. rewrite (proj2 (proj2 S5)); [|destruct S4 as (Q4 & _); lia|cbv beta; tauto].
      unfold contents. cbn [pb window sl_arr sl_off sl_len]. rewrite PB2, Nat.sub_0_r. reflexivity.
Qed.

Lemma mSplitRest_ok size ar growcap mk pmk xs evBufs secret parts threshold m :
  grow_ok growcap -> mem_ok m -> inb (m_heap m) secret -> ~ pooled m (sl_arr secret) -> 0 < sl_len secret -> (2 <= threshold)%Z -> fills mk pmk ->
  (forall trB, exists r, splitRest ar growcap pmk xs (nextB m) trB evBufs (mcontents m secret) parts threshold = Ret r) ->
  let N := sl_len secret in let n := Z.to_nat parts in let o := length (m_heap m) in let out := map (win o N n) (seq 0 n) in
  exists m' trB p t, mSplitRest size ar growcap mk xs secret parts threshold m = (m', Ret out) /\
    splitRest ar growcap pmk xs (nextB m) trB evBufs (mcontents m secret) parts threshold = Ret (map (mcontents m') out, p, t) /\
    mem_ok m' /\ step (pooled m) (m_heap m) (m_heap m') /\ (forall a, pooled m' a -> pooled m a \/ o < a) /\
    o < length (m_heap m') /\ length (nth o (m_heap m') []) = (N + 1) * n.
Proof.
  intros G MO IS NS LS TH FL H N n o out.
  destruct (mSplitRest_strong size ar growcap mk pmk xs evBufs secret parts threshold m G MO IS NS LS TH FL H) as (m' & trB & p & t & A1 & A2 & A3 & A4 & A5 & A6 & A7 & _).
  exists m', trB, p, t. auto 10.
Qed.
