(** Facts about krawczyk.Combine on memory. *)
From Coq Require Import List NArith ZArith Lia Arith Bool Permutation.
From Coq.Init Require Import Byte.
From Verif Require Import GoSem Bytes Spec GF Vector Pool Polynomial Shamir GoFacts PolynomialFacts SplitFacts CombineFacts Libs Krawczyk
  Memory MemCalls SpecMemCalls MemFacts MemSplit MemTop SpecKr KrawczykFacts KrawczykCombine KrawczykContract KrMem SpecKrMem.
Import ListNotations.

(** ** Byte-wise steps *)
Definition bstep (W : nat -> nat -> Prop) (h h' : heap) : Prop :=
  length h <= length h' /\
  (forall a, a < length h -> length (nth a h' []) = length (nth a h [])) /\
  (forall a k, a < length h -> ~ W a k -> nth k (nth a h' []) x00 = nth k (nth a h []) x00).

Lemma bstep_refl W h : bstep W h h.
Proof. repeat split; auto. Qed.
Lemma bstep_trans (W W1 : nat -> nat -> Prop) h h1 h2 : bstep W h h1 -> bstep W1 h1 h2 -> (forall a k, a < length h -> W1 a k -> W a k) -> bstep W h h2.
Proof.
  intros (A & B & C) (A1 & B1 & C1) I. split; [lia|]. split.
  - intros a L. rewrite B1 by lia. apply B, L.
  - intros a k L N. rewrite C1; [apply C; assumption|lia|]. intros Q. apply N, I; assumption.
Qed.
Lemma bstep_weaken (W W1 : nat -> nat -> Prop) h h1 : bstep W1 h h1 -> (forall a k, a < length h -> W1 a k -> W a k) -> bstep W h h1.
Proof. intros (A & B & C) I. split; [exact A|]. split; [exact B|]. intros a k L N. apply C; [exact L|]. intros Q. apply N, I; assumption. Qed.
Lemma bstep_step W h h' : step W h h' -> bstep (fun a _ => W a) h h'.
Proof. intros (A & B & C). split; [exact A|]. split; [exact B|]. intros a k L N. rewrite C by assumption. reflexivity. Qed.
Lemma step_bstep W h h' : bstep W h h' -> step (fun a => exists k, W a k) h h'.
Proof.
  intros (A & B & C). split; [exact A|]. split; [exact B|]. intros a L N. apply (list_eq_nth x00); [apply B, L|].
  intros i _. apply C; [exact L|]. intros Q. apply N. exists i. exact Q.
Qed.
Lemma bstep_hwrite h a o l : a < length h -> o + length l <= length (nth a h []) ->
  bstep (fun b k => b = a /\ o <= k < o + length l) h (hwrite h a o l).
Proof.
  intros A L. split; [rewrite hwrite_length by exact A; lia|]. split.
  - intros b B. rewrite nth_hwrite by exact A. destruct (Nat.eqb_spec b a) as [->|N]; [apply splice_length, L|reflexivity].
  - intros b k B N. rewrite nth_hwrite by exact A. destruct (Nat.eqb_spec b a) as [->|N']; [|reflexivity].
    rewrite nth_splice by exact L. destruct (Nat.leb_spec o k), (Nat.ltb_spec k (o + length l)); cbn [andb]; try reflexivity. exfalso. apply N. lia.
Qed.
Lemma bstep_inb W h h' s : bstep W h h' -> inb h s -> inb h' s.
Proof. intros (A & B & C) [I J]. split; [lia|]. rewrite B by exact I. exact J. Qed.
Lemma bstep_contents W h h' s : bstep W h h' -> inb h s -> (forall k, sl_off s <= k < sl_off s + sl_len s -> ~ W (sl_arr s) k) -> contents h' s = contents h s.
Proof.
  intros S I N. pose proof (bstep_inb _ _ _ _ S I) as I'. apply (list_eq_nth x00).
  - rewrite !contents_length by assumption. reflexivity.
  - intros i L. rewrite contents_length in L by exact I'. rewrite !nth_contents by exact L. apply S; [apply I|]. apply N. lia.
Qed.

Definition disj (s t : gslice) : Prop := sl_arr s <> sl_arr t \/ sl_off s + sl_len s <= sl_off t \/ sl_off t + sl_len t <= sl_off s.

Lemma idx_nth {A} (l : list A) i d : i < length l -> idx l i = Ret (nth i l d).
Proof. intros L. unfold idx. rewrite (nth_error_nth' l d L). reflexivity. Qed.

(** ** Writing several slices *)
Lemma write_loop (sh : list gslice) (miss : nat -> bool) (val : nat -> list byte) d m : d <= length sh ->
  (forall i, i < d -> miss i = true -> inb (m_heap m) (nth i sh nilSlice) /\ sl_len (nth i sh nilSlice) = length (val i)) ->
  (forall i j, i < d -> miss i = true -> j < length sh -> i <> j -> 0 < sl_len (nth j sh nilSlice) -> disj (nth i sh nilSlice) (nth j sh nilSlice)) ->
  (forall j, j < length sh -> 0 < sl_len (nth j sh nilSlice) -> inb (m_heap m) (nth j sh nilSlice)) ->
  exists h', mforeach (seq 0 d) (fun i _ => if miss i then mdo t <- mlift (idx sh i); mwrite t (val i) else mret tt) tt m = (setHeap m h', Ret tt) /\
    (forall j, j < length sh -> contents h' (nth j sh nilSlice) = if (j <? d) && miss j then val j else contents (m_heap m) (nth j sh nilSlice)) /\
    bstep (fun a k => exists i, i < d /\ miss i = true /\ a = sl_arr (nth i sh nilSlice) /\ sl_off (nth i sh nilSlice) <= k < sl_off (nth i sh nilSlice) + sl_len (nth i sh nilSlice)) (m_heap m) h'.
Proof.
  intros Ld HI HD HB.
  set (R := fun (n : nat) (_ _ : unit) (m' : memory) => exists h', m' = setHeap m h' /\
    (forall j, j < length sh -> contents h' (nth j sh nilSlice) = if (j <? n) && miss j then val j else contents (m_heap m) (nth j sh nilSlice)) /\
    bstep (fun a k => exists i, i < d /\ miss i = true /\ a = sl_arr (nth i sh nilSlice) /\ sl_off (nth i sh nilSlice) <= k < sl_off (nth i sh nilSlice) + sl_len (nth i sh nilSlice)) (m_heap m) h').
  match goal with |- context [mforeach _ ?f _] => edestruct (mforeach_seq R f (fun _ _ => Ret tt) d 0) with (t := tt) (s := tt) (m := m) (t' := tt) as (m' & [] & F & R') end.
  - intros i t s m1 t' Hi (h1 & -> & C1 & S1) _. cbv beta. destruct (miss i) eqn:Mi.
    + unfold mlift. rewrite (idx_nth sh i nilSlice) by lia. erewrite mbind_ret by reflexivity. rewrite mwrite_ok. eexists. exists tt. split; [reflexivity|].
      destruct (HI i ltac:(lia) Mi) as [I1 I2]. pose proof (bstep_inb _ _ _ _ S1 I1) as I1'. cbn [setHeap m_heap].
      set (w := nth i sh nilSlice) in *.
      assert (Sw : bstep (fun b k => b = sl_arr w /\ sl_off w <= k < sl_off w + length (val i)) h1 (hwrite h1 (sl_arr w) (sl_off w) (val i))).
      { apply bstep_hwrite; [apply I1'|]. rewrite <- I2. apply I1'. }
      exists (hwrite h1 (sl_arr w) (sl_off w) (val i)). split; [reflexivity|]. split.
      * intros j Hj. destruct (Nat.eq_dec j i) as [->|Ne].
        -- rewrite Mi. destruct (Nat.ltb_spec i (S i)); [|lia]. cbn [andb]. fold w. rewrite <- (Nat.add_0_r (sl_off w)).
           rewrite contents_hwrite by (try exact I1'; lia). apply splice_0. rewrite contents_length by exact I1'. lia.
        -- replace ((j <? S i) && miss j) with ((j <? i) && miss j) by (destruct (Nat.ltb_spec j (S i)), (Nat.ltb_spec j i); try lia; reflexivity).
           rewrite <- C1 by exact Hj. destruct (Nat.eq_dec (sl_len (nth j sh nilSlice)) 0) as [Z|Z]; [unfold contents; rewrite Z; reflexivity|].
           apply (bstep_contents _ _ _ _ Sw); [eapply bstep_inb; [exact S1|apply HB; [exact Hj|lia]]|].
           intros k Hk (Q1 & Q2). destruct (HD i j ltac:(lia) Mi Hj ltac:(lia) ltac:(lia)) as [X|[X|X]]; fold w in X; [symmetry in Q1; contradiction|lia|lia].
      * eapply bstep_trans; [exact S1|exact Sw|]. intros a k _ (-> & Q). exists i. fold w. rewrite I2. split; [lia|]. split; [exact Mi|]. split; [reflexivity|exact Q].
    + unfold mret. eexists. exists tt. split; [reflexivity|]. exists h1. split; [reflexivity|]. split; [|exact S1].
      intros j Hj. rewrite C1 by exact Hj. destruct (Nat.eq_dec j i) as [->|Ne]; [rewrite Mi, !andb_false_r; reflexivity|].
      replace (j <? S i) with (j <? i) by (destruct (Nat.ltb_spec j (S i)), (Nat.ltb_spec j i); try lia; reflexivity). reflexivity.
  - exists (m_heap m). rewrite setHeap_same. split; [reflexivity|]. split; [|apply bstep_refl]. intros j _. reflexivity.
  - clear. generalize (seq 0 d). intros l. induction l as [|x l IH]; [reflexivity|exact IH].
  - destruct R' as (h' & -> & C & S). exists h'. split; [exact F|]. split; [exact C|exact S].
Qed.

(** ** The slices for the missing shards *)
Lemma mrsTargets_ok size d (enc : list gslice) m : d <= length enc -> 0 < size ->
  (forall i, i < length enc -> usable m (nth i enc nilSlice)) ->
  exists h' sh, mrsTargets size d enc m = (setHeap m h', Ret sh) /\ length sh = length enc /\ step (fun _ => False) (m_heap m) h' /\
    (forall i, i < length enc ->
       if (i <? d) && (sl_len (nth i enc nilSlice) =? 0)
       then sl_len (nth i sh nilSlice) = size /\ inb h' (nth i sh nilSlice) /\
         if size <=? sl_cap (nth i enc nilSlice) then nth i sh nilSlice = window (nth i enc nilSlice) 0 size
         else length (m_heap m) <= sl_arr (nth i sh nilSlice)
       else nth i sh nilSlice = nth i enc nilSlice) /\
    (forall i j, i < j -> j < d -> sl_len (nth i enc nilSlice) = 0 -> sl_len (nth j enc nilSlice) = 0 -> sl_cap (nth i enc nilSlice) < size -> sl_cap (nth j enc nilSlice) < size ->
       sl_arr (nth i sh nilSlice) < sl_arr (nth j sh nilSlice)).
Proof.
  intros Ld Hs U. set (e := fun i => nth i enc nilSlice).
  set (R := fun (n : nat) (_ : unit) (sh : list gslice) (m' : memory) => exists h', m' = setHeap m h' /\ length sh = length enc /\ step (fun _ => False) (m_heap m) h' /\
    (forall i, i < length enc ->
       if (i <? n) && (sl_len (e i) =? 0)
       then sl_len (nth i sh nilSlice) = size /\ inb h' (nth i sh nilSlice) /\
         if size <=? sl_cap (e i) then nth i sh nilSlice = window (e i) 0 size
         else length (m_heap m) <= sl_arr (nth i sh nilSlice)
       else nth i sh nilSlice = e i) /\
    (forall i j, i < j -> j < n -> sl_len (e i) = 0 -> sl_len (e j) = 0 -> sl_cap (e i) < size -> sl_cap (e j) < size ->
       sl_arr (nth i sh nilSlice) < sl_arr (nth j sh nilSlice))).
  unfold mrsTargets.
  match goal with |- context [mforeach _ ?f _] => edestruct (mforeach_seq R f (fun _ _ => Ret tt) d 0) with (t := tt) (s := enc) (m := m) (t' := tt) as (m' & sh & F & R') end.
  - intros i t sh m1 t' Hi (h1 & -> & L1 & S1 & P1 & Q1) _. cbv beta. unfold mlift at 1. rewrite (idx_nth sh i nilSlice) by lia. erewrite mbind_ret by reflexivity.
    pose proof (P1 i ltac:(lia)) as Pi. rewrite Nat.ltb_irrefl in Pi. cbn [andb] in Pi. rewrite Pi.
    assert (SKIP : forall j, j <> i -> (j <? S i) = (j <? i)) by (intros j Ne; destruct (Nat.ltb_spec j (S i)), (Nat.ltb_spec j i); try lia; reflexivity).
    destruct (Nat.eqb_spec (sl_len (e i)) 0) as [Z|Z].
    + destruct (Nat.leb_spec size (sl_cap (e i))) as [C|C].
      * erewrite mbind_ret by (apply mslice_ok; lia). unfold mlift, upd. destruct (Nat.ltb_spec i (length sh)) as [_|X]; [|lia].
        eexists. eexists. split; [reflexivity|]. exists h1. change (firstn i sh ++ window (e i) 0 size :: skipn (S i) sh) with (set sh i (window (e i) 0 size)).
        split; [reflexivity|]. split; [rewrite set_length; lia|]. split; [exact S1|]. split.
        -- intros j Hj. rewrite nth_set by lia. destruct (Nat.eqb_spec j i) as [->|Ne].
           ++ destruct (Nat.ltb_spec i (S i)); [|lia]. rewrite Z, Nat.eqb_refl. cbn [andb window sl_len]. split; [lia|]. split.
              ** destruct (U i Hj) as [_ V]. destruct (V ltac:(fold (e i); lia)) as (V1 & V2 & _). fold (e i) in V1, V2. destruct S1 as (A1 & A2 & _).
                 split; cbn [window sl_arr sl_off sl_len]; [lia|]. rewrite A2 by exact V1. lia.
              ** destruct (Nat.leb_spec size (sl_cap (e i))); [reflexivity|lia].
           ++ rewrite (SKIP j Ne). apply P1, Hj.
        -- intros j k Hjk Hk Zj Zk Cj Ck. rewrite !nth_set by lia. destruct (Nat.eqb_spec j i) as [->|Nj]; [lia|].
           destruct (Nat.eqb_spec k i) as [->|Nk]; [lia|]. apply Q1; try assumption. lia.
      * set (t0 := {| sl_arr := length h1; sl_off := 0; sl_len := size; sl_cap := size |}).
        assert (F1 : mmake size (setHeap m h1) = (setHeap m (h1 ++ [zeros size]), Ret t0)) by (unfold mmake, alloc; cbn [setHeap m_heap]; rewrite zeros_length; reflexivity).
        rewrite (mbind_ret _ _ _ _ _ F1). unfold mlift, upd. destruct (Nat.ltb_spec i (length sh)) as [_|X]; [|lia].
        eexists. eexists. split; [reflexivity|]. exists (h1 ++ [zeros size]). change (firstn i sh ++ t0 :: skipn (S i) sh) with (set sh i t0).
        assert (S2 : step (fun _ => False) h1 (h1 ++ [zeros size])) by apply step_alloc.
        split; [reflexivity|]. split; [rewrite set_length; lia|]. split; [eapply step_trans; [exact S1|exact S2|tauto]|].
        assert (IT : inb (h1 ++ [zeros size]) t0).
        { pose proof (inb_alloc h1 (zeros size)) as X. rewrite zeros_length in X. exact X. }
        split.
        -- intros j Hj. rewrite nth_set by lia. destruct (Nat.eqb_spec j i) as [->|Ne].
           ++ destruct (Nat.ltb_spec i (S i)); [|lia]. rewrite Z, Nat.eqb_refl. cbn [andb]. split; [reflexivity|]. split; [exact IT|].
              destruct (Nat.leb_spec size (sl_cap (e i))); [lia|]. cbn [t0 sl_arr]. apply S1.
           ++ rewrite (SKIP j Ne). pose proof (P1 j Hj) as Pj. destruct ((j <? i) && (sl_len (e j) =? 0)); [|exact Pj].
              destruct Pj as (X1 & X2 & X3). split; [exact X1|]. split; [eapply step_inb; [exact S2|exact X2]|exact X3].
        -- intros j k Hjk Hk Zj Zk Cj Ck. rewrite !nth_set by lia. destruct (Nat.eqb_spec j i) as [->|Nj]; [lia|].
           destruct (Nat.eqb_spec k i) as [->|Nk].
           ++ cbn [t0 sl_arr]. pose proof (P1 j ltac:(lia)) as Pj. destruct (Nat.ltb_spec j i); [|lia]. rewrite Zj, Nat.eqb_refl in Pj. cbn [andb] in Pj.
              destruct Pj as (_ & X2 & _). apply X2.
           ++ apply Q1; try assumption. lia.
    + eexists. eexists. split; [reflexivity|]. exists h1. split; [reflexivity|]. split; [exact L1|]. split; [exact S1|]. split.
      * intros j Hj. destruct (Nat.eq_dec j i) as [->|Ne]; [|rewrite (SKIP j Ne); apply P1, Hj].
        destruct (Nat.eqb_spec (sl_len (e i)) 0); [lia|]. rewrite andb_false_r. exact Pi.
      * intros j k Hjk Hk Zj Zk Cj Ck. destruct (Nat.eq_dec k i) as [->|Nk]; [lia|]. apply Q1; try assumption. lia.
  - exists (m_heap m). rewrite setHeap_same. split; [reflexivity|]. split; [reflexivity|]. split; [apply step_refl|]. split; [|intros; lia]. intros i Hi. reflexivity.
  - clear. generalize (seq 0 d). intros l. induction l as [|x l IH]; [reflexivity|exact IH].
  - destruct R' as (h' & -> & A & B & C & D). exists h', sh. split; [exact F|]. split; [exact A|]. split; [exact B|]. split; [exact C|exact D].
Qed.

(** ** ReconstructData *)
(** bytes behind empty slices of [enc] *)
Definition behind (enc : list gslice) (a k : nat) : Prop :=
  exists i, i < length enc /\ sl_len (nth i enc nilSlice) = 0 /\ a = sl_arr (nth i enc nilSlice) /\
    sl_off (nth i enc nilSlice) <= k < sl_off (nth i enc nilSlice) + sl_cap (nth i enc nilSlice).

Lemma rsShardFrom_length src rows size i : length (rsShardFrom src rows size i) = size.
Proof. unfold rsShardFrom. rewrite map_length, seq_length. reflexivity. Qed.

Lemma mrsReconstructData_ok d total (enc : list gslice) m : d <= total -> length enc = total ->
  (forall i, i < length enc -> usable m (nth i enc nilSlice)) ->
  (forall i j, i < length enc -> j < length enc -> i <> j -> sl_len (nth i enc nilSlice) = 0 -> 0 < sl_cap (nth i enc nilSlice) ->
     apart (nth i enc nilSlice) (nth j enc nilSlice)) ->
  exists h' o, mrsReconstructData d total enc m = (setHeap m h', o) /\ bstep (behind enc) (m_heap m) h' /\
    match o with
    | Ret sh => rsReconstructData d total (map (mcontents m) enc) = Ret (map (contents h') sh) /\ length sh = total /\
        (forall i, i < d -> sl_len (nth i enc nilSlice) = 0 -> length (contents h' (nth i sh nilSlice)) = sl_len (nth i sh nilSlice) /\
           (sl_len (nth i sh nilSlice) <= sl_cap (nth i enc nilSlice) -> nth i sh nilSlice = window (nth i enc nilSlice) 0 (sl_len (nth i sh nilSlice))))
    | Fail e => rsReconstructData d total (map (mcontents m) enc) = Fail e
    | _ => False
    end.
Proof.
  intros Ldt Le U AP. unfold mrsReconstructData, rsReconstructData. rewrite map_length, Le, Nat.eqb_refl. cbn [negb]. cbv zeta.
  set (old := map (mcontents m) enc).
  assert (LO : length old = total) by (unfold old; rewrite map_length; exact Le).
  assert (NO : forall i, i < total -> nth i old [] = mcontents m (nth i enc nilSlice)).
  { intros i Hi. unfold old. apply (nth_map' (mcontents m) enc i [] nilSlice). lia. }
  assert (LN : forall i, i < total -> length (nth i old []) = sl_len (nth i enc nilSlice)).
  { intros i Hi. rewrite NO by exact Hi. apply usable_length, U. lia. }
  destruct (rsCheckShards true old) as [e|] eqn:CK.
  { exists (m_heap m). eexists. rewrite setHeap_same. split; [reflexivity|]. split; [apply bstep_refl|reflexivity]. }
  assert (SZ : 0 < rsShardSize old).
  { unfold rsCheckShards in CK. destruct (Nat.eqb_spec (rsShardSize old) 0); [discriminate CK|lia]. }
  set (size := rsShardSize old) in *.
  assert (ALL : forall s, In s old -> length s = size \/ length s = 0).
  { unfold rsCheckShards in CK. fold size in CK. destruct (size =? 0); [discriminate CK|]. cbn [andb] in CK.
    destruct (forallb _ old) eqn:FB; [|discriminate CK]. rewrite forallb_forall in FB. intros s Hs. apply FB in Hs. apply orb_true_iff in Hs.
    rewrite !Nat.eqb_eq in Hs. exact Hs. }
  match goal with |- context [filter (fun i => i <? d) ?p] => set (pr := p) end.
  destruct ((length pr =? total) || (length (filter (fun i => i <? d) pr) =? d)) eqn:DONE.
  { exists (m_heap m). eexists. rewrite setHeap_same. split; [reflexivity|]. split; [apply bstep_refl|]. split; [reflexivity|]. split; [exact Le|].
    intros i Hi Z.
    (* an empty piece below [d] would be missing *)
    exfalso. assert (NI : ~ In i pr). { unfold pr. rewrite filter_In, LN by lia. rewrite Z, Nat.eqb_refl. intros [_ X]. discriminate X. }
    assert (ND : NoDup pr) by (apply NoDup_filter, seq_NoDup).
    apply orb_true_iff in DONE as [X|X]; apply Nat.eqb_eq in X.
    - assert (IN : incl (seq 0 total) pr).
      { apply NoDup_length_incl; [exact ND|rewrite seq_length; lia|]. intros x Hx. apply filter_In in Hx. apply Hx. }
      apply NI, IN, in_seq. lia.
    - assert (IN : incl (seq 0 d) (filter (fun i => i <? d) pr)).
      { apply NoDup_length_incl; [apply NoDup_filter, ND|rewrite seq_length; lia|]. intros x Hx. apply filter_In in Hx as [_ Hx]. apply Nat.ltb_lt in Hx. apply in_seq. lia. }
      apply NI. pose proof (IN i ltac:(apply in_seq; lia)) as Hx. apply filter_In in Hx. apply Hx. }
  destruct (length pr <? d) eqn:FEW.
  { exists (m_heap m). eexists. rewrite setHeap_same. split; [reflexivity|]. split; [apply bstep_refl|reflexivity]. }
  destruct (mrsTargets_ok size d enc m ltac:(lia) SZ U) as (h1 & sh & F1 & L1 & S1 & P1 & Q1).
  rewrite (mbind_ret _ _ _ _ _ F1). clear F1.
  set (src := firstn d pr). set (rows := map (fun i => nth i old []) src).
  set (miss := fun i => length (nth i old []) =? 0).
  set (val := rsShardFrom src rows size).
  assert (MS : forall i, i < total -> miss i = (sl_len (nth i enc nilSlice) =? 0)) by (intros i Hi; unfold miss; rewrite LN by exact Hi; reflexivity).
  assert (CAP : forall i, i < total -> sl_len (nth i enc nilSlice) <= sl_cap (nth i enc nilSlice)) by (intros i Hi; apply U; lia).
  assert (ARR : forall i, i < total -> 0 < sl_cap (nth i enc nilSlice) -> sl_arr (nth i enc nilSlice) < length (m_heap m)).
  { intros i Hi C. destruct (U i ltac:(lia)) as [_ V]. apply V, C. }
  destruct (write_loop sh miss val d (setHeap m h1)) as (h2 & F2 & C2 & S2).
  - lia.
  - intros i Hi Mi. rewrite MS in Mi by lia. pose proof (P1 i ltac:(lia)) as Pi. apply Nat.ltb_lt in Hi. rewrite Hi, Mi in Pi. cbn [andb] in Pi. destruct Pi as (A & B & _).
    split; [exact B|]. unfold val. rewrite rsShardFrom_length. exact A.
  - intros i j Hi Mi Hj Ne Lj. rewrite L1, Le in Hj. rewrite MS in Mi by lia. pose proof (P1 i ltac:(lia)) as Pi. pose proof (P1 j ltac:(lia)) as Pj.
    assert (Hi' : (i <? d) = true) by (apply Nat.ltb_lt, Hi). rewrite Hi', Mi in Pi. cbn [andb] in Pi. destruct Pi as (A & B & C).
    apply Nat.eqb_eq in Mi.
    destruct (Nat.leb_spec size (sl_cap (nth i enc nilSlice))) as [C1|C1].
    + pose proof (AP i j ltac:(lia) ltac:(lia) Ne Mi ltac:(lia)) as X. pose proof (ARR i ltac:(lia) ltac:(lia)) as AI.
      destruct ((j <? d) && (sl_len (nth j enc nilSlice) =? 0)) eqn:Mj.
      * destruct Pj as (A' & B' & C'). destruct (Nat.leb_spec size (sl_cap (nth j enc nilSlice))) as [C2|C2].
        -- rewrite C, C'. unfold disj, apart in *. cbn [window sl_arr sl_off sl_len]. lia.
        -- left. rewrite C. cbn [window sl_arr]. lia.
      * rewrite Pj, C. pose proof (CAP j ltac:(lia)). unfold disj, apart in *. cbn [window sl_arr sl_off sl_len]. lia.
    + destruct ((j <? d) && (sl_len (nth j enc nilSlice) =? 0)) eqn:Mj.
      * destruct Pj as (A' & B' & C'). destruct (Nat.leb_spec size (sl_cap (nth j enc nilSlice))) as [C2|C2].
        -- left. rewrite C'. cbn [window sl_arr]. pose proof (ARR j ltac:(lia) ltac:(lia)). lia.
        -- left. apply andb_true_iff in Mj as [Hj' Zj]. apply Nat.ltb_lt in Hj'. apply Nat.eqb_eq in Zj.
           destruct (Nat.lt_ge_cases i j) as [X|X].
           ++ pose proof (Q1 i j X Hj' Mi Zj C1 C2). lia.
           ++ pose proof (Q1 j i ltac:(lia) Hi Zj Mi C2 C1). lia.
      * rewrite Pj in *. left. pose proof (CAP j ltac:(lia)). pose proof (ARR j ltac:(lia) ltac:(lia)). lia.
  - intros j Hj Lj. rewrite L1, Le in Hj. pose proof (P1 j ltac:(lia)) as Pj. destruct ((j <? d) && (sl_len (nth j enc nilSlice) =? 0)); [apply Pj|].
    rewrite Pj in *. cbn [setHeap m_heap]. eapply step_inb; [exact S1|]. apply usable_inb; [apply U; lia|exact Lj].
  - cbn [setHeap m_heap] in S2, C2, F2. rewrite setHeap_setHeap in F2.
    exists h2. eexists. split; [rewrite (mbind_ret _ _ _ _ _ F2); reflexivity|]. split; [|split; [|split; [lia|]]].
    + eapply bstep_trans; [eapply bstep_weaken; [apply bstep_step; exact S1|cbv beta; tauto]|exact S2|].
      intros a k La (i & Hi & Mi & -> & Hk). rewrite MS in Mi by lia. pose proof (P1 i ltac:(lia)) as Pi.
      assert (Hi' : (i <? d) = true) by (apply Nat.ltb_lt, Hi). rewrite Hi', Mi in Pi. cbn [andb] in Pi. destruct Pi as (A & B & C). apply Nat.eqb_eq in Mi.
      destruct (Nat.leb_spec size (sl_cap (nth i enc nilSlice))) as [C1|C1]; [|lia].
      exists i. split; [lia|]. split; [exact Mi|]. rewrite C in *. cbn [window sl_arr sl_off sl_len] in *. split; [reflexivity|]. lia.
    + f_equal. apply (list_eq_nth []).
      * rewrite !map_length, seq_length. lia.
      * intros i Hi. rewrite map_length, seq_length in Hi. rewrite nth_map_seq by exact Hi.
        rewrite (nth_map' (contents h2) sh i [] nilSlice) by lia. rewrite C2 by lia. fold (miss i).
        destruct ((i <? d) && miss i) eqn:Mi; [reflexivity|].
        rewrite MS in Mi by lia. pose proof (P1 i ltac:(lia)) as Pi. rewrite Mi in Pi. rewrite Pi, NO by exact Hi.
        destruct (Nat.eq_dec (sl_len (nth i enc nilSlice)) 0) as [Z|Z]; [unfold mcontents, contents; rewrite Z; reflexivity|].
        symmetry. apply (step_contents _ _ _ _ S1); [|cbv beta; tauto]. apply ARR; [exact Hi|]. pose proof (CAP i Hi). lia.
    + intros i Hi Z. pose proof (P1 i ltac:(lia)) as Pi. assert (Hi' : (i <? d) = true) by (apply Nat.ltb_lt, Hi). rewrite Hi', Z, Nat.eqb_refl in Pi. cbn [andb] in Pi.
      destruct Pi as (A & B & C). split; [apply contents_length; eapply bstep_inb; [exact S2|exact B]|].
      intros Lc. rewrite A in *. destruct (Nat.leb_spec size (sl_cap (nth i enc nilSlice))) as [C1|C1]; [|lia]. exact C.
Qed.

(** ** Scanning the shares *)
Lemma usable_spare m s : usable m s -> length (mspare m s) = sl_cap s - sl_len s.
Proof.
  intros [A B]. unfold mspare. rewrite firstn_length, skipn_length. destruct (Nat.eq_dec (sl_cap s) 0) as [Z|Z]; [lia|].
  destruct (B ltac:(lia)) as (_ & C & _). lia.
Qed.
Lemma map_set {A B} (f : A -> B) l i v : map f (set l i v) = set (map f l) i (f v).
Proof. unfold set. rewrite map_app. cbn [map]. rewrite firstn_map, skipn_map. reflexivity. Qed.

Definition tagAt (m : memory) (s : gslice) : nat := b2i (tag (mcontents m s)).

Lemma mSplitShares_ok parts m : forall ss, Forall (usable m) ss -> forall enc mds,
  exists o, mforeach ss
    (fun s '(encodedData, ssMetadata) =>
       mdo md <- mslice s 0 (LenKey + LenLen + 1);
       if sl_len s =? 0 then mlift (Panic PIndex) else
       mdo partID <- mload s (sl_len s - 1);
       if bltb (z2b parts) partID then mlift (Fail EWrongPartId) else
       mdo d <- mslice s (LenKey + LenLen + 1) (sl_len s - 1);
       mdo encodedData <- mlift (upd encodedData (b2i partID) d);
       mret (encodedData, ssMetadata ++ [md])) (enc, mds) m = (m, o) /\
    match o with
    | Ret (e, d) =>
      foreach (map (fun s => (mcontents m s, mspare m s)) ss) (splitStep parts) (map (mcontents m) enc, map (mcontents m) mds) = Ret (map (mcontents m) e, map (mcontents m) d) /\
      length e = length enc /\ d = mds ++ map (fun s => window s 0 21) ss /\ Forall (fun s => 22 <= sl_len s) ss /\
      forall i, i < length enc ->
        (exists pre s post, ss = pre ++ s :: post /\ nth i e nilSlice = window s 21 (sl_len s - 1) /\ tagAt m s = i /\ forall s', In s' post -> tagAt m s' <> i) \/
        (nth i e nilSlice = nth i enc nilSlice /\ forall s, In s ss -> tagAt m s <> i)
    | Fail e => foreach (map (fun s => (mcontents m s, mspare m s)) ss) (splitStep parts) (map (mcontents m) enc, map (mcontents m) mds) = Fail e
    | Panic p => foreach (map (fun s => (mcontents m s, mspare m s)) ss) (splitStep parts) (map (mcontents m) enc, map (mcontents m) mds) = Panic p
    | _ => False
    end.
Proof.
  change (LenKey + LenLen + 1) with 21.
  induction ss as [|s ss IH]; intros U enc mds.
  - eexists. split; [reflexivity|]. split; [reflexivity|]. split; [reflexivity|]. split; [cbn [map]; rewrite app_nil_r; reflexivity|]. split; [constructor|].
    intros i Hi. right. split; [reflexivity|]. intros s [].
  - inversion U as [|? ? Us U']; subst. pose proof (usable_length m s Us) as LC. pose proof (usable_spare m s Us) as LS. pose proof Us as [CP _].
    match goal with |- context [mforeach _ ?f _] => set (F := f) in * end. cbn [mforeach map foreach]. unfold mbind at 1.
    destruct (Nat.le_gt_cases 21 (sl_cap s)) as [H1|H1].
    2: { eexists. split; [unfold F; cbv beta iota; unfold mbind at 1; unfold mslice at 1, reslice, mlift; destruct (Nat.leb_spec 21 (sl_cap s)); [lia|]; rewrite andb_false_r; reflexivity|].
         cbv iota. unfold splitStep at 1. change (LenKey + LenLen + 1) with 21. rewrite slice_panic by (right; rewrite app_length; lia). reflexivity. }
    assert (V1 : slice (mcontents m s ++ mspare m s) 0 21 = Ret (firstn 21 (mcontents m s ++ mspare m s))) by (rewrite slice_ok by (rewrite ?app_length; lia); reflexivity).
    destruct (Nat.eqb_spec (sl_len s) 0) as [Z|Z].
    { eexists. split; [unfold F; cbv beta iota; rewrite (mbind_ret _ _ _ _ _ (mslice_ok s 0 21 m ltac:(lia) H1)); rewrite Z; reflexivity|].
      cbv iota. unfold splitStep at 1. change (LenKey + LenLen + 1) with 21. rewrite V1. cbn [bind]. rewrite LC, Z. reflexivity. }
    assert (V2 : idx (mcontents m s) (sl_len s - 1) = Ret (tag (mcontents m s))).
    { rewrite (idx_nth _ _ x00) by lia. rewrite tag_nth, LC. reflexivity. }
    assert (F2 : mload s (sl_len s - 1) m = (m, Ret (tag (mcontents m s)))) by (rewrite mload_ok by exact LC; rewrite V2; reflexivity).
    assert (Z' : (sl_len s =? 0) = false) by (apply Nat.eqb_neq; exact Z).
    assert (V3 : splitStep parts (mcontents m s, mspare m s) (map (mcontents m) enc, map (mcontents m) mds) =
      if bltb (z2b parts) (tag (mcontents m s)) then Fail EWrongPartId else
      do d <- slice (mcontents m s) 21 (sl_len s - 1);
      do e <- upd (map (mcontents m) enc) (tagAt m s) d; Ret (e, map (mcontents m) mds ++ [firstn 21 (mcontents m s ++ mspare m s)])).
    { unfold splitStep. change (LenKey + LenLen + 1) with 21. rewrite V1. cbn [bind]. rewrite !LC, Z', V2. reflexivity. }
    assert (F3 : F s (enc, mds) m = (if bltb (z2b parts) (tag (mcontents m s)) then mlift (Fail EWrongPartId) else
      mdo d <- mslice s 21 (sl_len s - 1); mdo e <- mlift (upd enc (tagAt m s) d); mret (e, mds ++ [window s 0 21])) m).
    { unfold F. cbv beta iota. rewrite (mbind_ret _ _ _ _ _ (mslice_ok s 0 21 m ltac:(lia) H1)). rewrite Z'. rewrite (mbind_ret _ _ _ _ _ F2). reflexivity. }
    rewrite V3. rewrite F3. clear F2 F3 V1 V2 V3.
    destruct (bltb (z2b parts) (tag (mcontents m s))); [eexists; split; reflexivity|].
    destruct (Nat.le_gt_cases 22 (sl_len s)) as [H2|H2].
    2: { eexists. split; [unfold mbind at 1, mslice, reslice, mlift; destruct (Nat.leb_spec 21 (sl_len s - 1)); [lia|]; reflexivity|].
         rewrite slice_panic by lia. reflexivity. }
    rewrite (mbind_ret _ _ _ _ _ (mslice_ok s 21 (sl_len s - 1) m ltac:(lia) ltac:(lia))). rewrite slice_ok by lia. cbn [bind].
    assert (CW : mcontents m (window s 21 (sl_len s - 1)) = firstn (sl_len s - 1 - 21) (skipn 21 (mcontents m s))) by (apply contents_window; lia).
    assert (CM : mcontents m (window s 0 21) = firstn 21 (mcontents m s ++ mspare m s)).
    { unfold mcontents at 1. rewrite contents_window by lia. rewrite firstn_app, LC. replace (21 - sl_len s) with 0 by lia. cbn [firstn skipn]. rewrite app_nil_r. reflexivity. }
    destruct (Nat.lt_ge_cases (tagAt m s) (length enc)) as [H3|H3].
    2: { eexists. split; [unfold mbind, mlift; rewrite upd_panic by exact H3; reflexivity|]. rewrite upd_panic by (rewrite map_length; exact H3). reflexivity. }
    rewrite (mbind_ret _ _ m m (set enc (tagAt m s) (window s 21 (sl_len s - 1)))) by (unfold mlift; rewrite upd_ok by exact H3; reflexivity).
    rewrite upd_ok by (rewrite map_length; exact H3). cbn [bind]. unfold mret. fold F.
    destruct (IH U' (set enc (tagAt m s) (window s 21 (sl_len s - 1))) (mds ++ [window s 0 21])) as (o & G & V).
    exists o. split; [exact G|]. rewrite map_app, map_set in V. cbn [map] in V. rewrite CW, CM in V.
    destruct o as [[e d]|e|p| |]; try exact V.
    destruct V as (V1 & V2 & V3 & V4 & V5). split; [exact V1|]. split; [rewrite V2; apply set_length, H3|]. split; [rewrite V3, <- app_assoc; reflexivity|].
    split; [constructor; assumption|]. intros i Hi. destruct (V5 i ltac:(rewrite set_length; assumption)) as [(pre & s' & post & A & B & C & D)|(A & B)].
    + left. exists (s :: pre), s', post. rewrite A. split; [reflexivity|]. split; [exact B|]. split; assumption.
    + rewrite nth_set in A by exact H3. destruct (Nat.eqb_spec i (tagAt m s)) as [E|Ne].
      * left. exists [], s, ss. split; [reflexivity|]. split; [exact A|]. split; [symmetry; exact E|exact B].
      * right. split; [exact A|]. intros s' [<-|Hs']; [congruence|apply B, Hs'].
Qed.

(** ** The whole call *)
Lemma keepsBut_of W m m1 h : keeps m m1 -> bstep W (m_heap m1) h -> keepsBut W m (setHeap m1 h).
Proof.
  intros (MO & L & K) S. split; [|split].
  - apply (inv_step [] m1 (setHeap m1 h) (fun a => exists k, W a k)); [apply step_bstep, S|reflexivity|exact MO].
  - cbn [setHeap m_heap]. destruct S as (A & _). lia.
  - intros a La Np. destruct (K a La Np) as [K1 K2]. cbn [setHeap m_heap]. destruct S as (A & B & C). split; [exact K2|]. split.
    + rewrite B by lia. rewrite K1. reflexivity.
    + intros k N. rewrite C by (assumption || lia). rewrite K1. reflexivity.
Qed.
Lemma keepsBut_keeps W m m1 : keeps m m1 -> keepsBut W m m1.
Proof. intros K. rewrite <- (setHeap_same m1). apply keepsBut_of; [exact K|apply bstep_refl]. Qed.
Lemma bstep_alloc W h x : bstep W h (h ++ [x]).
Proof. eapply bstep_weaken; [apply bstep_step, (step_alloc (fun _ => False))|cbv beta; tauto]. Qed.

Lemma clean_map m ss : cleanShares (map (mshare m) ss) = map (fun s => (mcontents m s, mspare m s)) (mcleanShares ss).
Proof. induction ss as [|[s|] ss IH]; cbn; [reflexivity|rewrite IH; reflexivity|exact IH]. Qed.
Lemma clean_in ss s : In s (mcleanShares ss) <-> In (Some s) ss.
Proof.
  induction ss as [|[t|] ss IH]; cbn [mcleanShares In]; [tauto| |].
  - rewrite IH. split; intros [X|X]; [left; congruence|right; exact X|left; congruence|right; exact X].
  - rewrite IH. split; [intros X; right; exact X|intros [X|X]; [discriminate X|exact X]].
Qed.
Lemma clean_split ss : forall pre s post, mcleanShares ss = pre ++ s :: post ->
  exists pre' post', ss = pre' ++ Some s :: post' /\ mcleanShares pre' = pre /\ mcleanShares post' = post.
Proof.
  induction ss as [|[t|] ss IH]; intros pre s post E; cbn [mcleanShares] in E.
  - destruct pre; discriminate E.
  - destruct pre as [|p pre]; cbn [app] in E.
    + inversion E; subst. exists [], ss. repeat split.
    + inversion E; subst. destruct (IH pre s post H1) as (pre' & post' & A & B & C). exists (Some p :: pre'), post'. rewrite A. cbn [mcleanShares app]. rewrite B. repeat split. exact C.
  - destruct (IH pre s post E) as (pre' & post' & A & B & C). exists (None :: pre'), post'. rewrite A. cbn [mcleanShares app]. repeat split; assumption.
Qed.
Lemma clean_app a b : mcleanShares (a ++ b) = mcleanShares a ++ mcleanShares b.
Proof. induction a as [|[t|] a IH]; cbn [mcleanShares app]; [reflexivity|rewrite IH; reflexivity|exact IH]. Qed.
Lemma nth_error_mid {A} (a : list A) x b : nth_error (a ++ x :: b) (length a) = Some x.
Proof. rewrite nth_error_app2, Nat.sub_diag by lia. reflexivity. Qed.

Lemma usable_window m s i j : usable m s -> i <= j -> j <= sl_cap s -> usable m (window s i j).
Proof.
  intros [A B] Hi Hj. split; cbn [window sl_arr sl_off sl_len sl_cap]; [lia|]. intros C. destruct (B ltac:(lia)) as (D & E & F). split; [exact D|]. split; [lia|exact F].
Qed.

(** the slices kept by the scan *)
Definition scanned (m : memory) (ss : list (option gslice)) (e : list gslice) : Prop :=
  forall i, i < length e ->
    (exists pre s post, mcleanShares ss = pre ++ s :: post /\ nth i e nilSlice = window s 21 (sl_len s - 1) /\ tagAt m s = i /\ forall s', In s' post -> tagAt m s' <> i) \/
    (nth i e nilSlice = nilSlice /\ forall s, In s (mcleanShares ss) -> tagAt m s <> i).

Section Scanned.
  Variables (m : memory) (ss : list (option gslice)) (e : list gslice).
  Hypotheses (US : usable_shares m ss) (LEN : Forall (fun s => 22 <= sl_len s) (mcleanShares ss)) (SC : scanned m ss e).

  Lemma scanned_len s : In s (mcleanShares ss) -> 22 <= sl_len s /\ usable m s.
  Proof. intros H. split; [rewrite Forall_forall in LEN; apply LEN, H|apply US, clean_in, H]. Qed.
  Lemma scanned_usable i : i < length e -> usable m (nth i e nilSlice).
  Proof.
    intros Hi. destruct (SC i Hi) as [(pre & s & post & A & B & _)|(B & _)]; rewrite B; [|apply usable_nil].
    destruct (scanned_len s ltac:(rewrite A; apply in_or_app; right; left; reflexivity)) as [X Y]. pose proof Y as [Y' _]. apply usable_window; [exact Y|lia|lia].
  Qed.
  Lemma scanned_apart : stubs_apart ss -> forall i j, i < length e -> j < length e -> i <> j -> sl_len (nth i e nilSlice) = 0 -> 0 < sl_cap (nth i e nilSlice) ->
    apart (nth i e nilSlice) (nth j e nilSlice).
  Proof.
    intros AP i j Hi Hj Ne Z C. destruct (SC i Hi) as [(pre & s & post & A & B & T & _)|(B & _)]; [|rewrite B in C; cbn in C; lia].
    rewrite B in *. cbn [window sl_len sl_cap] in Z, C.
    destruct (scanned_len s ltac:(rewrite A; apply in_or_app; right; left; reflexivity)) as [X Y].
    destruct (SC j Hj) as [(pre' & t & post' & A' & B' & T' & _)|(B' & _)]; rewrite B'; [|unfold apart; cbn [window nilSlice sl_arr sl_off sl_cap]; lia].
    destruct (scanned_len t ltac:(rewrite A'; apply in_or_app; right; left; reflexivity)) as [X' [Y' _]].
    apply clean_split in A as (p1 & q1 & A & _). apply clean_split in A' as (p2 & q2 & A' & _).
    pose proof (nth_error_mid p1 (Some s) q1) as N1. rewrite <- A in N1. pose proof (nth_error_mid p2 (Some t) q2) as N2. rewrite <- A' in N2.
    assert (D : length p1 <> length p2) by (intros Q; rewrite Q in N1; congruence).
    pose proof (AP _ _ _ _ D N1 N2 ltac:(lia)) as R. unfold apart in *. cbn [window sl_arr sl_off sl_cap]. lia.
  Qed.
  Lemma scanned_behind a k : behind e a k -> in_stub ss a k.
  Proof.
    intros (i & Hi & Z & -> & Hk). destruct (SC i Hi) as [(pre & s & post & A & B & _)|(B & _)]; rewrite B in *; cbn [window nilSlice sl_arr sl_off sl_len sl_cap] in *; [|lia].
    assert (I : In s (mcleanShares ss)) by (rewrite A; apply in_or_app; right; left; reflexivity).
    destruct (scanned_len s I) as [X _]. exists s. split; [apply clean_in, I|]. split; [lia|]. split; [reflexivity|lia].
  Qed.
  Lemma scanned_stub pre s post : ss = pre ++ Some s :: post -> sl_len s = 22 -> tagAt m s < length e -> (forall t, In (Some t) post -> tagAt m t <> tagAt m s) ->
    nth (tagAt m s) e nilSlice = window s 21 21.
  Proof.
    intros E L Hi NL. assert (C : mcleanShares ss = mcleanShares pre ++ s :: mcleanShares post) by (rewrite E, clean_app; reflexivity).
    destruct (SC (tagAt m s) Hi) as [(p & t & q & A & B & T & D)|(_ & N)].
    2: { exfalso. apply (N s); [rewrite C; apply in_or_app; right; left; reflexivity|reflexivity]. }
    assert (t = s) as ->; [|rewrite B, L; reflexivity].
    rewrite A in C. clear - C T D NL. revert p C. generalize (mcleanShares pre) as p0. assert (NL' : forall t0, In t0 (mcleanShares post) -> tagAt m t0 <> tagAt m s) by (intros t0 H; apply NL, clean_in, H).
    revert NL'. generalize (mcleanShares post) as q0. intros q0 NL' p0. induction p0 as [|x p0 IH]; intros [|y p] C; cbn [app] in C; inversion C; subst.
    - reflexivity.
    - exfalso. apply (NL' t); [apply in_or_app; right; left; reflexivity|exact T].
    - exfalso. apply (D s); [apply in_or_app; right; left; reflexivity|reflexivity].
    - exact (IH p H1).
  Qed.
End Scanned.

Lemma call_ok_but_eq W m r x y : x = y -> call_ok_but W m r x -> call_ok_but W m r y.
Proof. intros ->. auto. Qed.

Lemma fresh_setHeap m m1 h data : mem_ok m1 -> length (m_heap m) <= length (m_heap m1) -> length (m_heap m1) <= length h ->
  fresh m (setHeap m1 (h ++ [data])) {| sl_arr := length h; sl_off := 0; sl_len := length data; sl_cap := length data |}.
Proof.
  intros MO L1 L2. split; [|cbn [sl_arr]; lia]. split; cbn [sl_len sl_cap sl_arr sl_off setHeap m_heap]; [lia|]. intros _.
  rewrite app_length. cbn [length]. split; [lia|]. split.
  - rewrite app_nth2, Nat.sub_diag by lia. cbn [nth]. lia.
  - intros Q. change (pooled m1 (length h)) in Q. apply (inv_lt [] m1) in Q; [lia|exact MO].
Qed.

(** what happens to the stubs *)
Definition filled (m m' : memory) (ss : list (option gslice)) (d total : nat) (pieces : list (list byte)) : Prop :=
  exists o, rsReconstructData d total pieces = Ret o /\
    forall pre s post, ss = pre ++ Some s :: post -> sl_len s = 22 -> tagAt m s < d -> (forall t, In (Some t) post -> tagAt m t <> tagAt m s) ->
      21 + length (nth (tagAt m s) o []) <= sl_cap s -> bytesAt m' s 21 (length (nth (tagAt m s) o [])) = nth (tagAt m s) o [].

Definition krOK (m : memory) (ss : list (option gslice)) (parts threshold : Z) (r : memory * outcome gslice) (v : outcome (list byte)) : Prop :=
  call_ok_but (in_stub ss) m r v /\
  forall out, snd r = Ret out -> exists pieces mds,
    splitShares parts (cleanShares (map (mshare m) ss)) (repeat [] (Z.to_nat parts)) = Ret (pieces, mds) /\
    filled m (fst r) ss (Z.to_nat threshold) (Z.to_nat parts) pieces.
Lemma krOK_stop m ss parts threshold m' o v : keepsBut (in_stub ss) m m' -> v = (do _ <- o; Diverge) -> (forall a, o <> Ret a) -> krOK m ss parts threshold (m', o) v.
Proof.
  intros K -> N. split; [split; [exact K|]|].
  - cbn [fst snd]. destruct o as [a|e|p| |]; cbn [bind]; try reflexivity. exfalso. apply (N a). reflexivity.
  - cbn [fst snd]. intros out ->. exfalso. apply (N out). reflexivity.
Qed.

Lemma mKrCombine_call E zp rd ss parts threshold m : mem_ok m -> usable_shares m ss -> stubs_apart ss ->
  krOK m ss parts threshold (mKrCombine E zp rd ss parts threshold m) (krCombineCap E zp rd (map (mshare m) ss) parts threshold).
Proof.
  intros MO US AP. unfold mKrCombine, krCombineCap.
  destruct ss as [|s0 ss0]; [apply krOK_stop; [apply keepsBut_keeps, keeps_refl, MO|reflexivity|discriminate]|].
  set (ss := s0 :: ss0) in *. unfold mlift at 1. change (idx ss 0) with (Ret s0). erewrite mbind_ret by reflexivity.
  change (idx (map (mshare m) ss) 0) with (Ret (mshare m s0)). cbn [bind].
  replace (match mshare m s0 with Some (s, _) => length s | None => 0 end) with (match s0 with Some s => sl_len s | None => 0 end).
  2: { destruct s0 as [s|]; [|reflexivity]. cbn [mshare option_map]. symmetry. apply usable_length, US. left. reflexivity. }
  destruct (krCheck _ parts threshold) as [e|] eqn:CK; [apply krOK_stop; [apply keepsBut_keeps, keeps_refl, MO|reflexivity|discriminate]|].
  apply krCheck_None in CK. destruct CK as (_ & C1 & C2 & C3 & C4).
  cbv zeta. destruct (make_len parts) as [total|e|p| |] eqn:ML.
  2-5: apply krOK_stop; [apply keepsBut_keeps, keeps_refl, MO|reflexivity|discriminate].
  assert (TT : total = Z.to_nat parts) by (unfold make_len in ML; destruct (parts <? 0)%Z; [discriminate ML|inversion ML; reflexivity]). subst total.
  unfold mlift at 1. erewrite mbind_ret by reflexivity. cbn [bind].
  set (total := Z.to_nat parts) in *.
  assert (UF : Forall (usable m) (mcleanShares ss)) by (apply Forall_forall; intros s Hs; apply US, clean_in, Hs).
  destruct (mSplitShares_ok parts m (mcleanShares ss) UF (repeat nilSlice total) []) as (o & F1 & V1).
  rewrite clean_map. unfold mbind at 1. unfold mSplitShares. rewrite F1. clear F1. unfold splitShares. fold (splitStep parts).
  assert (RN : map (mcontents m) (repeat nilSlice total) = repeat [] total) by (clear; induction total as [|n IH]; cbn [repeat map]; [reflexivity|rewrite IH; reflexivity]).
  rewrite RN in V1. cbn [map] in V1.
  destruct o as [[e mds]|e|p| |]; [|rewrite V1; apply krOK_stop; [apply keepsBut_keeps, keeps_refl, MO|reflexivity|discriminate]..|destruct V1|destruct V1].
  destruct V1 as (V1 & V2 & V3 & V4 & V5). rewrite V1. cbn [bind]. rewrite repeat_length in V2, V5.
  assert (SC : scanned m ss e).
  { intros i Hi. rewrite V2 in Hi. destruct (V5 i ltac:(exact Hi)) as [X|(X & Y)]; [left; exact X|right]. split; [rewrite X; apply nth_repeat_lt; exact Hi|exact Y]. }
  clear V5. cbn [app] in V3.
  assert (UM : Forall (usable m) mds).
  { rewrite V3. apply Forall_forall. intros w Hw. apply in_map_iff in Hw as (s & <- & Hs). pose proof (scanned_len _ _ US V4 s Hs) as [X Y]. pose proof Y as [Y' _].
    apply usable_window; [exact Y|lia|lia]. }
  pose proof (mCombine_call mds m MO UM) as [K1 R1]. unfold one in K1, R1. cbn [fst snd] in K1, R1.
  unfold mbind at 1. destruct (mCombine mds m) as [m1 o1] eqn:MC. cbn [fst snd] in K1, R1.
  destruct o1 as [md|e1|p1| |]; cbn [bind] in R1.
  2-5: destruct (Combine (map (mcontents m) mds)) as [c|?|?| |]; try discriminate R1; try inversion R1; subst; apply krOK_stop; [apply keepsBut_keeps; exact K1|reflexivity|discriminate].
  destruct R1 as (R1 & R2 & _). destruct (Combine (map (mcontents m) mds)) as [c|?|?| |] eqn:CM; try discriminate R1. cbn [bind map] in R1.
  assert (Ec : c = mcontents m1 md) by congruence. clear R1. pose proof (Forall_inv R2) as [FU FA]. rewrite Ec in CM |- *. clear Ec c. cbn [bind].
  pose proof K1 as (MO1 & L1 & _).
  set (c := mcontents m1 md) in *.
  assert (LC : length c = 20).
  { apply Combine_inv in CM as (L & X1 & X2 & X3 & _ & X5 & _). rewrite X5, interpAt_length.
    assert (L = 21); [|lia]. rewrite V3, map_length, map_length in X1. destruct (mcleanShares ss) as [|s r] eqn:EQ; [cbn in X1; lia|].
    rewrite <- (X3 (mcontents m (window s 0 21))) by (rewrite V3; left; reflexivity).
    assert (I : In s (mcleanShares ss)) by (rewrite EQ; left; reflexivity). rewrite <- EQ in V4. destruct (scanned_len _ _ US V4 s I) as [Y1 Y2]. pose proof Y2 as [Y3 _].
    rewrite usable_length by (apply usable_window; [exact Y2|lia|lia]). reflexivity. }
  assert (LM : sl_len md = 20) by (rewrite <- LC; symmetry; apply usable_length, FU).
  assert (CP : 20 <= sl_cap md) by (destruct FU as [X _]; lia).
  change LenKey with 16. rewrite LM.
  rewrite (mbind_ret _ _ _ _ _ (mslice_ok md 0 16 m1 ltac:(lia) ltac:(lia))). rewrite (mbind_ret _ _ _ _ _ (mslice_ok md 16 20 m1 ltac:(lia) ltac:(lia))).
  rewrite (slice_ok c 0 16) by lia. rewrite LC. rewrite (slice_ok c 16 20) by lia. cbn [bind].
  cbn [window sl_len]. rewrite firstn_length, skipn_length, LC. change (Nat.min (20 - 16) (20 - 16) <? 4) with false. change (20 - 16 <? 4) with false. cbv iota.
  assert (CL : mcontents m1 (window md 16 20) = firstn (20 - 16) (skipn 16 c)) by (apply contents_window; lia).
  change {| sl_arr := sl_arr md; sl_off := sl_off md + 16; sl_len := 20 - 16; sl_cap := sl_cap md - 16 |} with (window md 16 20).
  erewrite mbind_ret by reflexivity. rewrite CL. set (size := leNum (firstn 4 (firstn (20 - 16) (skipn 16 c)))).
  destruct (rsNew zp threshold (parts - threshold)) as [e1|] eqn:RSN.
  { apply krOK_stop; [apply keepsBut_keeps; exact K1|reflexivity|discriminate]. }
  (* the pieces, in the memory after shamir.Combine *)
  assert (UE1 : forall i, i < length e -> usable m1 (nth i e nilSlice) /\ mcontents m1 (nth i e nilSlice) = mcontents m (nth i e nilSlice)).
  { intros i Hi. apply keeps_usable; [exact K1|]. eapply scanned_usable; eassumption. }
  assert (CE : map (mcontents m1) e = map (mcontents m) e).
  { apply map_ext_in. intros w Hw. apply (In_nth _ _ nilSlice) in Hw as (i & Hi & <-). apply UE1, Hi. }
  destruct (mrsReconstructData_ok (Z.to_nat threshold) total e m1 ltac:(unfold total; lia) V2 (fun i Hi => proj1 (UE1 i Hi)) (scanned_apart m ss e US V4 SC AP)) as (h2 & o2 & F2 & S2 & V5).
  rewrite CE in V5. unfold mbind at 1. rewrite F2. clear F2.
  assert (S2' : bstep (in_stub ss) (m_heap m1) h2) by (eapply bstep_weaken; [exact S2|]; intros a k _; eapply scanned_behind; eassumption).
  destruct o2 as [sh|e2|p2| |]; [|rewrite V5; apply krOK_stop; [apply (keepsBut_of _ _ _ _ K1 S2')|reflexivity|discriminate]|destruct V5..].
  destruct V5 as (V5 & V6 & V7). rewrite V5. cbn [bind].
  unfold mbind at 1. cbn [setHeap m_heap]. change (map (mcontents (setHeap m1 h2)) sh) with (map (contents h2) sh).
  destruct (rsJoin (Z.to_nat threshold) (map (contents h2) sh) (N.to_nat size)) as [ct|e3|p3| |] eqn:RJ; cbn [bind].
  2-5: apply krOK_stop; [apply (keepsBut_of _ _ _ _ K1 S2')|reflexivity|discriminate].
  unfold alloc. rewrite setHeap_setHeap.
  set (ctS := {| sl_arr := length h2; sl_off := 0; sl_len := length ct; sl_cap := length ct |}). set (h3 := h2 ++ [ct]).
  change (mcontents (setHeap m1 h3) ctS) with (contents h3 ctS). change (mcontents (setHeap m1 h3) (window md 0 16)) with (contents h3 (window md 0 16)).
  assert (CT : contents h3 ctS = ct) by apply contents_alloc.
  assert (S3 : bstep (in_stub ss) (m_heap m1) h3) by (eapply bstep_trans; [exact S2'|apply (bstep_alloc (in_stub ss))|auto]).
  assert (CKEY : contents h3 (window md 0 16) = firstn (16 - 0) (skipn 0 c)).
  { assert (IK : inb (m_heap m1) (window md 0 16)) by (apply inb_window; [apply usable_inb; [exact FU|lia]|lia|lia]).
    rewrite (bstep_contents _ _ _ _ S3 IK); [apply contents_window; lia|]. intros k _ (s & Hs & L & Q & Hk). cbn [window sl_arr] in Q.
    destruct (US s Hs) as [_ X]. destruct (X ltac:(lia)) as (X1 & _). lia. }
  rewrite CT, CKEY. clear CT CKEY.
  destruct (decrypt E rd ct (firstn (16 - 0) (skipn 0 c))) as [out|e4|p4| |] eqn:DE.
  2-5: apply krOK_stop; [apply (keepsBut_of _ _ _ _ K1 S3)|reflexivity|discriminate].
  cbn [setHeap m_heap]. set (outS := {| sl_arr := length h3; sl_off := 0; sl_len := length out; sl_cap := length out |}). set (h4 := h3 ++ [out]).
  change (setHeap (setHeap m1 h3) h4) with (setHeap m1 h4).
  assert (S4 : bstep (in_stub ss) (m_heap m1) h4) by (eapply bstep_trans; [exact S3|apply (bstep_alloc (in_stub ss))|auto]).
  split; [split; [apply (keepsBut_of _ _ _ _ K1 S4)|]|]; cbn [fst snd].
  - split; [f_equal; symmetry; apply (contents_alloc h3 out)|]. apply fresh_setHeap; [exact MO1|exact L1|apply S3].
  - intros out' _. rewrite clean_map. unfold splitShares. fold (splitStep parts). eexists. eexists. split; [exact V1|].
    exists (map (contents h2) sh). split; [exact V5|]. intros pre s post Es Ls Ts NL Cs.
    set (i := tagAt m s) in *.
    assert (Hi : i < length e) by (rewrite V2; unfold total; lia).
    pose proof (scanned_stub m ss e SC pre s post Es Ls Hi NL) as Ne. fold i in Ne.
    destruct (V7 i Ts ltac:(rewrite Ne; reflexivity)) as [W1 W2].
    rewrite (nth_map' (contents h2) sh i [] nilSlice) in Cs |- * by lia. rewrite W1 in Cs |- *.
    rewrite Ne in W2. cbn [window sl_cap] in W2. specialize (W2 ltac:(lia)).
    assert (Us : usable m s) by (apply US; rewrite Es; apply in_or_app; right; left; reflexivity).
    assert (As : sl_arr s < length h2).
    { destruct Us as [_ X]. destruct (X ltac:(lia)) as (X1 & _). destruct S2 as (S2 & _). lia. }
    unfold bytesAt. cbn [setHeap m_heap]. unfold h4, h3. rewrite !nth_app_l by (rewrite ?app_length; lia).
    rewrite W2 at 2. unfold contents. cbn [window sl_arr sl_off sl_len]. rewrite Nat.add_0_r, Nat.sub_0_r. reflexivity.
Qed.
