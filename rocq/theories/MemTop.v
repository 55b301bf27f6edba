(** The calls of package shamir on memory: top level. *)
From Coq Require Import List NArith ZArith Lia Arith Bool Permutation.
From Coq.Init Require Import Byte.
From Verif Require Import GoSem Bytes Spec Galois GF Vector Csprng Pool Polynomial Shamir GoFacts VectorFacts PolynomialFacts SplitFacts CombineFacts RegenFacts RandomizerFacts Derived
  Memory MemCalls SpecMemCalls MemFacts MemSplit.
Import ListNotations.

Lemma usable_inb m s : usable m s -> 0 < sl_len s -> inb (m_heap m) s /\ ~ pooled m (sl_arr s).
Proof. intros [A B] L. destruct (B ltac:(lia)) as (C & D & E). split; [split; [exact C|lia]|exact E]. Qed.
Lemma usable_length m s : usable m s -> length (mcontents m s) = sl_len s.
Proof.
  intros U. destruct (Nat.eq_dec (sl_len s) 0) as [Z|Z]; [unfold mcontents, contents; rewrite Z; reflexivity|].
  apply contents_length. apply usable_inb; [exact U|lia].
Qed.

Lemma keeps_refl m : mem_ok m -> keeps m m.
Proof. intros H. split; [exact H|]. split; [lia|]. intros a _ N. split; [reflexivity|exact N]. Qed.

Lemma keeps_step m m' : mem_ok m' -> step (pooled m) (m_heap m) (m_heap m') -> (forall a, pooled m' a -> pooled m a \/ length (m_heap m) <= a) -> keeps m m'.
Proof.
  intros A B C. split; [exact A|]. split; [apply B|]. intros a L N. split; [apply B; assumption|].
  intros Q. apply C in Q as [Q|Q]; [exact (N Q)|lia].
Qed.

Lemma nextB_stale m : mem_ok m -> nextB m = nextStale m.
Proof.
  intros [F _]. unfold nextB, nextStale, arrayOf. unfold buffers in F. destruct (m_bpool m) as [|b r]; [reflexivity|].
  inversion F as [|x l B _]; subst. destruct (Nat.ltb_spec 0 (sl_cap b)) as [L|L].
  - destruct (B L) as (_ & _ & E). rewrite E. symmetry. apply firstn_all.
  - replace (sl_cap b) with 0 by lia. reflexivity.
Qed.

Lemma nth_wins o N n i : i < n -> nth i (map (win o N n) (seq 0 n)) nilSlice = win o N n i.
Proof. intros H. apply nth_map_seq, H. Qed.

Lemma wins_fresh m m' N n : length (m_heap m) < length (m_heap m') -> length (nth (length (m_heap m)) (m_heap m') []) = (N + 1) * n ->
  ~ pooled m' (length (m_heap m)) -> Forall (fresh m m') (map (win (length (m_heap m)) N n) (seq 0 n)) /\ separate (map (win (length (m_heap m)) N n) (seq 0 n)).
Proof.
  intros A B C. split.
  - apply Forall_forall. intros s J. apply in_map_iff in J as (i & <- & J). apply in_seq in J. cbn [Nat.add] in J.
    assert (HN : (N + 1) * i + N + 1 <= (N + 1) * n) by nia.
    split; [|cbn [win sl_arr]; lia]. split; cbn [win sl_arr sl_off sl_len sl_cap]; [lia|]. intros _. split; [exact A|]. split; [rewrite B; lia|exact C].
  - intros i j L J. rewrite map_length, seq_length in J. rewrite !nth_wins by lia. intros _. cbn [win sl_off sl_len]. nia.
Qed.

Lemma splitRest_split ar growcap perm stream polB trB evBufs secret parts threshold : checkArgs secret parts threshold = None ->
  SplitBufs ar growcap perm stream polB trB evBufs secret parts threshold =
  splitRest ar growcap (fun i d b => makePolynomialsWithBuff i d b stream) (map i2b perm) polB trB evBufs secret parts threshold.
Proof. intros H. unfold SplitBufs. rewrite H. reflexivity. Qed.
Lemma splitRest_randomizer fuel ar growcap ks xs polB trB evBufs secret parts threshold : checkArgs secret parts threshold = None ->
  GetUniqueBytes fuel ks (z2b parts) = Ret xs ->
  SplitWithRandomizerBufs fuel ar growcap ks polB trB evBufs secret parts threshold =
  splitRest ar growcap (fun i d b => makePolynomialsWithBuffAndRandomizer i d b ks) xs polB trB evBufs secret parts threshold.
Proof. intros H E. unfold SplitWithRandomizerBufs. rewrite H, E. reflexivity. Qed.

Lemma mSplit_call size ar growcap perm stream polB trB evBufs secret parts threshold m :
  grow_ok growcap -> length perm = 255 -> mem_ok m -> usable m secret ->
  call_ok m (mSplit size ar growcap perm stream secret parts threshold m) (Split ar growcap perm stream polB trB evBufs (mcontents m secret) parts threshold).
Proof.
  intros G LP MO U. unfold mSplit. destruct (checkArgs (mcontents m secret) parts threshold) as [e|] eqn:CK.
  - split; [apply keeps_refl, MO|]. cbn [snd]. unfold Split, SplitBufs. rewrite CK. reflexivity.
  - pose proof CK as (T & PP & NE)%checkArgs_None.
    assert (L0 : 0 < sl_len secret). { rewrite <- (usable_length m secret U). destruct (mcontents m secret); [congruence|cbn [length]; lia]. }
    destruct (usable_inb m secret U L0) as [IS NS].
    destruct (mSplitRest_ok size ar growcap (mMakePolynomialsWithBuff stream) (fun i d b => makePolynomialsWithBuff i d b stream) (map i2b perm) evBufs secret parts threshold m
      G MO IS NS L0 ltac:(lia) (fills_stream stream)) as (m' & tr & p & t & F & E & MO' & S & PL & LO & LA).
    { intros tr. rewrite <- splitRest_split by exact CK.
      destruct (SplitBufs_ok ar growcap perm stream (nextB m) tr evBufs (mcontents m secret) parts threshold G CK ltac:(lia)) as (a & b & E & _). eexists. exact E. }
    rewrite F. split; cbn [fst snd].
    + apply keeps_step; [exact MO'|exact S|]. intros a Q. apply PL in Q as [Q|Q]; [left; exact Q|right; lia].
    + rewrite <- splitRest_split in E by exact CK. split; [|apply wins_fresh; [exact LO|exact LA|]].
      * rewrite Split_ok by (try assumption; lia).
        pose proof (Split_ok ar growcap perm stream (nextB m) tr evBufs (mcontents m secret) parts threshold G CK ltac:(lia)) as E2.
        cbv zeta in E2. rewrite <- E2. unfold Split. rewrite E. reflexivity.
      * intros Q. apply PL in Q as [Q|Q]; [|lia]. apply (inv_lt [] m) in Q; [lia|exact MO].
Qed.

Lemma mSplitWithRandomizer_call size fuel ar growcap ks trB evBufs secret parts threshold m :
  grow_ok growcap -> mem_ok m -> usable m secret ->
  call_ok m (mSplitWithRandomizer size fuel ar growcap ks secret parts threshold m)
    (SplitWithRandomizer fuel ar growcap ks (nextStale m) trB evBufs (mcontents m secret) parts threshold).
Proof.
  intros G MO U. unfold mSplitWithRandomizer. destruct (checkArgs (mcontents m secret) parts threshold) as [e|] eqn:CK.
  - split; [apply keeps_refl, MO|]. cbn [snd]. unfold SplitWithRandomizer, SplitWithRandomizerBufs. rewrite CK. reflexivity.
  - destruct (GetUniqueBytes fuel ks (z2b parts)) as [xs|e|p| |] eqn:GU.
    2-5: unfold mbind, mlift; rewrite ?GU; (split; [apply keeps_refl, MO|]); cbn [snd]; unfold SplitWithRandomizer, SplitWithRandomizerBufs; rewrite CK, GU; reflexivity.
    unfold mlift. erewrite mbind_ret by reflexivity.
    pose proof CK as (T & PP & NE)%checkArgs_None.
    assert (L0 : 0 < sl_len secret). { rewrite <- (usable_length m secret U). destruct (mcontents m secret); [congruence|cbn [length]; lia]. }
    destruct (usable_inb m secret U L0) as [IS NS].
    destruct (GetUniqueBytes_inv _ _ _ _ GU) as (LX & _). rewrite b2i_z2b in LX by lia.
    destruct (mSplitRest_ok size ar growcap (mMakePolynomialsWithBuffAndRandomizer ks) (fun i d b => makePolynomialsWithBuffAndRandomizer i d b ks) xs evBufs secret parts threshold m
      G MO IS NS L0 ltac:(lia) (fills_randomizer ks)) as (m' & tr & p & t & F & E & MO' & S & PL & LO & LA).
    { intros tr. rewrite <- (splitRest_randomizer fuel) by assumption.
      destruct (SplitWithRandomizerBufs_ok fuel ar growcap ks (nextB m) tr evBufs (mcontents m secret) parts threshold xs G CK GU ltac:(lia)) as (a & b & E & _). eexists. exact E. }
    rewrite F. split; cbn [fst snd].
    + apply keeps_step; [exact MO'|exact S|]. intros a Q. apply PL in Q as [Q|Q]; [left; exact Q|right; lia].
    + rewrite <- (splitRest_randomizer fuel) in E by assumption. split; [|apply wins_fresh; [exact LO|exact LA|]].
      * assert (V : valid_args (mcontents m secret) parts threshold) by (apply valid_checkArgs; exact CK).
        rewrite (SWR_ok fuel ar growcap ks (nextStale m) trB evBufs _ _ _ xs) by assumption.
        pose proof (SWR_ok fuel ar growcap ks (nextB m) tr evBufs (mcontents m secret) parts threshold xs G V GU) as E2.
        rewrite <- (nextB_stale m MO). rewrite <- E2. unfold SplitWithRandomizer. rewrite E. reflexivity.
      * intros Q. apply PL in Q as [Q|Q]; [|lia]. apply (inv_lt [] m) in Q; [lia|exact MO].
Qed.

(** ** Combine *)
Definition readable (m : memory) (parts : list gslice) : Prop := forall p, In p parts -> length (mcontents m p) = sl_len p.

Lemma mCollectTags_eq m parts : readable m parts -> forall L seen, mCollectTags L seen parts m = (m, collectTags L seen (map (mcontents m) parts)).
Proof.
  induction parts as [|p ps IH]; intros R L seen; [reflexivity|]. cbn [mCollectTags map collectTags]. unfold mbind at 1.
  rewrite mload_ok by (apply R; left; reflexivity). destruct (idx (mcontents m p) (L - 1)) as [v|e|q| |]; cbn [bind]; try reflexivity.
  destruct (mem v seen); [reflexivity|]. unfold mbind. rewrite IH by (intros x Hx; apply R; right; exact Hx).
  destruct (collectTags L (v :: seen) (map (mcontents m) ps)); reflexivity.
Qed.
Lemma mColumn_eq m parts : readable m parts -> forall j, mColumn j parts m = (m, column j (map (mcontents m) parts)).
Proof.
  induction parts as [|p ps IH]; intros R j; [reflexivity|]. cbn [mColumn map column]. unfold mbind at 1.
  rewrite mload_ok by (apply R; left; reflexivity). destruct (idx (mcontents m p) j) as [v|e|q| |]; cbn [bind]; try reflexivity.
  unfold mbind. rewrite IH by (intros x Hx; apply R; right; exact Hx).
  destruct (column j (map (mcontents m) ps)); reflexivity.
Qed.

Lemma mInterpolateAll_ok n parts xs x out m r : inb (m_heap m) out ->
  (forall p, In p parts -> inb (m_heap m) p /\ sl_arr p <> sl_arr out) ->
  interpolateAll n (map (mcontents m) parts) xs x (mcontents m out) = Ret r ->
  exists h', mInterpolateAll n parts xs x out m = (setHeap m h', Ret tt) /\ contents h' out = r /\ step (eq (sl_arr out)) (m_heap m) h' /\ length h' = length (m_heap m).
Proof.
  intros IO IP E. unfold interpolateAll in E. unfold mInterpolateAll.
  set (R := fun (t : list byte) (s : unit) (m' : memory) => exists h', m' = setHeap m h' /\ contents h' out = t /\ step (eq (sl_arr out)) (m_heap m) h' /\ length h' = length (m_heap m)).
  match goal with |- context [mforeach _ ?f _] => edestruct (mforeach_sim (X := nat) R f) as (m' & [] & F & R'); [| |exact E|] end.
  2: { exists (m_heap m). rewrite setHeap_same. split; [reflexivity|]. split; [reflexivity|]. split; [apply step_refl|reflexivity]. }
  2: { destruct R' as (h' & -> & C & S). exists h'. split; [exact F|]. split; assumption. }
  intros j t [] m1 t' _ (h1 & -> & C1 & S1 & LL) G. cbv beta. apply bind_inv in G as (ys & G1 & G). apply bind_inv in G as (v & G2 & G).
  apply upd_inv in G as (H3 & G3). pose proof (step_inb _ _ _ _ S1 IO) as IO1. pose proof (contents_length _ _ IO1) as LO1. rewrite C1 in LO1.
  assert (CP : map (mcontents (setHeap m h1)) parts = map (mcontents m) parts).
  { apply map_ext_in. intros p Hp. destruct (IP p Hp) as [I N]. apply (step_contents _ _ _ _ S1); [apply I|]. intros Q. apply N. symmetry. exact Q. }
  assert (RD : readable (setHeap m h1) parts).
  { intros p Hp. apply contents_length. eapply step_inb; [exact S1|]. apply IP, Hp. }
  erewrite mbind_ret by (rewrite mColumn_eq by exact RD; rewrite CP, G1; reflexivity).
  unfold mlift. rewrite G2. erewrite mbind_ret by reflexivity.
  rewrite mstore_ok by lia. eexists. exists tt. split; [reflexivity|].
  exists (hwrite h1 (sl_arr out) (sl_off out + j) [v]). split; [reflexivity|]. split.
  - rewrite contents_hwrite by (try exact IO1; cbn [length]; lia). rewrite C1, G3, set_splice. reflexivity.
  - split; [|rewrite hwrite_length by apply IO1; exact LL].
    eapply step_trans; [exact S1|apply step_hwrite; [apply IO1|destruct IO1; cbn [length]; lia]|]. intros a _ Q. exact Q.
Qed.

Lemma first_len m parts : readable m parts -> length (nth 0 (map (mcontents m) parts) []) = sl_len (nth 0 parts nilSlice).
Proof. intros R. destruct parts as [|p ps]; [reflexivity|]. cbn [map nth]. apply R. left. reflexivity. Qed.

Lemma keeps_alloc m h : mem_ok m -> step (fun _ => False) (m_heap m) h -> keeps m (setHeap m h).
Proof.
  intros MO S. apply keeps_step.
  - apply (inv_step [] m (setHeap m h) (fun _ => False)); [exact S|reflexivity|exact MO].
  - eapply step_weaken; [exact S|]. cbv beta. tauto.
  - intros a Q. left. exact Q.
Qed.

Lemma parts_inb m parts : Forall (usable m) parts -> okParts (map (mcontents m) parts) ->
  forall p, In p parts -> inb (m_heap m) p /\ ~ pooled m (sl_arr p) /\ sl_len p = sl_len (nth 0 parts nilSlice).
Proof.
  intros U (A & B & C) p Hp. rewrite Forall_forall in U. pose proof (U p Hp) as Up.
  assert (R : readable m parts) by (intros q Hq; apply usable_length, U, Hq).
  pose proof (C (mcontents m p) (in_map _ _ _ Hp)) as D. rewrite first_len in B, D by exact R. rewrite (R p Hp) in D.
  destruct (usable_inb m p Up ltac:(lia)) as [X Y]. auto.
Qed.

(** a new array, written afterwards *)
Lemma fresh_alloc m h n : step (fun _ => False) (m_heap m) h -> length (m_heap m) < length h -> length (nth (length (m_heap m)) h []) = n ->
  mem_ok m -> fresh m (setHeap m h) {| sl_arr := length (m_heap m); sl_off := 0; sl_len := n; sl_cap := n |}.
Proof.
  intros S L E MO. split; [|cbn [sl_arr]; lia]. split; cbn [sl_len sl_cap sl_arr sl_off]; [lia|]. intros _. split; [exact L|]. split; [cbn [setHeap m_heap]; lia|].
  intros Q. apply (inv_lt [] m) in Q; [lia|exact MO].
Qed.

Lemma mCombine_call parts m : mem_ok m -> Forall (usable m) parts ->
  call_ok m (one (mCombine parts m)) (do r <- Combine (map (mcontents m) parts); Ret [r]).
Proof.
  intros MO U. unfold mCombine, Combine. assert (R : readable m parts) by (intros q Hq; rewrite Forall_forall in U; apply usable_length, U, Hq).
  destruct (checkParts (map (mcontents m) parts)) as [e|] eqn:CK.
  - split; [apply keeps_refl, MO|reflexivity].
  - pose proof CK as OK. apply checkParts_None in OK. cbv zeta. rewrite first_len by exact R. set (L := sl_len (nth 0 parts nilSlice)) in *.
    assert (L2 : 2 <= L) by (destruct OK as (_ & B & _); rewrite first_len in B by exact R; exact B).
    pose proof (parts_inb m parts U OK) as PI.
    set (s := {| sl_arr := length (m_heap m); sl_off := 0; sl_len := L - 1; sl_cap := L - 1 |}).
    set (h1 := m_heap m ++ [zeros (L - 1)]).
    assert (F1 : mmake (L - 1) m = (setHeap m h1, Ret s)) by (unfold mmake, alloc; rewrite zeros_length; reflexivity).
    rewrite (mbind_ret _ _ _ _ _ F1). clear F1.
    assert (S1 : step (fun _ => False) (m_heap m) h1) by apply step_alloc.
    assert (CP : map (mcontents (setHeap m h1)) parts = map (mcontents m) parts).
    { apply map_ext_in. intros p Hp. apply (step_contents _ _ _ _ S1); [apply PI, Hp|tauto]. }
    assert (RD : readable (setHeap m h1) parts).
    { intros p Hp. apply contents_length. eapply step_inb; [exact S1|]. apply PI, Hp. }
    pose proof (mCollectTags_eq (setHeap m h1) parts RD L []) as F2. rewrite CP in F2.
    assert (LP : forall p, In p (map (mcontents m) parts) -> length p = L).
    { intros p Hp. apply in_map_iff in Hp as (q & <- & Hq). rewrite (R q Hq). apply PI, Hq. }
    destruct (ListDec.NoDup_dec byte_eq_dec (map tag (map (mcontents m) parts))) as [ND|ND].
    + rewrite collectTags_ok in F2 |- * by (assumption || lia). rewrite (mbind_ret _ _ _ _ _ F2). clear F2. cbn [bind].
      destruct (interpolateAll_ok (map (mcontents m) parts) L x00 (zeros (L - 1)) LP ND ltac:(lia) ltac:(rewrite zeros_length; lia)) as (o & E & Lo & _).
      destruct (mInterpolateAll_ok (L - 1) parts (map tag (map (mcontents m) parts)) x00 s (setHeap m h1) o) as (h2 & F3 & C3 & S3 & _).
      { split; cbn [s sl_arr sl_off sl_len setHeap m_heap]; unfold h1; [rewrite app_length; cbn [length]; lia|]. rewrite app_nth2, Nat.sub_diag by lia. cbn [nth]. rewrite zeros_length. lia. }
      { intros p Hp. destruct (PI p Hp) as (I & _). split; [eapply step_inb; [exact S1|exact I]|]. destruct I as [I _]. cbn [s sl_arr]. lia. }
      { rewrite CP. unfold mcontents at 3. cbn [setHeap m_heap]. unfold h1, s. unfold contents. cbn [sl_arr sl_off sl_len skipn]. rewrite app_nth2, Nat.sub_diag by lia. cbn [nth].
        rewrite firstn_all2 by (rewrite zeros_length; lia). exact E. }
      rewrite (mbind_ret _ _ _ _ _ F3). unfold mret, one. cbn [fst snd bind]. rewrite setHeap_setHeap in *. cbn [setHeap m_heap] in S3.
      assert (S2 : step (fun _ => False) (m_heap m) h2).
      { eapply step_trans; [exact S1|exact S3|]. intros a La Q. cbn [s sl_arr] in Q. lia. }
      rewrite E. cbn [bind]. split; [apply keeps_alloc; assumption|]. cbn [snd fst]. split; [|split].
      * cbn [map]. unfold mcontents. cbn [setHeap m_heap]. rewrite C3. reflexivity.
      * constructor; [|constructor]. apply fresh_alloc; [exact S2| | |exact MO].
        -- destruct S3 as (Q & _). unfold h1 in Q. rewrite app_length in Q. cbn [length] in Q. lia.
        -- rewrite (proj1 (proj2 S3)) by (unfold h1; rewrite app_length; cbn [length]; lia). unfold h1. rewrite app_nth2, Nat.sub_diag by lia. cbn [nth]. apply zeros_length.
      * intros i j Hi Hj. cbn [length] in Hj. lia.
    + rewrite collectTags_dup in F2 |- * by (assumption || lia). unfold mbind at 1. rewrite F2. cbn [bind one fst snd].
      split; [apply keeps_alloc; assumption|reflexivity].
Qed.

(** ** Regenerate *)
Lemma mRegenerate_call fuel stream u parts num m : mem_ok m -> Forall (usable m) parts ->
  call_ok m (mRegenerate fuel stream u parts num m) (Regenerate fuel stream u (map (mcontents m) parts) num).
Proof.
  intros MO U. unfold mRegenerate, Regenerate. assert (R : readable m parts) by (intros q Hq; rewrite Forall_forall in U; apply usable_length, U, Hq).
  destruct (checkParts (map (mcontents m) parts)) as [e|] eqn:CK.
  - split; [apply keeps_refl, MO|reflexivity].
  - pose proof CK as OK. apply checkParts_None in OK. cbv zeta. rewrite first_len by exact R. set (L := sl_len (nth 0 parts nilSlice)) in *.
    assert (L2 : 2 <= L) by (destruct OK as (_ & B & _); rewrite first_len in B by exact R; exact B).
    pose proof (parts_inb m parts U OK) as PI.
    unfold make_len. destruct (Z.ltb_spec num 0) as [Hn|Hn]; [split; [apply keeps_refl, MO|reflexivity]|].
    set (k := Z.to_nat num). unfold mlift at 1. erewrite mbind_ret by reflexivity. cbn [bind].
    pose proof (mCollectTags_eq m parts R L []) as F2.
    assert (LP : forall p, In p (map (mcontents m) parts) -> length p = L).
    { intros p Hp. apply in_map_iff in Hp as (q & <- & Hq). rewrite (R q Hq). apply PI, Hq. }
    destruct (ListDec.NoDup_dec byte_eq_dec (map tag (map (mcontents m) parts))) as [ND|ND].
    2:{ rewrite collectTags_dup in F2 |- * by (assumption || lia). unfold mbind at 1. rewrite F2. split; [apply keeps_refl, MO|reflexivity]. }
    rewrite collectTags_ok in F2 |- * by (assumption || lia). rewrite (mbind_ret _ _ _ _ _ F2). clear F2. cbn [bind].
    destruct (dedupLoop fuel u (map tag (map (mcontents m) parts)) (take_stream stream k)) as [d|e|p| |] eqn:DL;
      try (unfold mbind, mlift; split; [apply keeps_refl, MO|reflexivity]).
    unfold mlift at 1. erewrite mbind_ret by reflexivity. cbn [bind].
    pose proof (regen_loop (map (mcontents m) parts) L (take_stream stream k) LP ND L2) as E. rewrite take_stream_length in E.
    set (o := length (m_heap m)).
    set (sl := fun i => {| sl_arr := o + i; sl_off := 0; sl_len := L; sl_cap := L |}).
    set (Rel := fun (i : nat) (t : list (list byte)) (out : list gslice) (m' : memory) => out = map sl (seq 0 i) /\ length t = k /\
      exists h', m' = setHeap m h' /\ length h' = o + i /\ (forall j, j < i -> nth (o + j) h' [] = nth j t [] /\ length (nth j t []) = L) /\ step (fun _ => False) (m_heap m) h').
    rewrite E.
    match goal with |- context [mforeach _ ?f _] => edestruct (mforeach_seq Rel f) as (m4 & s4 & F4 & R4); [| |exact E|] end.
    2: { split; [reflexivity|]. split; [apply repeat_length|]. exists (m_heap m). rewrite setHeap_same. split; [reflexivity|]. split; [unfold o; lia|].
         split; [intros j Hj; lia|apply step_refl]. }
    { intros i t out m' t' Hi (-> & Lt & h' & -> & Lh & A & S) G. cbv beta.
      apply bind_inv in G as (nx & G1 & G). apply bind_inv in G as (s0 & G2 & G). apply bind_inv in G as (s1 & G3 & G). apply upd_inv in G as (H4 & G4).
      apply upd_inv in G2 as (H2 & G2).
      set (h1 := h' ++ [zeros L]).
      assert (F1 : mmake L (setHeap m h') = (setHeap m h1, Ret (sl i))).
      { unfold mmake, alloc. cbn [setHeap m_heap]. rewrite zeros_length, Lh. reflexivity. }
      rewrite (mbind_ret _ _ _ _ _ F1). clear F1. unfold mlift. rewrite G1. erewrite mbind_ret by reflexivity.
      rewrite (mbind_ret _ _ _ _ _ (mstore_ok (sl i) (L - 1) nx _ ltac:(cbn [sl sl_len]; lia))).
      set (h2 := hwrite h1 (o + i) (0 + (L - 1)) [nx]).
      assert (L1 : length h1 = o + i + 1) by (unfold h1; rewrite app_length; cbn [length]; lia).
      assert (N1 : nth (o + i) h1 [] = zeros L) by (unfold h1; rewrite app_nth2, Lh, Nat.sub_diag by lia; reflexivity).
      assert (S2 : step (eq (o + i)) h1 h2) by (apply step_hwrite; [lia|rewrite N1, zeros_length; cbn [length]; lia]).
      assert (N2 : nth (o + i) h2 [] = s0).
      { unfold h2. rewrite nth_hwrite by lia. rewrite Nat.eqb_refl, N1, G2. symmetry. apply (set_splice (zeros L)). }
      assert (L0 : length s0 = L) by (rewrite G2, set_length by (rewrite zeros_length; lia); apply zeros_length).
      assert (S02 : step (fun _ => False) (m_heap m) h2).
      { eapply step_trans; [eapply step_trans; [exact S|apply (step_alloc (fun _ => False))|cbv beta; tauto]|exact S2|]. intros a La Q. unfold o in Q. lia. }
      change (setHeap (setHeap m h1) (hwrite (m_heap (setHeap m h1)) (sl_arr (sl i)) (sl_off (sl i) + (L - 1)) [nx])) with (setHeap m h2).
      assert (CP : map (mcontents (setHeap m h2)) parts = map (mcontents m) parts).
      { apply map_ext_in. intros p Hp. apply (step_contents _ _ _ _ S02); [apply PI, Hp|cbv beta; tauto]. }
      destruct (mInterpolateAll_ok (L - 1) parts (map tag (map (mcontents m) parts)) nx (sl i) (setHeap m h2) s1) as (h3 & F3 & C3 & S3 & LL3).
      { split; cbn [sl sl_arr sl_off sl_len setHeap m_heap]; [unfold h2; rewrite hwrite_length; lia|]. rewrite N2, L0. lia. }
      { intros p Hp. destruct (PI p Hp) as (I & _). split; [eapply step_inb; [exact S02|exact I]|]. destruct I as [I _]. cbn [sl sl_arr]. unfold o. lia. }
      { rewrite CP. unfold mcontents at 3. unfold contents. cbn [sl sl_arr sl_off sl_len setHeap m_heap skipn]. rewrite N2, firstn_all2 by lia. exact G3. }
      rewrite (mbind_ret _ _ _ _ _ F3). unfold mret. rewrite setHeap_setHeap. cbn [setHeap m_heap sl sl_arr] in S3.
      assert (Lh3 : length h3 = o + i + 1).
      { rewrite LL3. cbn [setHeap m_heap]. unfold h2. rewrite hwrite_length; lia. }
      assert (N3 : nth (o + i) h3 [] = s1).
      { assert (Z : length (nth (o + i) h3 []) = L) by (rewrite (proj1 (proj2 S3)) by (unfold h2; rewrite hwrite_length; lia); rewrite N2; exact L0).
        rewrite <- C3. unfold contents. cbn [sl sl_arr sl_off sl_len skipn]. rewrite firstn_all2 by lia. reflexivity. }
      assert (LS1 : length s1 = L).
      { rewrite <- N3. rewrite (proj1 (proj2 S3)) by (unfold h2; rewrite hwrite_length; lia). rewrite N2. exact L0. }
      eexists. eexists. split; [reflexivity|]. split; [rewrite seq_S, map_app; reflexivity|]. split; [rewrite G4, set_length by lia; exact Lt|].
      exists h3. split; [reflexivity|]. split; [lia|]. split.
      - intros j Hj. rewrite G4, nth_set by lia. destruct (Nat.eqb_spec j i) as [->|Hne]; [split; [exact N3|exact LS1]|].
        destruct (A j ltac:(lia)) as [A1 A2]. split; [|exact A2]. rewrite <- A1.
        rewrite (proj2 (proj2 S3)); [|unfold h2; rewrite hwrite_length; lia|lia].
        unfold h2. rewrite nth_hwrite by lia. destruct (Nat.eqb_spec (o + j) (o + i)); [lia|]. unfold h1. apply app_nth1. lia.
      - eapply step_trans; [exact S02|exact S3|]. intros a La Q. unfold o in Q. lia. }
    destruct R4 as (-> & Lt & h' & -> & Lh & A & S). cbn [seq map Nat.add] in F4. cbn [Nat.add] in *. rewrite F4. split; [apply keeps_alloc; assumption|]. cbn [fst snd].
    split; [|split].
    + f_equal. apply nth_ext with [] []; [rewrite !map_length, seq_length, take_stream_length; reflexivity|].
      intros j Hj. rewrite Lt in Hj. rewrite map_map, nth_map_seq by exact Hj. destruct (A j Hj) as [A1 A2]. rewrite <- A1 in A2 |- *.
      unfold mcontents, contents. cbn [sl sl_arr sl_off sl_len skipn setHeap m_heap]. symmetry. apply firstn_all2. lia.
    + apply Forall_forall. intros s J. apply in_map_iff in J as (j & <- & J). apply in_seq in J. destruct (A j ltac:(lia)) as [A1 A2].
      split; [|cbn [sl sl_arr]; unfold o; lia]. split; cbn [sl sl_arr sl_off sl_len sl_cap]; [lia|]. intros _. cbn [setHeap m_heap]. split; [lia|]. split; [rewrite A1; lia|].
      intros Q. apply (inv_lt [] m) in Q; [unfold o in Q; lia|exact MO].
    + intros i j Hi Hj. rewrite map_length, seq_length in Hj. rewrite !nth_map_seq by lia. cbn [sl sl_arr]. lia.
Qed.

(** ** SplitGeneric *)
Lemma mSplitGeneric_call perm stream secret parts threshold m : length perm = 255 -> mem_ok m -> usable m secret ->
  call_ok m (mSplitGeneric perm stream secret parts threshold m) (SplitGeneric perm stream (mcontents m secret) parts threshold).
Proof.
  intros LP MO U. unfold mSplitGeneric. destruct (checkArgs (mcontents m secret) parts threshold) as [e|] eqn:CK.
  { split; [apply keeps_refl, MO|]. cbn [snd]. unfold SplitGeneric. rewrite CK. reflexivity. }
  pose proof CK as (T & PP & NE)%checkArgs_None.
  pose proof (SplitGeneric_ok perm stream (mcontents m secret) parts threshold CK ltac:(lia)) as EE. cbv zeta in EE.
  match type of EE with _ = Ret ?x => remember x as shares eqn:SH end. clear SH. rewrite EE.
  unfold SplitGeneric in EE. rewrite CK in EE. cbv zeta in EE. rewrite (usable_length m secret U) in EE.
  set (xs := map i2b perm) in *. set (N := sl_len secret) in *. set (n := Z.to_nat parts) in *. cbv zeta.
  assert (L0 : 0 < N). { unfold N. rewrite <- (usable_length m secret U). destruct (mcontents m secret); [congruence|cbn [length]; lia]. }
  destruct (usable_inb m secret U L0) as [IS NS].
  apply bind_inv in EE as (rows & E1 & EE). apply bind_inv in EE as (pl & E2 & EE). apply bind_inv in EE as (co & E3 & E4).
  set (o := length (m_heap m)).
  set (sl := fun i => {| sl_arr := o + i; sl_off := 0; sl_len := N + 1; sl_cap := N + 1 |}).
  (* layout *)
  set (R1 := fun (i : nat) (t : list (list byte)) (out : list gslice) (m' : memory) => out = map sl (seq 0 i) /\ length t = n /\
    exists h', m' = setHeap m h' /\ length h' = o + i /\ (forall j, j < i -> nth (o + j) h' [] = nth j t [] /\ length (nth j t []) = N + 1) /\ step (fun _ => False) (m_heap m) h').
  unfold layoutRows in E1.
  match goal with |- context [mforeach _ ?f []] => edestruct (mforeach_seq R1 f) as (m1 & s1 & F1 & Q1); [| |exact E1|] end.
  2: { split; [reflexivity|]. split; [apply repeat_length|]. exists (m_heap m). rewrite setHeap_same. split; [reflexivity|]. split; [unfold o; lia|].
       split; [intros j Hj; lia|apply step_refl]. }
  { intros i t out m' t' Hi (-> & Lt & h' & -> & Lh & A & S) G. cbv beta.
    apply bind_inv in G as (tg & G1 & G). apply bind_inv in G as (w & G2 & G). apply upd_inv in G2 as (H2 & G2). apply upd_inv in G as (H3 & G3).
    set (h1 := h' ++ [zeros (N + 1)]).
    assert (F1 : mmake (N + 1) (setHeap m h') = (setHeap m h1, Ret (sl i))).
    { unfold mmake, alloc. cbn [setHeap m_heap]. rewrite zeros_length, Lh. reflexivity. }
    rewrite (mbind_ret _ _ _ _ _ F1). clear F1. unfold mlift. rewrite G1. erewrite mbind_ret by reflexivity.
    rewrite (mbind_ret _ _ _ _ _ (mstore_ok (sl i) N tg _ ltac:(cbn [sl sl_len]; lia))). unfold mret.
    set (h2 := hwrite h1 (o + i) (0 + N) [tg]).
    assert (L1 : length h1 = o + i + 1) by (unfold h1; rewrite app_length; cbn [length]; lia).
    assert (N1 : nth (o + i) h1 [] = zeros (N + 1)) by (unfold h1; rewrite app_nth2, Lh, Nat.sub_diag by lia; reflexivity).
    assert (S2 : step (eq (o + i)) h1 h2) by (apply step_hwrite; [lia|rewrite N1, zeros_length; cbn [length]; lia]).
    assert (N2 : nth (o + i) h2 [] = w).
    { unfold h2. rewrite nth_hwrite by lia. rewrite Nat.eqb_refl, N1, G2. symmetry. apply (set_splice (zeros (N + 1))). }
    assert (Lw : length w = N + 1) by (rewrite G2, set_length by (rewrite zeros_length; lia); apply zeros_length).
    eexists. eexists. split; [reflexivity|]. split; [rewrite seq_S, map_app; reflexivity|]. split; [rewrite G3, set_length by lia; exact Lt|].
    exists h2. split; [reflexivity|]. split; [unfold h2; rewrite hwrite_length; lia|]. split.
    - intros j Hj. rewrite G3, nth_set by lia. destruct (Nat.eqb_spec j i) as [->|Hne]; [split; [exact N2|exact Lw]|].
      destruct (A j ltac:(lia)) as [A1 A2]. split; [|exact A2]. rewrite <- A1.
      unfold h2. rewrite nth_hwrite by lia. destruct (Nat.eqb_spec (o + j) (o + i)); [lia|]. unfold h1. apply app_nth1. lia.
    - eapply step_trans; [eapply step_trans; [exact S|apply (step_alloc (fun _ => False))|cbv beta; tauto]|exact S2|]. intros a La Q. unfold o in Q. lia. }
  rewrite (mbind_ret _ _ _ _ _ F1). clear F1. destruct Q1 as (-> & Lt & h1 & -> & Lh & A & S). cbn [Nat.add] in *.
  (* coefficients *)
  assert (CS : mcontents (setHeap m h1) secret = mcontents m secret) by (apply (step_contents _ _ _ _ S); [apply IS|cbv beta; tauto]).
  erewrite mbind_ret by (cbv beta; rewrite CS, E2; cbn [bind]; rewrite E3; reflexivity).
  (* evaluation *)
  set (R2 := fun (i : nat) (t : list (list byte)) (_ : unit) (m' : memory) => length t = n /\
    exists h', m' = setHeap m h' /\ length h' = o + n /\ (forall j, j < n -> nth (o + j) h' [] = nth j t [] /\ length (nth j t []) = N + 1) /\ step (fun _ => False) (m_heap m) h').
  match goal with |- context [mforeach _ ?f tt] => edestruct (mforeach_seq R2 f) as (m2 & s2 & F2 & Q2); [| |exact E4|] end.
  2: { split; [exact Lt|]. exists h1. split; [reflexivity|]. split; [exact Lh|]. split; assumption. }
  { intros i t [] m' t' Hi (Lt' & h' & -> & Lh' & A' & S') G. cbv beta. cbn [Nat.add] in Hi.
    apply bind_inv in G as (x & G1 & G). apply bind_inv in G as (w & G2 & G). apply bind_inv in G as (w' & G3 & G). apply upd_inv in G as (H4 & G4).
    apply (idx_inv _ _ _ []) in G2 as (H2 & G2).
    unfold mlift. rewrite G1. erewrite mbind_ret by reflexivity.
    rewrite (idx_ok _ i nilSlice) by (rewrite map_length, seq_length; lia). erewrite mbind_ret by reflexivity. rewrite nth_map_seq by lia.
    destruct (A' i ltac:(lia)) as [A1 A2].
    assert (CW : mcontents (setHeap m h') (sl i) = w).
    { unfold mcontents, contents. cbn [sl sl_arr sl_off sl_len skipn setHeap m_heap]. rewrite A1, firstn_all2 by lia. symmetry. exact G2. }
    rewrite CW, G3, mwrite_ok. cbn [sl sl_arr sl_off setHeap m_heap].
    assert (LW : length w' = N + 1).
    { unfold genericEvaluatePolynomialsAt in G3. apply bind_inv in G3 as (c0 & _ & G3). apply bind_inv in G3 as (tp & _ & G3). apply bind_inv in G3 as (rs & _ & G3).
      apply bind_inv in G3 as (wd & G5 & G3). apply slice_inv in G5 as (_ & G6 & G5). inversion G3. rewrite splice_length; [rewrite <- CW; apply contents_length; split; cbn [sl sl_arr sl_off sl_len setHeap m_heap]; [lia|rewrite A1; lia]|].
      rewrite gocopy_length, G5, firstn_length, skipn_length. lia. }
    eexists. exists tt. split; [reflexivity|]. split; [rewrite G4, set_length by lia; exact Lt'|].
    exists (hwrite h' (o + i) 0 w'). split; [reflexivity|]. split; [rewrite hwrite_length; lia|]. split.
    - intros j Hj. rewrite G4, nth_set by lia. rewrite nth_hwrite by lia.
      destruct (Nat.eqb_spec j i) as [->|Hne].
      + rewrite Nat.eqb_refl. split; [|exact LW]. apply splice_0. rewrite A1. lia.
      + destruct (Nat.eqb_spec (o + j) (o + i)); [lia|]. apply A', Hj.
    - eapply step_trans; [exact S'|apply step_hwrite; [lia|rewrite A1; lia]|]. intros a La Q. unfold o in Q. lia. }
  rewrite (mbind_ret _ _ _ _ _ F2). clear F2. unfold mret. destruct Q2 as (Lt2 & h2 & -> & Lh2 & A2 & S2).
  split; [apply keeps_alloc; assumption|]. cbn [fst snd]. split; [|split].
  - f_equal. apply nth_ext with [] []; [rewrite !map_length, seq_length; exact Lt2|].
    intros j Hj. rewrite Lt2 in Hj. rewrite map_map, nth_map_seq by exact Hj. destruct (A2 j Hj) as [B1 B2]. rewrite <- B1 in B2 |- *.
    unfold mcontents, contents. cbn [sl sl_arr sl_off sl_len skipn setHeap m_heap]. symmetry. apply firstn_all2. lia.
  - apply Forall_forall. intros s J. apply in_map_iff in J as (j & <- & J). apply in_seq in J. destruct (A2 j ltac:(lia)) as [B1 B2].
    split; [|cbn [sl sl_arr]; unfold o; lia]. split; cbn [sl sl_arr sl_off sl_len sl_cap]; [lia|]. intros _. cbn [setHeap m_heap]. split; [lia|]. split; [rewrite B1; lia|].
    intros Q. apply (inv_lt [] m) in Q; [unfold o in Q; lia|exact MO].
  - intros i j Hi Hj. rewrite map_length, seq_length in Hj. rewrite !nth_map_seq by lia. cbn [sl sl_arr]. lia.
Qed.

(** ** Client programs *)
Lemma usable_nil m : usable m nilSlice.
Proof. split; cbn; lia. Qed.
Lemma usable_nthSlice m env k : Forall (usable m) env -> usable m (nthSlice env k).
Proof.
  intros F. unfold nthSlice. destruct (Nat.lt_ge_cases k (length env)) as [L|L]; [rewrite Forall_forall in F; apply F, nth_In, L|].
  rewrite nth_overflow by exact L. apply usable_nil.
Qed.
Lemma keeps_usable m m' s : keeps m m' -> usable m s -> usable m' s /\ mcontents m' s = mcontents m s.
Proof.
  intros (MO & L & K) [A B]. destruct (Nat.eq_dec (sl_cap s) 0) as [Z|Z].
  - split; [split; [exact A|lia]|]. unfold mcontents, contents. replace (sl_len s) with 0 by lia. reflexivity.
  - destruct (B ltac:(lia)) as (C & D & E). destruct (K _ C E) as [K1 K2]. split.
    + split; [exact A|]. intros _. split; [lia|]. rewrite K1. split; assumption.
    + apply contents_same. exact K1.
Qed.

Lemma callOf_ok size ar growcap op env m call stale : grow_ok growcap -> op_ok op -> mem_ok m -> Forall (usable m) env -> stale = nextStale m ->
  callOf size ar growcap env op = Some call ->
  exists v, valueOf ar growcap stale (map (mcontents m) env) op = Some v /\ call_ok m (call m) v.
Proof.
  intros G OK MO U -> E.
  assert (NV : forall k, nth k (map (mcontents m) env) [] = mcontents m (nthSlice env k)).
  { intros k. unfold nthSlice. destruct (Nat.lt_ge_cases k (length env)) as [L|L].
    - apply (nth_map' (mcontents m) env k [] nilSlice L).
    - rewrite !nth_overflow by (rewrite ?map_length; exact L). reflexivity. }
  assert (NM : forall ps, map (fun p => nth p (map (mcontents m) env) []) ps = map (mcontents m) (map (nthSlice env) ps)).
  { intros ps. rewrite map_map. apply map_ext. exact NV. }
  assert (UM : forall ps, Forall (usable m) (map (nthSlice env) ps)).
  { intros ps. apply Forall_forall. intros s J. apply in_map_iff in J as (p & <- & _). apply usable_nthSlice, U. }
  destruct op; cbn [callOf] in E; try discriminate E; inversion E; subst call; clear E; cbn [valueOf op_ok] in *; eexists; (split; [reflexivity|]); rewrite ?NM, ?NV.
  - apply mSplit_call; try assumption. apply usable_nthSlice, U.
  - apply mSplitWithRandomizer_call; try assumption. apply usable_nthSlice, U.
  - apply mSplitGeneric_call; try assumption. apply usable_nthSlice, U.
  - apply mCombine_call; [assumption|apply UM].
  - apply mRegenerate_call; [assumption|apply UM].
Qed.

Lemma usable_hwrite m a o l s : ~ pooled m a -> a < length (m_heap m) -> o + length l <= length (nth a (m_heap m) []) ->
  usable m s -> usable (setHeap m (hwrite (m_heap m) a o l)) s.
Proof.
  intros NP L B [X Y]. split; [exact X|]. intros C. destruct (Y C) as (Y1 & Y2 & Y3). cbn [setHeap m_heap]. rewrite hwrite_length by exact L.
  split; [exact Y1|]. split; [|exact Y3]. rewrite nth_hwrite by exact L. destruct (Nat.eqb_spec (sl_arr s) a) as [Q|Q]; [|exact Y2].
  rewrite splice_length by exact B. rewrite <- Q. exact Y2.
Qed.
Lemma mem_ok_step m h W : step W (m_heap m) h -> mem_ok m -> mem_ok (setHeap m h).
Proof. intros S. apply (inv_step [] m (setHeap m h) W S eq_refl). Qed.
Lemma usable_alloc m x s : usable m s -> usable (setHeap m (m_heap m ++ [x])) s.
Proof.
  intros [X Y]. split; [exact X|]. intros C. destruct (Y C) as (Y1 & Y2 & Y3). cbn [setHeap m_heap]. rewrite app_length. split; [lia|].
  split; [rewrite app_nth1 by exact Y1; exact Y2|exact Y3].
Qed.
Lemma usable_new m x n k : mem_ok m -> n <= k -> k <= length x ->
  usable (setHeap m (m_heap m ++ [x])) {| sl_arr := length (m_heap m); sl_off := 0; sl_len := n; sl_cap := k |}.
Proof.
  intros MO L1 L2. split; cbn [sl_len sl_cap sl_arr sl_off]; [exact L1|]. intros _. cbn [setHeap m_heap]. rewrite app_length. cbn [length]. split; [lia|].
  split; [rewrite app_nth2, Nat.sub_diag by lia; cbn [nth]; lia|]. intros Q. apply (inv_lt [] m) in Q; [lia|exact MO].
Qed.

Lemma clientStep_ok size ar growcap c op : grow_ok growcap -> op_ok op -> client_ok c -> client_ok (clientStep size ar growcap c op).
Proof.
  intros G OK [MO U]. destruct c as [m env]. cbn [fst snd] in *. unfold clientStep.
  destruct (callOf size ar growcap env op) as [call|] eqn:E.
  - destruct (callOf_ok size ar growcap op env m call _ G OK MO U eq_refl E) as (v & _ & K & R). destruct (call m) as [m' o]. cbn [fst snd] in *.
    assert (U' : Forall (usable m') env) by (eapply Forall_impl; [|exact U]; intros s Hs; eapply keeps_usable; eassumption).
    destruct o as [sl|e|p| |]; (split; [apply K|]); cbn [fst snd]; try exact U'. apply Forall_app. split; [exact U'|].
    destruct R as (_ & R & _). eapply Forall_impl; [|exact R]. intros s Hs. apply Hs.
  - destruct op as [data|k i v|k extra v|k i j| | | | | ]; cbn [callOf] in E; try discriminate E.
    + unfold alloc. split; cbn [fst snd]; [apply (mem_ok_step m _ (fun _ => False)); [apply step_alloc|exact MO]|]. apply Forall_app. split.
      * eapply Forall_impl; [|exact U]. intros s. apply usable_alloc.
      * constructor; [|constructor]. apply usable_new; [exact MO|lia|lia].
    + pose proof (usable_nthSlice m env k U) as Uk. unfold mstore. destruct (Nat.ltb_spec i (sl_len (nthSlice env k))) as [L|L]; cbn [fst]; [|split; assumption].
      destruct Uk as [X Y]. destruct (Y ltac:(lia)) as (Y1 & Y2 & Y3). rewrite poke_hwrite. split; cbn [fst snd].
      * eapply mem_ok_step; [|exact MO]. apply step_hwrite; [exact Y1|cbn [length]; lia].
      * eapply Forall_impl; [|exact U]. intros s. apply usable_hwrite; [exact Y3|exact Y1|cbn [length]; lia].
    + pose proof (usable_nthSlice m env k U) as Uk. unfold append1. destruct (Nat.ltb_spec (sl_len (nthSlice env k)) (sl_cap (nthSlice env k))) as [L|L].
      * destruct Uk as [X Y]. destruct (Y ltac:(lia)) as (Y1 & Y2 & Y3). rewrite poke_hwrite.
        assert (FU : forall s, usable m s -> usable (setHeap m (hwrite (m_heap m) (sl_arr (nthSlice env k)) (sl_off (nthSlice env k) + sl_len (nthSlice env k)) [v])) s).
        { intros s. apply usable_hwrite; [exact Y3|exact Y1|cbn [length]; lia]. }
        split; cbn [fst snd].
        -- eapply mem_ok_step; [|exact MO]. apply step_hwrite; [exact Y1|cbn [length]; lia].
        -- apply Forall_app. split; [eapply Forall_impl; [|exact U]; exact FU|]. constructor; [|constructor].
           apply FU. split; cbn [sl_len sl_cap sl_arr sl_off]; [lia|]. intros _. repeat split; assumption.
      * split; cbn [fst snd]; [apply (mem_ok_step m _ (fun _ => False)); [apply step_alloc|exact MO]|]. apply Forall_app. split.
        -- eapply Forall_impl; [|exact U]. intros s. apply usable_alloc.
        -- constructor; [|constructor]. apply usable_new; [exact MO|lia|]. rewrite app_length. cbn [length]. rewrite zeros_length.
           pose proof (usable_length m _ Uk) as LU. unfold mcontents in LU. rewrite LU. lia.
    + pose proof (usable_nthSlice m env k U) as Uk. unfold reslice. destruct (Nat.leb_spec i j) as [L1|L1]; cbn [andb]; [|split; assumption].
      destruct (Nat.leb_spec j (sl_cap (nthSlice env k))) as [L2|L2]; [|split; assumption].
      split; [exact MO|]. cbn [fst snd]. apply Forall_app. split; [exact U|]. constructor; [|constructor].
      destruct Uk as [X Y]. split; cbn [sl_len sl_cap sl_arr sl_off]; [lia|]. intros C. destruct (Y ltac:(lia)) as (Y1 & Y2 & Y3). repeat split; try assumption. lia.
Qed.

Lemma clientRun_ok size ar growcap ops : grow_ok growcap -> Forall op_ok ops -> forall c, client_ok c -> client_ok (clientRun size ar growcap c ops).
Proof.
  intros G. induction ops as [|op ops IH]; intros F c C; [exact C|]. inversion F; subst. cbn [clientRun fold_left]. apply IH; [assumption|].
  apply clientStep_ok; assumption.
Qed.
