(** The [W]-bit split functions of IntWidth.v against the unbounded ones of Shamir.v. *)
From Coq Require Import List NArith ZArith Lia Arith Bool.
From Coq.Init Require Import Byte.
From Verif Require Import GoSem Bytes GoFacts Galois Vector Csprng Pool Polynomial Shamir SpecWidth IntWidth.
Import ListNotations.

(** ** Simulation: same outcome, or (only if [P]) a panic *)
Definition same {A B} (R : A -> B -> Prop) (o1 : outcome A) (o2 : outcome B) : Prop :=
  match o1, o2 with
  | Ret a, Ret b => R a b
  | Fail e, Fail e' => e = e'
  | Panic p, Panic q => p = q
  | UB, UB => True
  | Diverge, Diverge => True
  | _, _ => False
  end.

Definition sim (P : Prop) {A B} (R : A -> B -> Prop) (o1 : outcome A) (o2 : outcome B) : Prop :=
  (P /\ exists p, o1 = Panic p) \/ same R o1 o2.

Lemma sim_eq P {A} (o1 o2 : outcome A) : sim P eq o1 o2 -> o1 = o2 \/ exists p, o1 = Panic p.
Proof.
  intros [[_ H] | H]; [right; exact H|]. left. unfold same in H.
  destruct o1, o2; try contradiction; congruence.
Qed.

Lemma sim_strict P {A} (o1 o2 : outcome A) : sim P eq o1 o2 -> ~ P -> o1 = o2.
Proof.
  intros [[H _] | H] N; [contradiction|]. unfold same in H. destruct o1, o2; try contradiction; congruence.
Qed.

Lemma sim_refl P {A} (o : outcome A) : sim P eq o o.
Proof. right. destruct o; cbn; auto. Qed.

Lemma sim_ret P {A B} (R : A -> B -> Prop) a b : R a b -> sim P R (Ret a) (Ret b).
Proof. intros H. right. exact H. Qed.

Lemma sim_bind P {A B C D} (R : A -> B -> Prop) (Q : C -> D -> Prop) m1 m2 k1 k2 :
  sim P R m1 m2 -> (forall a b, R a b -> m1 = Ret a -> m2 = Ret b -> sim P Q (k1 a) (k2 b)) ->
  sim P Q (bind m1 k1) (bind m2 k2).
Proof.
  intros [[HP [p E]] | H] K.
  - left. split; [exact HP|]. exists p. rewrite E. reflexivity.
  - destruct m1, m2; cbn in H |- *; try contradiction; try (right; cbn; congruence).
    apply K; auto.
Qed.

Lemma sim_bind_eq P {A C D} (Q : C -> D -> Prop) (m1 m2 : outcome A) k1 k2 :
  sim P eq m1 m2 -> (forall a, m2 = Ret a -> sim P Q (k1 a) (k2 a)) -> sim P Q (bind m1 k1) (bind m2 k2).
Proof. intros H K. eapply sim_bind; [exact H|]. intros a b -> _ E. apply K, E. Qed.

Lemma sim_foreach P {S1 S2} (R : S1 -> S2 -> Prop) (f1 : nat -> S1 -> outcome S1) (f2 : nat -> S2 -> outcome S2) n :
  (forall i s1 s2, i < n -> R s1 s2 -> sim P R (f1 i s1) (f2 i s2)) ->
  forall s1 s2, R s1 s2 -> sim P R (foreach (seq 0 n) f1 s1) (foreach (seq 0 n) f2 s2).
Proof.
  intros H.
  assert (G : forall k a s1 s2, a + k <= n -> R s1 s2 -> sim P R (foreach (seq a k) f1 s1) (foreach (seq a k) f2 s2)).
  { induction k as [|k IH]; intros a s1 s2 L HR; cbn [seq foreach]; [apply sim_ret; exact HR|].
    eapply sim_bind; [apply H; [lia|exact HR]|]. intros x y Hxy _ _. apply IH; [lia|exact Hxy]. }
  intros s1 s2. apply G. lia.
Qed.

Lemma sim_foreach_ix P {S1 S2} (R : nat -> S1 -> S2 -> Prop) (f1 : nat -> S1 -> outcome S1) (f2 : nat -> S2 -> outcome S2) n :
  (forall i s1 s2, i < n -> R i s1 s2 -> sim P (R (S i)) (f1 i s1) (f2 i s2)) ->
  forall s1 s2, R 0 s1 s2 -> sim P (R n) (foreach (seq 0 n) f1 s1) (foreach (seq 0 n) f2 s2).
Proof.
  intros H.
  assert (G : forall k a s1 s2, a + k = n -> R a s1 s2 -> sim P (R n) (foreach (seq a k) f1 s1) (foreach (seq a k) f2 s2)).
  { induction k as [|k IH]; intros a s1 s2 L HR; cbn [seq foreach].
    - apply sim_ret. replace n with a by lia. exact HR.
    - eapply sim_bind; [apply H; [lia|exact HR]|]. intros x y Hxy _ _. apply IH; [lia|exact Hxy]. }
  intros s1 s2. apply G. lia.
Qed.

Lemma sim_foreach_eq P {X S} (l : list X) (f1 f2 : X -> S -> outcome S) :
  (forall x s, In x l -> sim P eq (f1 x s) (f2 x s)) ->
  forall s, sim P eq (foreach l f1 s) (foreach l f2 s).
Proof.
  induction l as [|x l IH]; intros H s; cbn [foreach]; [apply sim_refl|].
  apply sim_bind_eq; [apply H; left; reflexivity|]. intros s' _. apply IH. intros y z Hy. apply H. right. exact Hy.
Qed.

Lemma foreach_map {X Y S} (h : X -> Y) (l : list X) (f : Y -> S -> outcome S) s :
  foreach (map h l) f s = foreach l (fun x => f (h x)) s.
Proof. revert s. induction l as [|x l IH]; intros s; cbn [map foreach]; [reflexivity|]. destruct (f (h x) s); cbn; auto. Qed.

(** ** A loop with an iteration that must panic panics *)
Definition panics {A} (o : outcome A) : Prop := exists p, o = Panic p.

Lemma panics_bind {A B} (m : outcome A) (k : A -> outcome B) :
  panics m \/ (exists a, m = Ret a /\ panics (k a)) -> panics (bind m k).
Proof. intros [[p E] | (a & E & [p F])]; exists p; rewrite E; cbn; auto. Qed.

Lemma foreach_panics {S} (I : nat -> S -> Prop) (f : nat -> S -> outcome S) k n :
  k < n ->
  (forall i s, i < k -> I i s -> panics (f i s) \/ exists s', f i s = Ret s' /\ I (Datatypes.S i) s') ->
  (forall s, I k s -> panics (f k s)) ->
  forall s, I 0 s -> panics (foreach (seq 0 n) f s).
Proof.
  intros Hk Hi Hp.
  assert (G : forall m a s, a <= k -> a + m = n -> I a s -> panics (foreach (seq a m) f s)).
  { induction m as [|m IH]; intros a s La Lm Ia; [lia|]. cbn [seq foreach]. apply panics_bind.
    destruct (Nat.eq_dec a k) as [-> | Hne]; [left; apply Hp; exact Ia|].
    destruct (Hi a s) as [H | (s' & E & I')]; [lia|exact Ia|left; exact H|]. right. exists s'. split; [exact E|].
    apply IH; [lia|lia|exact I']. }
  intros s. apply G; lia.
Qed.

Section Facts.
  Variables (W maxAlloc : Z).
  Hypothesis HW : (16 <= W)%Z.
  Notation int := (int W).
  Notation maxInt := (maxInt W).

  Lemma half : (2 ^ W = 2 * 2 ^ (W - 1))%Z.
  Proof. rewrite <- Z.pow_succ_r by lia. f_equal. lia. Qed.

  Lemma half_big : (32768 <= 2 ^ (W - 1))%Z.
  Proof. change 32768%Z with (2 ^ 15)%Z. apply Z.pow_le_mono_r; lia. Qed.

  Lemma int_id z : (- 2 ^ (W - 1) <= z <= maxInt)%Z -> int z = z.
  Proof.
    unfold IntWidth.int, SpecWidth.maxInt. intros H. pose proof half. pose proof half_big.
    rewrite Z.mod_small; lia.
  Qed.

  Lemma int_range z : (- 2 ^ (W - 1) <= int z <= maxInt)%Z.
  Proof.
    unfold IntWidth.int, SpecWidth.maxInt. pose proof half. pose proof half_big.
    pose proof (Z.mod_pos_bound (z + 2 ^ (W - 1)) (2 ^ W)). lia.
  Qed.

  Lemma int_decomp z : exists k, (int z = z - k * 2 ^ W)%Z.
  Proof.
    unfold IntWidth.int. exists ((z + 2 ^ (W - 1)) / 2 ^ W)%Z. pose proof half. pose proof half_big.
    rewrite Z.mod_eq by lia. lia.
  Qed.

  Lemma int_add z k : int (z + k * 2 ^ W) = int z.
  Proof.
    unfold IntWidth.int. pose proof half. pose proof half_big.
    replace (z + k * 2 ^ W + 2 ^ (W - 1))%Z with (z + 2 ^ (W - 1) + k * 2 ^ W)%Z by lia.
    rewrite Z.mod_add by lia. reflexivity.
  Qed.

  Lemma int_mul_l a b : int (int a * b) = int (a * b).
  Proof.
    destruct (int_decomp a) as [k E]. rewrite E.
    replace ((a - k * 2 ^ W) * b)%Z with (a * b + (- k * b) * 2 ^ W)%Z by ring. apply int_add.
  Qed.

  Lemma int_add_l a b : int (int a + b) = int (a + b).
  Proof.
    destruct (int_decomp a) as [k E]. rewrite E.
    replace (a - k * 2 ^ W + b)%Z with (a + b + (- k) * 2 ^ W)%Z by ring. apply int_add.
  Qed.

  (** between [maxInt] and [2^W] the value is negative *)
  Lemma int_neg z : (maxInt < z < 2 ^ W)%Z -> (int z < 0)%Z.
  Proof.
    intros H. replace z with (z - 2 ^ W + 1 * 2 ^ W)%Z by lia. rewrite int_add. pose proof half. pose proof half_big.
    unfold SpecWidth.maxInt in *. rewrite int_id; unfold SpecWidth.maxInt; lia.
  Qed.

  (** one more window than fits: the end index is out of range *)
  Lemma window_out M L : (0 < M)%Z -> (M <= 2 ^ (W - 1))%Z -> (0 <= L <= maxInt)%Z ->
    let k := (L / M)%Z in (int (M * (k + 1)) < 0 \/ L < int (M * (k + 1)))%Z.
  Proof.
    intros HM HM2 HL k. pose proof half. pose proof half_big.
    assert (H1 : (M * k <= L)%Z) by (apply Z.mul_div_le; exact HM).
    assert (H2 : (L < M * (k + 1))%Z). { pose proof (Z.mul_succ_div_gt L M HM). unfold k. lia. }
    assert (H3 : (0 <= k)%Z) by (apply Z.div_pos; lia).
    unfold SpecWidth.maxInt in *.
    destruct (Z_le_gt_dec (M * (k + 1)) (2 ^ (W - 1) - 1)) as [H4|H4].
    - right. rewrite int_id; [exact H2|]. unfold SpecWidth.maxInt. nia.
    - left. apply int_neg. unfold SpecWidth.maxInt. nia.
  Qed.

  Lemma zslice_nat {A} (l : list A) (s e : nat) : zslice l (Z.of_nat s) (Z.of_nat e) = slice l s e.
  Proof.
    unfold zslice. destruct (Z.ltb_spec (Z.of_nat s) 0); [lia|]. destruct (Z.ltb_spec (Z.of_nat e) 0); [lia|].
    cbn [orb]. rewrite !Nat2Z.id. reflexivity.
  Qed.

  Lemma zslice_out {A} (l : list A) s e : (e < 0 \/ len l < e)%Z -> panics (zslice l s e).
  Proof.
    intros H. unfold zslice, len in *. exists PSlice.
    destruct (Z.ltb_spec s 0); [reflexivity|]. destruct (Z.ltb_spec e 0); [reflexivity|]. cbn [orb].
    apply slice_panic. right. lia.
  Qed.

  Lemma zslice_inv {A} (l : list A) s e : panics (zslice l s e) \/
    (exists w, zslice l s e = Ret w /\ (0 <= s <= e)%Z /\ (e <= len l)%Z /\ len w = (e - s)%Z).
  Proof.
    unfold zslice. destruct (Z.ltb_spec s 0); [left; eexists; reflexivity|].
    destruct (Z.ltb_spec e 0); [left; eexists; reflexivity|]. cbn [orb].
    destruct (le_lt_dec (Z.to_nat s) (Z.to_nat e)) as [H1|H1].
    2: { left. exists PSlice. apply slice_panic. left. exact H1. }
    destruct (le_lt_dec (Z.to_nat e) (length l)) as [H2|H2].
    2: { left. exists PSlice. apply slice_panic. right. exact H2. }
    right. exists (firstn (Z.to_nat e - Z.to_nat s) (skipn (Z.to_nat s) l)). rewrite slice_ok by assumption.
    unfold len. rewrite firstn_length, skipn_length. repeat split; lia.
  Qed.

  Lemma zidx_nat {A} (l : list A) (i : nat) : zidx l (Z.of_nat i) = idx l i.
  Proof. unfold zidx. destruct (Z.ltb_spec (Z.of_nat i) 0); [lia|]. rewrite Nat2Z.id. reflexivity. Qed.

  Lemma zupd_nat {A} (l : list A) (i : nat) v : zupd l (Z.of_nat i) v = upd l i v.
  Proof. unfold zupd. destruct (Z.ltb_spec (Z.of_nat i) 0); [lia|]. rewrite Nat2Z.id. reflexivity. Qed.

  Lemma zmake_nat (P : Prop) n : ((maxAlloc < Z.of_nat n)%Z -> P) -> sim P eq (zmake maxAlloc (Z.of_nat n)) (Ret (zeros n)).
  Proof.
    intros H. unfold zmake. destruct (Z.ltb_spec (Z.of_nat n) 0); [lia|]. cbn [orb].
    destruct (Z.ltb_spec maxAlloc (Z.of_nat n)).
    - left. split; [auto|]. eexists; reflexivity.
    - apply sim_ret. rewrite Nat2Z.id. reflexivity.
  Qed.

  Lemma resetGrowW_nat (P : Prop) growcap b n :
    (length b < n -> (Z.min maxInt maxAlloc < Z.of_nat (growcap (length b) n))%Z -> P) ->
    sim P eq (resetGrowW W maxAlloc growcap b (Z.of_nat n)) (Ret (resetGrow growcap b n)).
  Proof.
    intros H. unfold resetGrowW, resetGrow. destruct (Z.ltb_spec (Z.of_nat n) 0); [lia|]. rewrite Nat2Z.id.
    destruct (Nat.leb_spec n (length b)); [apply sim_refl|]. cbv zeta.
    destruct (Z.ltb_spec maxInt (Z.of_nat (growcap (length b) n))).
    { cbn [orb]. left. split; [apply H; lia|]. eexists; reflexivity. }
    cbn [orb]. destruct (Z.ltb_spec maxAlloc (Z.of_nat (growcap (length b) n))).
    { left. split; [apply H; lia|]. eexists; reflexivity. }
    apply sim_refl.
  Qed.

  (** ** the layout when the size overflows *)
  Lemma layoutFlatW_overflow N parts xs : (0 <= N <= maxInt)%Z -> (0 < parts)%Z ->
    (maxInt < (N + 1) * parts)%Z -> panics (layoutFlatW W maxAlloc N parts xs).
  Proof.
    intros HN Hp Ho. unfold layoutFlatW. rewrite int_mul_l. apply panics_bind.
    pose proof half as Hh. pose proof half_big as Hb.
    set (L := int ((N + 1) * parts)).
    pose proof (int_range ((N + 1) * parts)) as HR. fold L in HR.
    unfold zmake at 1. destruct (Z.ltb_spec L 0); [left; eexists; reflexivity|]. cbn [orb].
    destruct (Z.ltb_spec maxAlloc L); [left; eexists; reflexivity|]. right.
    exists (zeros (Z.to_nat L)). split; [unfold zmake; destruct (Z.ltb_spec L 0); [lia|]; destruct (Z.ltb_spec maxAlloc L); [lia|reflexivity]|].
    assert (HLs : (L < (N + 1) * parts)%Z) by lia.
    set (k := (L / (N + 1))%Z).
    assert (H3 : (0 <= k)%Z) by (apply Z.div_pos; lia).
    assert (Hk : (k < parts)%Z) by (apply Z.div_lt_upper_bound; lia).
    assert (HM : (N + 1 <= 2 ^ (W - 1))%Z) by (unfold SpecWidth.maxInt in HN; lia).
    pose proof (window_out (N + 1) L ltac:(lia) HM ltac:(lia)) as Hout. cbv zeta in Hout. fold k in Hout.
    eapply (foreach_panics (fun _ buff => len buff = L) _ (Z.to_nat k)).
    - lia.
    - intros i s _ Hs. cbv beta zeta.
      set (a := int (int (N + 1) * Z.of_nat i)). set (e := int (int (a + N) + 1)).
      destruct (zslice_inv s a e) as [[p E] | (w & E & H1 & H2 & H3')].
      { left. rewrite E. exists p. reflexivity. }
      rewrite E. cbn [bind]. unfold tagOf. destruct (idx xs i) as [x|er|p| |] eqn:Ei; cbn [bind].
      2: { unfold idx in Ei. destruct (nth_error xs i); discriminate. }
      2: { left; eexists; reflexivity. }
      2: { unfold idx in Ei. destruct (nth_error xs i); discriminate. }
      2: { unfold idx in Ei. destruct (nth_error xs i); discriminate. }
      unfold zupd. destruct (Z.ltb_spec N 0); [lia|].
      destruct (le_lt_dec (length w) (Z.to_nat N)) as [H5|H5].
      { left. rewrite upd_panic by exact H5. eexists; reflexivity. }
      right. rewrite upd_ok by exact H5. cbn [bind]. eexists. split; [reflexivity|].
      unfold len in *. rewrite splice_length; [exact Hs|]. rewrite set_nth_length by exact H5. lia.
    - intros s Hs. cbv beta zeta. apply panics_bind. left. apply zslice_out. rewrite Hs.
      rewrite Z2Nat.id by exact H3. rewrite int_add_l, int_mul_l.
      replace (int (int ((N + 1) * k) + N + 1)) with (int ((N + 1) * (k + 1))).
      2: { rewrite <- Z.add_assoc, int_add_l. f_equal. ring. }
      exact Hout.
    - unfold len. rewrite zeros_length. lia.
  Qed.

  (** ** when the sizes fit *)
  Lemma int_nat n : (Z.of_nat n <= maxInt)%Z -> int (Z.of_nat n) = Z.of_nat n.
  Proof. intros H. apply int_id. pose proof half_big. lia. Qed.

  Lemma int_to_nat z n : z = Z.of_nat n -> (Z.of_nat n <= maxInt)%Z -> int z = Z.of_nat n.
  Proof. intros -> H. apply int_nat, H. Qed.

  Lemma window_start N i : (Z.of_nat ((N + 1) * i) <= maxInt)%Z ->
    int (int (Z.of_nat N + 1) * Z.of_nat i) = Z.of_nat ((N + 1) * i).
  Proof. intros H. rewrite int_mul_l. apply int_to_nat; [lia|exact H]. Qed.

  Lemma window_end s N : (Z.of_nat (s + N + 1) <= maxInt)%Z ->
    int (int (Z.of_nat s + Z.of_nat N) + 1) = Z.of_nat (s + N + 1).
  Proof. intros H. rewrite int_add_l. apply int_to_nat; [lia|exact H]. Qed.

  Lemma window_slice {A} (l : list A) N n i : i < n -> (Z.of_nat ((N + 1) * n) <= maxInt)%Z ->
    zslice l (int (int (Z.of_nat N + 1) * Z.of_nat i))
      (int (int (int (int (Z.of_nat N + 1) * Z.of_nat i) + Z.of_nat N) + 1)) =
    slice l ((N + 1) * i) ((N + 1) * i + N + 1).
  Proof.
    intros Hi H. assert (K : (N + 1) * i + N + 1 <= (N + 1) * n) by nia.
    rewrite window_start by lia. rewrite window_end by lia. apply zslice_nat.
  Qed.

  Lemma layoutFlatW_sim (P : Prop) N n xs : (Z.of_nat ((N + 1) * n) <= maxInt)%Z ->
    ((maxAlloc < Z.of_nat ((N + 1) * n))%Z -> P) ->
    sim P eq (layoutFlatW W maxAlloc (Z.of_nat N) (Z.of_nat n) xs) (layoutFlat N n xs).
  Proof.
    intros H HP. unfold layoutFlatW, layoutFlat. rewrite window_start by exact H. rewrite Nat2Z.id.
    change (foreach (seq 0 n) ?f (zeros ((N + 1) * n))) with (bind (Ret (zeros ((N + 1) * n))) (foreach (seq 0 n) f)).
    apply sim_bind_eq; [apply zmake_nat; exact HP|]. intros b _.
    apply sim_foreach_eq. intros i s Hi. apply in_seq in Hi. cbv beta zeta.
    rewrite (window_slice s N n i) by (try lia; exact H).
    apply sim_bind_eq; [apply sim_refl|]. intros w _. apply sim_bind_eq; [apply sim_refl|]. intros t _.
    rewrite zupd_nat. apply sim_bind_eq; [apply sim_refl|]. intros w' _. apply sim_ret.
    rewrite window_start by nia. rewrite Nat2Z.id. reflexivity.
  Qed.

  Lemma windowsW_sim (P : Prop) N n b : (Z.of_nat ((N + 1) * n) <= maxInt)%Z ->
    sim P eq (windowsW W (Z.of_nat N) n b) (windows N n b).
  Proof.
    intros H. unfold windowsW, windows. apply sim_foreach_eq. intros i s Hi. apply in_seq in Hi. cbv beta zeta.
    rewrite (window_slice b N n i) by (try lia; exact H). apply sim_refl.
  Qed.

  Lemma setInterceptsW_sim (P : Prop) intercepts d b : (Z.of_nat ((d + 1) * length intercepts) <= maxInt)%Z ->
    sim P eq (setInterceptsW W intercepts (Z.of_nat d) b) (setIntercepts intercepts d b).
  Proof.
    intros H. unfold setInterceptsW, setIntercepts. apply sim_foreach_eq. intros i s Hi. apply in_seq in Hi. cbv beta zeta.
    rewrite (window_slice s d (length intercepts) i) by (try lia; exact H).
    rewrite window_start by nia. rewrite Nat2Z.id. apply sim_refl.
  Qed.

  Lemma setIntercepts_length intercepts d b b' : setIntercepts intercepts d b = Ret b' -> length b' = length b.
  Proof.
    unfold setIntercepts. generalize (seq 0 (length intercepts)). intros l. revert b.
    induction l as [|i l IH]; intros b E; cbn [foreach] in E; [congruence|].
    set (s := (d + 1) * i) in *.
    destruct (slice b s (s + d + 1)) as [w|e|p| |] eqn:Es; try discriminate. cbn [bind] in E.
    destruct (idx intercepts i) as [v|e|p| |] eqn:Ei; try discriminate. cbn [bind] in E.
    destruct (upd w 0 v) as [w'|e|p| |] eqn:Eu; try discriminate. cbn [bind] in E.
    apply IH in E. rewrite E.
    unfold slice in Es. destruct ((s <=? s + d + 1) && (s + d + 1 <=? length b)) eqn:C; [|discriminate].
    apply andb_prop in C. destruct C as [_ C2]. apply Nat.leb_le in C2.
    assert (Lw : length w = d + 1). { injection Es as <-. rewrite firstn_length, skipn_length. lia. }
    assert (Lw' : length w' = d + 1). { rewrite upd_ok in Eu by lia. injection Eu as <-. rewrite set_nth_length; lia. }
    apply splice_length. lia.
  Qed.

  Lemma transposeMatrixBufferW_sim (P : Prop) dest source t N : 0 < t -> 0 < N -> length source = t * N ->
    (Z.of_nat (t * N) <= maxInt)%Z ->
    sim P eq (transposeMatrixBufferW W dest source (Z.of_nat t)) (transposeMatrixBuffer dest source t).
  Proof.
    intros Ht HN Hl H. unfold transposeMatrixBufferW, transposeMatrixBuffer.
    destruct (Z.eqb_spec (Z.of_nat t) 0); [lia|]. destruct (Nat.eqb_spec t 0); [lia|].
    unfold len. rewrite Hl. rewrite Z.quot_div_nonneg by lia. rewrite <- Nat2Z.inj_div.
    replace (t * N / t) with N by (rewrite Nat.mul_comm, Nat.div_mul; lia).
    assert (HNt : N <= t * N) by nia. assert (Htt : t <= t * N) by nia.
    cbv zeta. rewrite (int_nat N) by lia.
    set (R := fun (i : nat) (s1 : list byte * Z * Z) (s2 : list byte * nat * nat) =>
                let '(d1, r1, c1) := s1 in let '(d2, r2, c2) := s2 in
                d1 = d2 /\ r1 = Z.of_nat r2 /\ c1 = Z.of_nat c2 /\ r2 < N /\ i = c2 * N + r2).
    eapply (sim_bind P (R (t * N))).
    - eapply (sim_foreach_ix P R); [|unfold R; repeat split; lia].
      intros i [[d1 r1] c1] [[d2 r2] c2] Hi (-> & -> & -> & Hr & Hc).
      assert (Hc2 : c2 < t) by nia.
      assert (Hix : t * r2 + c2 < t * N) by nia.
      assert (E : int (int (Z.of_nat t * Z.of_nat r2) + Z.of_nat c2) = Z.of_nat (t * r2 + c2)).
      { rewrite int_add_l. apply int_to_nat; lia. }
      rewrite E, zidx_nat.
      eapply sim_bind; [apply sim_refl|]. intros v ? <- _ _. eapply sim_bind; [apply sim_refl|]. intros dd ? <- _ _.
      assert (E2 : int (Z.of_nat r2 + 1) = Z.of_nat (r2 + 1)).
      { apply int_to_nat; lia. }
      assert (E3 : int (Z.of_nat c2 + 1) = Z.of_nat (c2 + 1)).
      { apply int_to_nat; lia. }
      rewrite E2, E3. cbv zeta.
      destruct (Z.eqb_spec (Z.of_nat (r2 + 1)) (Z.of_nat N)); destruct (Nat.eqb_spec (r2 + 1) N); try lia.
      + apply sim_ret. unfold R. repeat split; lia.
      + apply sim_ret. unfold R. repeat split; lia.
    - intros [[d1 r1] c1] [[d2 r2] c2] (-> & _) _ _. apply sim_refl.
  Qed.

  Lemma downFrom_nat d : downFrom (Z.of_nat d) = map Z.of_nat (rev (seq 0 d)).
  Proof. unfold downFrom. rewrite Nat2Z.id. reflexivity. Qed.

  Lemma evaluateBufferW_sim (P : Prop) ar growcap bb cb N t x o : 0 < t -> 0 < N -> length cb = t * N ->
    (Z.of_nat (t * N) <= maxInt)%Z ->
    (length bb < N -> (Z.min maxInt maxAlloc < Z.of_nat (growcap (length bb) N))%Z -> P) ->
    sim P eq (evaluateBufferW W maxAlloc ar growcap bb cb (Z.of_nat N) x o)
      (evaluatePolynomialsAtWithCoefficientsBuffer ar growcap bb cb N x o).
  Proof.
    intros Ht HN Hl H HP. unfold evaluateBufferW, evaluatePolynomialsAtWithCoefficientsBuffer.
    destruct (Z.eqb_spec (Z.of_nat N) 0); [lia|]. destruct (Nat.eqb_spec N 0); [lia|].
    unfold len. rewrite Hl. rewrite Z.quot_div_nonneg by lia. rewrite <- Nat2Z.inj_div.
    rewrite Nat.div_mul by lia. destruct (Nat.eqb_spec t 0); [lia|].
    assert (Htt : t <= t * N) by nia. cbv zeta. rewrite (int_nat t) by lia.
    replace (int (Z.of_nat t - 1)) with (Z.of_nat (t - 1)) by (symmetry; apply int_to_nat; lia).
    assert (Hs : forall i, i < t -> int (Z.of_nat i * Z.of_nat N) = Z.of_nat (i * N)).
    { intros i Hi. apply int_to_nat; [lia|nia]. }
    assert (He : forall i, i < t -> int (Z.of_nat (i * N) + Z.of_nat N) = Z.of_nat (i * N + N)).
    { intros i Hi. apply int_to_nat; [lia|nia]. }
    assert (Hz : forall (A : Type) (l : list A), zslice l 0 (Z.of_nat N) = slice l 0 N).
    { intros A l. apply (zslice_nat l 0 N). }
    change (bind (slice (resetGrow growcap bb N) 0 N) ?k) with
      (bind (Ret (resetGrow growcap bb N)) (fun rb => bind (slice rb 0 N) k)).
    apply sim_bind_eq; [apply resetGrowW_nat; exact HP|]. intros rb _. rewrite Hz.
    apply sim_bind_eq; [apply sim_refl|]. intros res _.
    rewrite Hs by lia. rewrite He by lia. rewrite zslice_nat.
    apply sim_bind_eq; [apply sim_refl|]. intros top _.
    rewrite downFrom_nat, foreach_map.
    apply sim_bind_eq.
    - apply sim_foreach_eq. intros i s Hi. apply in_rev in Hi. apply in_seq in Hi. cbv beta zeta.
      rewrite Hs by lia. rewrite He by lia. rewrite zslice_nat. apply sim_refl.
    - intros r _. rewrite Hz. apply sim_refl.
  Qed.

  Lemma evalLoopW_sim (P : Prop) ar growcap evBufs cb N n t xs b : 0 < t -> 0 < N -> length cb = t * N ->
    (Z.of_nat ((N + 1) * n) <= maxInt)%Z -> (Z.of_nat (t * N) <= maxInt)%Z ->
    (forall i, i < n -> length (evBufs i) < N -> (Z.min maxInt maxAlloc < Z.of_nat (growcap (length (evBufs i)) N))%Z -> P) ->
    sim P eq (evalLoopW W maxAlloc ar growcap evBufs cb (Z.of_nat N) n xs b) (evalLoop ar growcap evBufs cb N n xs b).
  Proof.
    intros Ht HN Hl H H2 HP. unfold evalLoopW, evalLoop. apply sim_foreach_eq. intros i s Hi. apply in_seq in Hi.
    cbv beta zeta. rewrite (window_slice s N n i) by (try lia; exact H).
    apply sim_bind_eq; [apply sim_refl|]. intros w _. apply sim_bind_eq; [apply sim_refl|]. intros x _.
    change (zslice w 0 (Z.of_nat N)) with (zslice w (Z.of_nat 0) (Z.of_nat N)). rewrite zslice_nat.
    apply sim_bind_eq; [apply sim_refl|]. intros o _.
    apply sim_bind_eq; [apply (evaluateBufferW_sim P ar growcap (evBufs i) cb N t); auto; apply HP; lia|].
    intros o' _. rewrite window_start by nia. rewrite Nat2Z.id. apply sim_refl.
  Qed.
End Facts.

(** ** the buffer-based splits *)
Lemma checkArgs_none secret parts threshold : checkArgs secret parts threshold = None ->
  (2 <= threshold <= parts)%Z /\ (parts <= 255)%Z /\ 0 < length secret.
Proof.
  unfold checkArgs. intros H.
  destruct (Z.ltb_spec parts threshold); [discriminate|]. destruct (Z.ltb_spec 255 parts); [discriminate|].
  destruct (Z.ltb_spec threshold 2); [discriminate|]. destruct (Z.ltb_spec 255 threshold); [discriminate|].
  destruct (Nat.eqb_spec (length secret) 0); [discriminate|]. lia.
Qed.

Lemma foreach_length {X S} (l : list X) (f : X -> S -> outcome S) (I : S -> Prop) :
  (forall x s s', I s -> f x s = Ret s' -> I s') -> forall s s', I s -> foreach l f s = Ret s' -> I s'.
Proof.
  intros H. induction l as [|x l IH]; intros s s' Is E; cbn [foreach] in E; [injection E as <-; exact Is|].
  destruct (f x s) as [s1|e|p| |] eqn:F; cbn [bind] in E; try discriminate. eapply IH; [|exact E]. eapply H; eassumption.
Qed.

Lemma upd_length {A} (l l' : list A) i v : upd l i v = Ret l' -> length l' = length l.
Proof.
  unfold upd. destruct (Nat.ltb_spec i (length l)); [|discriminate]. intros E. injection E as <-.
  apply (set_nth_length l i v H).
Qed.

Lemma transposeMatrixBuffer_length dest source t r : transposeMatrixBuffer dest source t = Ret r -> length r = length dest.
Proof.
  unfold transposeMatrixBuffer. destruct (t =? 0); [discriminate|]. cbv zeta. intros E.
  match type of E with bind (foreach ?l ?f ?s) _ = _ => set (F := f) in *; set (ll := l) in *;
    assert (G : forall s1 s', length (fst (fst s1)) = length dest -> foreach ll F s1 = Ret s' -> length (fst (fst s')) = length dest) end.
  { apply (foreach_length ll F (fun s => length (fst (fst s)) = length dest)).
    intros i [[d a] b] [[d' a'] b'] L H. unfold F in H.
    destruct (idx source (t * a + b)); cbn [bind] in H; try discriminate.
    destruct (upd d i a0) as [d1|?|?| |] eqn:U; cbn [bind] in H; try discriminate. apply upd_length in U.
    destruct (_ =? _); injection H as <- <- <-; cbn in *; congruence. }
  destruct (foreach ll F (dest, 0, 0)) as [[[d a] b]|e|p| |] eqn:Ef; cbn [bind] in E; try discriminate.
  injection E as <-. exact (G (dest, 0, 0) _ eq_refl Ef).
Qed.

Lemma resetGrow_slice_length growcap b n w : slice (resetGrow growcap b n) 0 n = Ret w -> length w = n.
Proof.
  unfold slice. destruct ((0 <=? n) && (n <=? length (resetGrow growcap b n))) eqn:C; [|discriminate].
  apply andb_prop in C. destruct C as [_ C]. apply Nat.leb_le in C. intros E. injection E as <-.
  rewrite firstn_length, ?skipn_length. lia.
Qed.

Lemma sim_first P {A B} (m1 : outcome A) (m2 : outcome (A * B * B)) :
  sim P (fun o t => o = fst (fst t)) m1 m2 -> sim P eq m1 (do '(o, _, _) <- m2; Ret o).
Proof.
  intros [H | H]; [left; exact H|]. right. destruct m1, m2 as [[[? ?] ?]|?|?| |]; cbn in *; try contradiction; congruence.
Qed.

Lemma xorStreamFrom_length ks b : forall o, length (xorStreamFrom ks o b) = length b.
Proof. induction b as [|x b IH]; intros o; cbn; [reflexivity|]. f_equal. apply IH. Qed.

Lemma Read_length' ks b : length (Read ks b) = length b.
Proof. apply xorStreamFrom_length. Qed.

Section Body.
  Variables (W maxAlloc : Z).
  Hypothesis HW : (16 <= W)%Z.

  Lemma splitBodyW_sim (P : Prop) ar growcap fill xs polB trB evBufs secret parts threshold :
    checkArgs secret parts threshold = None ->
    (forall b, length (fill b) = length b) ->
    let N := length secret in let n := Z.to_nat parts in let t := Z.to_nat threshold in
    (Z.of_nat ((N + 1) * n) <= maxInt W)%Z ->
    (~ buffers_fit W maxAlloc growcap polB trB evBufs N n t -> P) ->
    sim P (fun o r => o = fst (fst r))
      (splitBodyW W maxAlloc ar growcap fill xs polB trB evBufs secret parts threshold)
      (do buff <- layoutFlat N n xs;
       let degree := Z.to_nat (threshold - 1) in
       let polB := resetGrow growcap polB ((degree + 1) * N) in
       do polBuff <- slice polB 0 ((degree + 1) * N);
       do polynomials <- setIntercepts secret degree (fill polBuff);
       let polB := splice polB 0 polynomials in
       let trB := resetGrow growcap trB (length polynomials) in
       do coefficientBuff <- slice trB 0 (length polynomials);
       do coefficientBuff <- transposeMatrixBuffer coefficientBuff polynomials (degree + 1);
       let trB := splice trB 0 coefficientBuff in
       do buff <- evalLoop ar growcap evBufs coefficientBuff N n xs buff;
       do out <- windows N n buff;
       Ret (out, polB, trB)).
  Proof.
    intros Hc Hfill N n t Hfit HP. apply checkArgs_none in Hc. destruct Hc as (Ht & Hp & HN). fold N in HN.
    pose proof (half_big W HW) as Hb.
    unfold splitBodyW. cbv zeta. unfold len. fold N.
    assert (Ep : parts = Z.of_nat n) by (unfold n; lia).
    set (d := Z.to_nat (threshold - 1)).
    assert (Ed : t = d + 1) by (unfold t, d; lia).
    assert (Htn : t <= n) by (unfold t, n; lia).
    assert (HtN : t * N <= (N + 1) * n) by nia.
    assert (E1 : int W (threshold - 1) = Z.of_nat d).
    { apply int_to_nat; [exact HW|unfold d; lia|]. unfold maxInt. unfold d. lia. }
    assert (E2 : int W (Z.of_nat d + 1) = Z.of_nat t).
    { apply int_to_nat; [exact HW|lia|]. unfold maxInt. lia. }
    rewrite E1, E2, Ep, Nat2Z.id.
    replace (int W (Z.of_nat t * Z.of_nat N)) with (Z.of_nat (t * N)) by (symmetry; apply int_to_nat; [exact HW|lia|lia]).
    rewrite <- Ed.
    eapply sim_bind.
    { apply layoutFlatW_sim; [exact HW|exact Hfit|]. intros Hm. apply HP. intros (F & _). unfold room in F. lia. }
    intros buff ? <- _ _.
    change (bind (slice (resetGrow growcap polB (t * N)) 0 (t * N)) ?k) with
      (bind (Ret (resetGrow growcap polB (t * N))) (fun rb => bind (slice (resetGrow growcap polB (t * N)) 0 (t * N)) k)).
    eapply sim_bind.
    { apply resetGrowW_nat. intros Hl Hm. apply HP. intros (_ & F & _). specialize (F Hl). unfold room in F. lia. }
    intros rb ? -> _ Erb. injection Erb as <-.
    change (zslice (resetGrow growcap polB (t * N)) 0 (Z.of_nat (t * N)))
      with (zslice (resetGrow growcap polB (t * N)) (Z.of_nat 0) (Z.of_nat (t * N))). rewrite zslice_nat.
    eapply sim_bind; [apply sim_refl|]. intros pb ? <- _ Epb. apply resetGrow_slice_length in Epb.
    eapply sim_bind.
    { apply setInterceptsW_sim; [exact HW|]. rewrite <- Ed. fold N. lia. }
    intros pols ? <- _ Epols. apply setIntercepts_length in Epols. rewrite Hfill, Epb in Epols. rewrite Epols.
    change (bind (slice (resetGrow growcap trB (t * N)) 0 (t * N)) ?k) with
      (bind (Ret (resetGrow growcap trB (t * N))) (fun rb => bind (slice (resetGrow growcap trB (t * N)) 0 (t * N)) k)).
    eapply sim_bind.
    { apply resetGrowW_nat. intros Hl Hm. apply HP. intros (_ & _ & F & _). specialize (F Hl). unfold room in F. lia. }
    intros rb ? -> _ Erb. injection Erb as <-.
    change (zslice (resetGrow growcap trB (t * N)) 0 (Z.of_nat (t * N)))
      with (zslice (resetGrow growcap trB (t * N)) (Z.of_nat 0) (Z.of_nat (t * N))). rewrite zslice_nat.
    eapply sim_bind; [apply sim_refl|]. intros cb ? <- _ Ecb. apply resetGrow_slice_length in Ecb.
    eapply sim_bind.
    { apply (transposeMatrixBufferW_sim W HW P cb pols t N); [lia|lia|exact Epols|lia]. }
    intros cb' ? <- _ Ecb'. apply transposeMatrixBuffer_length in Ecb'. rewrite Ecb in Ecb'.
    eapply sim_bind.
    { apply (evalLoopW_sim W maxAlloc HW P ar growcap evBufs cb' N n t); [lia|lia|exact Ecb'|exact Hfit|lia|].
      intros i Hi Hl Hm. apply HP. intros (_ & _ & _ & F). specialize (F i Hi Hl). unfold room in F. lia. }
    intros b1 ? <- _ _.
    intros. rewrite <- (bind_ret (Ret tt) (fun _ => windowsW W (Z.of_nat N) n b1) tt eq_refl).
    cbn [bind]. destruct (windowsW_sim W HW P N n b1 Hfit) as [H | H].
    - left. exact H.
    - right. destruct (windowsW W (Z.of_nat N) n b1), (windows N n b1); cbn in H |- *; try contradiction; auto.
  Qed.

  Lemma SplitW_sim (P : Prop) ar growcap perm stream polB trB evBufs secret parts threshold :
    let N := length secret in let n := Z.to_nat parts in let t := Z.to_nat threshold in
    (checkArgs secret parts threshold = None -> (Z.of_nat ((N + 1) * n) <= maxInt W)%Z) ->
    (~ buffers_fit W maxAlloc growcap polB trB evBufs N n t -> P) ->
    sim P eq (SplitW W maxAlloc ar growcap perm stream polB trB evBufs secret parts threshold)
      (Split ar growcap perm stream polB trB evBufs secret parts threshold).
  Proof.
    intros N n t Hfit HP. unfold SplitW, Split, SplitBufs.
    destruct (checkArgs secret parts threshold) as [e|] eqn:Hc; [right; reflexivity|]. apply sim_first.
    apply (splitBodyW_sim P ar growcap (fun b => take_stream stream (length b))); [exact Hc| |auto|exact HP].
    intros b. apply take_stream_length.
  Qed.

  Lemma SplitWithRandomizerW_sim (P : Prop) fuel ar growcap ks polB trB evBufs secret parts threshold :
    let N := length secret in let n := Z.to_nat parts in let t := Z.to_nat threshold in
    (checkArgs secret parts threshold = None -> (Z.of_nat ((N + 1) * n) <= maxInt W)%Z) ->
    (~ buffers_fit W maxAlloc growcap polB trB evBufs N n t -> P) ->
    sim P eq (SplitWithRandomizerW W maxAlloc fuel ar growcap ks polB trB evBufs secret parts threshold)
      (SplitWithRandomizer fuel ar growcap ks polB trB evBufs secret parts threshold).
  Proof.
    intros N n t Hfit HP. unfold SplitWithRandomizerW, SplitWithRandomizer, SplitWithRandomizerBufs.
    destruct (checkArgs secret parts threshold) as [e|] eqn:Hc; [right; reflexivity|]. apply sim_first.
    eapply sim_bind; [apply sim_refl|]. intros xs ? <- _ _.
    apply (splitBodyW_sim P ar growcap (Read ks)); [exact Hc| |auto|exact HP].
    intros b. apply Read_length'.
  Qed.

  Lemma splitBodyW_overflow ar growcap fill xs polB trB evBufs secret parts threshold :
    (0 < parts)%Z -> (len secret <= maxInt W)%Z -> (maxInt W < (len secret + 1) * parts)%Z ->
    panics (splitBodyW W maxAlloc ar growcap fill xs polB trB evBufs secret parts threshold).
  Proof.
    intros Hp Hl Ho. unfold splitBodyW. cbv zeta. apply panics_bind. left. apply layoutFlatW_overflow; auto.
    unfold len in *. lia.
  Qed.
End Body.

(** ** the matrix-based splits *)
Section Matrix.
  Variables (W maxAlloc : Z).
  Hypothesis HW : (16 <= W)%Z.

  Lemma newMatrixW_overflow r c : (0 < r)%Z -> (0 < c <= maxInt W)%Z -> (maxInt W < r * c)%Z ->
    panics (newMatrixW W maxAlloc r c).
  Proof.
    intros Hr Hc Ho. unfold newMatrixW. apply panics_bind.
    pose proof (half W HW) as Hh. pose proof (half_big W HW) as Hb.
    set (L := int W (r * c)).
    pose proof (int_range W HW (r * c)) as HR. fold L in HR.
    unfold zmake at 1. destruct (Z.ltb_spec L 0); [left; eexists; reflexivity|]. cbn [orb].
    destruct (Z.ltb_spec maxAlloc L); [left; eexists; reflexivity|]. right.
    exists (zeros (Z.to_nat L)). split; [unfold zmake; destruct (Z.ltb_spec L 0); [lia|]; destruct (Z.ltb_spec maxAlloc L); [lia|reflexivity]|].
    set (k := (L / c)%Z).
    assert (H3 : (0 <= k)%Z) by (apply Z.div_pos; lia).
    assert (Hk : (k < r)%Z) by (apply Z.div_lt_upper_bound; lia).
    assert (HM : (c <= 2 ^ (W - 1))%Z) by (unfold maxInt in Hc; lia).
    pose proof (window_out W HW c L ltac:(lia) HM ltac:(lia)) as Hout. cbv zeta in Hout. fold k in Hout.
    apply panics_bind. left.
    set (I := fun (i : nat) (s : list (list byte) * Z * Z) =>
                let '(_, lo, hi) := s in lo = int W (c * Z.of_nat i) /\ hi = int W (c * (Z.of_nat i + 1))).
    eapply (foreach_panics I _ (Z.to_nat k)).
    - lia.
    - intros i [[m lo] hi] _ [-> ->].
      destruct (zslice_inv (zeros (Z.to_nat L)) (int W (c * Z.of_nat i)) (int W (c * (Z.of_nat i + 1)))) as [[p E] | (w & E & _)].
      { left. rewrite E. exists p. reflexivity. }
      rewrite E. right. cbn [bind]. eexists. split; [reflexivity|]. unfold I. split; [f_equal; lia|].
      rewrite int_add_l by exact HW. f_equal. lia.
    - intros [[m lo] hi] [-> ->]. apply panics_bind. left. apply zslice_out. unfold len. rewrite zeros_length.
      rewrite (Z2Nat.id k) by exact H3. rewrite Z2Nat.id by lia. exact Hout.
    - unfold I. split; [rewrite int_id; [lia|exact HW|unfold maxInt; lia]|]. rewrite int_id; [lia|exact HW|lia].
  Qed.

  Lemma newMatrixW_sim (P : Prop) r c : (Z.of_nat (r * c) <= maxInt W)%Z -> (Z.of_nat c <= maxInt W)%Z -> ((maxAlloc < Z.of_nat (r * c))%Z -> P) ->
    sim P eq (newMatrixW W maxAlloc (Z.of_nat r) (Z.of_nat c)) (Ret (newMatrix r c)).
  Proof.
    intros H Hc HP. unfold newMatrixW. rewrite (int_to_nat W HW _ (r * c)) by (try lia; exact H).
    change (Ret (newMatrix r c)) with (bind (Ret (zeros (r * c))) (fun _ => Ret (newMatrix r c))).
    eapply sim_bind; [apply zmake_nat; exact HP|]. intros a ? -> _ Ea. injection Ea as <-.
    rewrite Nat2Z.id.
    set (F := fun (_ : nat) (s : list (list byte) * Z * Z) => let '(m, lo, hi) := s in
         do row <- zslice (zeros (r * c)) lo hi; Ret (m ++ [row], hi, int W (hi + Z.of_nat c))).
    assert (G : forall k, k <= r -> foreach (seq 0 k) F ([], 0%Z, Z.of_nat c) =
        Ret (newMatrix k c, Z.of_nat (k * c), int W (Z.of_nat (k * c + c)))).
    { induction k as [|k IH]; intros Hk.
      - cbn [seq foreach]. unfold newMatrix. cbn [repeat]. do 2 f_equal. rewrite (int_nat W HW (0 * c + c)); [lia|lia].
      - rewrite seq_S, foreach_app, IH by lia. cbn [bind foreach Nat.add]. unfold F.
        assert (K : k * c + c <= r * c) by nia.
        rewrite (int_nat W HW (k * c + c)) by lia. rewrite zslice_nat, slice_ok; [|lia|rewrite zeros_length; lia].
        cbn [bind]. replace (S k * c) with (k * c + c) by lia.
        replace (newMatrix (S k) c) with (newMatrix k c ++ [zeros c]).
        2: { unfold newMatrix. change [zeros c] with (repeat (zeros c) 1). rewrite <- repeat_app. f_equal. lia. }
        replace (firstn (k * c + c - k * c) (skipn (k * c) (zeros (r * c)))) with (zeros c).
        2: { unfold zeros. symmetry. replace (r * c) with (k * c + (c + (r * c - k * c - c))) by lia.
             rewrite !repeat_app. rewrite skipn_app, skipn_all2 by (rewrite repeat_length; lia).
             rewrite repeat_length, Nat.sub_diag. cbn [skipn app]. rewrite firstn_app, firstn_all2 by (rewrite repeat_length; lia).
             rewrite repeat_length. replace (k * c + c - k * c - c) with 0 by lia. cbn [firstn]. apply app_nil_r. }
        do 3 f_equal. lia. }
    fold F. rewrite G by lia. cbn [bind]. apply sim_refl.
  Qed.

  Lemma transposeW_sim (P : Prop) m : (forall m0, idx m 0 = Ret m0 -> (Z.of_nat (length m0 * length m) <= maxInt W)%Z /\
      (Z.of_nat (length m) <= maxInt W)%Z /\
      ((maxAlloc < Z.of_nat (length m0 * length m))%Z -> P)) ->
    sim P eq (transposeW W maxAlloc m) (transpose m).
  Proof.
    intros H. unfold transposeW, transpose. eapply sim_bind; [apply sim_refl|]. intros m0 ? <- E _. cbv zeta.
    destruct (H m0 E) as (H1 & H3 & H4). unfold len.
    match goal with |- sim _ _ _ ?o => change o with (bind (Ret (newMatrix (length m0) (length m))) (fun r => 
      foreach (seq 0 (length m0)) (fun i result => foreach (seq 0 (length m)) (fun j result => do rj <- idx m j;
        do v <- idx rj i; upd2 result i j v) result) r)) end.
    eapply sim_bind; [apply newMatrixW_sim; assumption|]. intros r ? <- _ _. apply sim_refl.
  Qed.

  Lemma genericEvaluateW_sim (P : Prop) cs x o : cs <> [] -> (forall c0, idx cs 0 = Ret c0 -> (maxAlloc < Z.of_nat (length c0))%Z -> P) ->
    (Z.of_nat (length cs) <= maxInt W)%Z ->
    sim P eq (genericEvaluatePolynomialsAtW W maxAlloc cs x o) (genericEvaluatePolynomialsAt cs x o).
  Proof.
    intros Hn H Hl. unfold genericEvaluatePolynomialsAtW, genericEvaluatePolynomialsAt.
    assert (Hp : 0 < length cs) by (destruct cs; [contradiction|cbn; lia]).
    eapply sim_bind; [apply sim_refl|]. intros c0 ? <- E _. cbv zeta. unfold len.
    change (bind (idx cs (length cs - 1)) ?k) with
      (bind (Ret (zeros (length c0))) (fun _ => bind (idx cs (length cs - 1)) k)).
    eapply sim_bind; [apply zmake_nat; apply H; exact E|]. intros z ? -> _ Ez. injection Ez as <-.
    rewrite (int_to_nat W HW _ (length cs - 1)) by lia. rewrite zidx_nat.
    eapply sim_bind; [apply sim_refl|]. intros top ? <- _ _. rewrite downFrom_nat, foreach_map.
    eapply sim_bind.
    - apply sim_foreach_eq. intros i s _. rewrite zidx_nat. apply sim_refl.
    - intros r ? <- _ _.
      change (zslice o 0 (Z.of_nat (length c0))) with (zslice o (Z.of_nat 0) (Z.of_nat (length c0))).
      rewrite zslice_nat. apply sim_refl.
  Qed.

  Lemma evaluatePolynomialsAtW_sim (P : Prop) ar growcap bb cs x o : cs <> [] ->
    (forall c0, idx cs 0 = Ret c0 -> length bb < length c0 ->
       (Z.min (maxInt W) maxAlloc < Z.of_nat (growcap (length bb) (length c0)))%Z -> P) ->
    (Z.of_nat (length cs) <= maxInt W)%Z ->
    sim P eq (evaluatePolynomialsAtW W maxAlloc ar growcap bb cs x o) (evaluatePolynomialsAt ar growcap bb cs x o).
  Proof.
    intros Hn H Hl. unfold evaluatePolynomialsAtW, evaluatePolynomialsAt.
    assert (Hp : 0 < length cs) by (destruct cs; [contradiction|cbn; lia]).
    eapply sim_bind; [apply sim_refl|]. intros c0 ? <- E _. cbv zeta. unfold len.
    assert (Hz : forall (A : Type) (l : list A), zslice l 0 (Z.of_nat (length c0)) = slice l 0 (length c0)).
    { intros A l. apply (zslice_nat l 0). }
    change (bind (slice (resetGrow growcap bb (length c0)) 0 (length c0)) ?k) with
      (bind (Ret (resetGrow growcap bb (length c0))) (fun rb => bind (slice rb 0 (length c0)) k)).
    eapply sim_bind; [apply resetGrowW_nat; apply H; exact E|]. intros z ? <- _ _.
    rewrite Hz. eapply sim_bind; [apply sim_refl|]. intros res ? <- _ _.
    rewrite (int_to_nat W HW _ (length cs - 1)) by lia. rewrite zidx_nat.
    eapply sim_bind; [apply sim_refl|]. intros top ? <- _ _. rewrite downFrom_nat, foreach_map.
    eapply sim_bind.
    - apply sim_foreach_eq. intros i s _. rewrite zidx_nat. apply sim_refl.
    - intros r ? <- _ _. rewrite Hz. apply sim_refl.
  Qed.
End Matrix.
