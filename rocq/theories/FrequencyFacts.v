(** Counting random strings (C84). *)
From Coq Require Import List NArith ZArith Lia Arith Bool Permutation.
From Coq.Init Require Import Byte.
From Verif Require Import GoSem Bytes Spec Galois GF PolyFacts GoFacts Vector Csprng Pool Polynomial PolynomialFacts Shamir SplitFacts
  CombineFacts RegenFacts Secrecy CsprngFacts CountFacts Derived RandomizerFacts Randomizer Pf1 Pf4 JointFacts SpecFrequency.
Import ListNotations.

(** ** the selection of bytes, step by step *)
Fixpoint good (k0 : byte) (bad : byte -> bool) (T l : list byte) : bool :=
  match l with
  | [] => forallb (fun b => negb (bad b)) T
  | b :: l =>
    if mem b T then if mem (gadd b k0) T then false else good k0 bad (T ++ [gadd b k0]) l
    else good k0 bad (T ++ [b]) l
  end.

Lemma good_picks ks bad : forall l m T, picks ks m T -> (forall i, i < length l -> ks (m + i) = nth i l x00) ->
  good (ks 0) bad T l = true <-> exists out, picks ks (m + length l) out /\ forall b, In b out -> bad b = false.
Proof.
  induction l as [|b l IH]; intros m T P H.
  - cbn [length good]. rewrite Nat.add_0_r, forallb_forall. split.
    + intros F. exists T. split; [exact P|]. intros b Hb. apply F in Hb. destruct (bad b); [discriminate|reflexivity].
    + intros (out & P' & F) x Hx. rewrite (picks_unique ks m _ _ P P') in Hx. rewrite (F x Hx). reflexivity.
  - assert (Hb : ks m = b) by (specialize (H 0 ltac:(cbn; lia)); rewrite Nat.add_0_r in H; exact H).
    assert (H' : forall i, i < length l -> ks (S m + i) = nth i l x00).
    { intros i Hi. specialize (H (S i) ltac:(cbn; lia)). replace (S m + i) with (m + S i) by lia. exact H. }
    cbn [good length]. replace (m + S (length l)) with (S m + length l) by lia.
    destruct (mem b T) eqn:E1.
    + apply mem_In in E1. destruct (mem (gadd b (ks 0)) T) eqn:E2.
      * apply mem_In in E2. split; [discriminate|]. intros (out & P' & _). exfalso. rewrite <- Hb in *.
        apply (picks_stuck ks (S m + length l) out m T P' ltac:(lia) P E1 E2).
      * apply mem_false in E2. apply IH; [|exact H']. apply picks_snoc; [exact P|]. right. rewrite Hb. auto.
    + apply mem_false in E1. apply IH; [|exact H']. apply picks_snoc; [exact P|]. left. rewrite Hb. auto.
Qed.

Lemma good_stream bad x l : good x bad [x] l = true <->
  exists out, picks (stream_of (x :: l)) (S (length l)) out /\ forall b, In b out -> bad b = false.
Proof.
  apply (good_picks (stream_of (x :: l)) bad l 1 [x]).
  - split; [reflexivity|]. intros [|i] Hi; [|lia]. left. split; [cbn; auto|reflexivity].
  - intros i Hi. reflexivity.
Qed.

(** once a bad byte is taken, nothing is good *)
Lemma good_bad k0 bad : forall l T b, In b T -> bad b = true -> good k0 bad T l = false.
Proof.
  induction l as [|c l IH]; intros T b Hb Hbad; cbn [good].
  - apply not_true_is_false. intros F. rewrite forallb_forall in F. specialize (F b Hb). rewrite Hbad in F. discriminate.
  - destruct (mem c T); [destruct (mem (gadd c k0) T); [reflexivity|]|]; apply (IH _ b); try exact Hbad; apply in_or_app; left; exact Hb.
Qed.

(** ** sums *)
Lemma count_cons {A} (P : A -> bool) a l : count P (a :: l) = (if P a then 1 else 0) + count P l.
Proof. unfold count. cbn [filter]. destruct (P a); reflexivity. Qed.

Lemma sum_classes {A} (f : A -> nat) (P Q R : A -> bool) x y z l :
  (forall a, In a l -> f a = if P a then x else if Q a then y else if R a then z else 0) ->
  (forall a, In a l -> P a = true -> Q a = false) -> (forall a, In a l -> P a = true \/ Q a = true -> R a = false) ->
  list_sum (map f l) = count P l * x + count Q l * y + count R l * z.
Proof.
  induction l as [|a l IH]; intros H D1 D2; [reflexivity|].
  cbn [map list_sum fold_right]. rewrite !count_cons.
  assert (IH' := IH (fun b Hb => H b (or_intror Hb)) (fun b Hb => D1 b (or_intror Hb)) (fun b Hb => D2 b (or_intror Hb))).
  unfold list_sum in IH'. rewrite IH', (H a (or_introl eq_refl)).
  specialize (D1 a (or_introl eq_refl)). specialize (D2 a (or_introl eq_refl)).
  destruct (P a); [rewrite (D1 eq_refl) in *; rewrite D2 by auto|destruct (Q a); [rewrite D2 by auto|destruct (R a)]]; lia.
Qed.

Lemma count_add1 (P P' : byte -> bool) x : P x = false -> (forall b, P' b = P b || beq b x) -> count P' all_bytes = S (count P all_bytes).
Proof.
  intros Hx H. assert (G : forall l, NoDup l -> count P' l = count P l + (if in_dec byte_eq_dec x l then 1 else 0)).
  { induction l as [|a l IH]; intros ND; [reflexivity|]. inversion ND as [|? ? Na ND']; subst. rewrite !count_cons, (IH ND'), H.
    destruct (byte_eq_dec a x) as [->|Ne].
    - rewrite Hx. rewrite beq_refl. destruct (in_dec byte_eq_dec x l); [contradiction|]. destruct (in_dec byte_eq_dec x (x :: l)) as [_|N]; [cbn; lia|exfalso; apply N; left; reflexivity].
    - assert (E : beq a x = false) by (apply not_true_is_false; intros F; apply beq_true in F; contradiction). rewrite E, orb_false_r.
      destruct (in_dec byte_eq_dec x l) as [I|I], (in_dec byte_eq_dec x (a :: l)) as [J|J]; try lia; exfalso; [apply J; right; exact I|].
      destruct J as [J|J]; contradiction. }
  rewrite G by apply all_bytes_NoDup. destruct (in_dec byte_eq_dec x all_bytes) as [_|N]; [lia|exfalso; apply N, all_bytes_in].
Qed.

Lemma count_add2 (P P' : byte -> bool) x y : P x = false -> P y = false -> x <> y -> (forall b, P' b = P b || beq b x || beq b y) ->
  count P' all_bytes = S (S (count P all_bytes)).
Proof.
  intros Hx Hy Ne H. rewrite (count_add1 (fun b => P b || beq b x) P' y).
  - f_equal. apply (count_add1 P _ x Hx). reflexivity.
  - rewrite Hy. apply not_true_is_false. intros F. apply beq_true in F. congruence.
  - exact H.
Qed.

Lemma mem_snoc b T x : mem b (T ++ [x]) = mem b T || beq b x.
Proof. unfold mem. rewrite existsb_app. cbn [existsb]. rewrite orb_false_r. reflexivity. Qed.

(** ** the classes of bytes *)
Section Pairs.
Variables (k0 : byte) (bad : byte -> bool).
Hypothesis NZ : k0 <> x00.
Local Notation p b := (gadd b k0).

Lemma p_p b : p (p b) = b.
Proof. ring. Qed.
Lemma p_ne b : p b <> b.
Proof. intros E. apply NZ. assert (E' : gadd (p b) b = x00) by (rewrite E; apply gadd_self). rewrite <- E'. ring. Qed.
Lemma beq_p c x : beq (p c) x = beq c (p x).
Proof.
  destruct (byte_eq_dec c (p x)) as [->|N].
  - rewrite p_p, !beq_refl. reflexivity.
  - transitivity false; [|symmetry; apply beq_false; exact N]. apply beq_false. intros E. apply N. rewrite <- E. rewrite p_p. reflexivity.
Qed.

Definition inF b := bad b || bad (p b).
Definition isA T b := negb (inF b) && negb (mem b T) && negb (mem (p b) T).
Definition isH T b := negb (inF b) && xorb (mem b T) (mem (p b) T).
Definition isU T b := negb (bad b) && bad (p b) && negb (mem b T).

Lemma inF_p b : inF (p b) = inF b.
Proof. unfold inF. rewrite p_p. apply orb_comm. Qed.

Lemma beq_x_px x : beq x (p x) = false.
Proof. apply beq_false. intros E. apply (p_ne x). symmetry. exact E. Qed.

(** the three ways in which a byte can be taken *)
Ltac three c x := destruct (beq c x) eqn:?E1;
  [apply beq_true in E1; subst c|destruct (beq c (p x)) eqn:?E2; [apply beq_true in E2; subst c|]].

Lemma take_fresh T x : isA T x = true ->
  count (isA T) all_bytes = S (S (count (isA (T ++ [x])) all_bytes)) /\
  count (isH (T ++ [x])) all_bytes = S (S (count (isH T) all_bytes)) /\
  count (isU (T ++ [x])) all_bytes = count (isU T) all_bytes.
Proof.
  unfold isA. intros E. apply andb_prop in E as (E & E3). apply andb_prop in E as (E1 & E2).
  apply negb_true_iff in E1, E2, E3. pose proof E1 as E1'. rewrite <- inF_p in E1'. pose proof (beq_x_px x) as Bx.
  assert (Bx' : beq (p x) x = false) by (rewrite beq_p; exact Bx). split; [|split].
  - apply (count_add2 _ _ x (p x)); try (intros E; apply (p_ne x); congruence).
    + rewrite mem_snoc, E2, beq_refl. rewrite andb_false_r. reflexivity.
    + rewrite !mem_snoc, p_p, E2, beq_refl. cbn. rewrite !andb_false_r. reflexivity.
    + intros c. rewrite !mem_snoc, beq_p. destruct (beq c x) eqn:C1; [apply beq_true in C1; subst c|destruct (beq c (p x)) eqn:C2; [apply beq_true in C2; subst c|]].
      * rewrite E1, E2, E3. cbn. rewrite ?orb_true_r. reflexivity.
      * rewrite E1', p_p, E2, E3. cbn. rewrite ?orb_true_r. reflexivity.
      * rewrite !orb_false_r. reflexivity.
  - unfold isH. apply (count_add2 _ _ x (p x)); try (intros E; apply (p_ne x); congruence).
    + rewrite E2, E3. apply andb_false_r.
    + rewrite p_p, E2, E3. apply andb_false_r.
    + intros c. rewrite !mem_snoc, beq_p. destruct (beq c x) eqn:C1; [apply beq_true in C1; subst c|destruct (beq c (p x)) eqn:C2; [apply beq_true in C2; subst c|]].
      * rewrite E1, E2, E3, Bx. reflexivity.
      * rewrite E1', p_p, E2, E3. reflexivity.
      * rewrite !orb_false_r. reflexivity.
  - apply count_ext. intros c _. unfold isU. rewrite mem_snoc. destruct (beq c x) eqn:C1; [|rewrite orb_false_r; reflexivity].
    apply beq_true in C1; subst c. unfold inF in E1. apply orb_false_iff in E1 as (_ & E1). rewrite E1. rewrite !andb_false_r. reflexivity.
Qed.

Lemma take_half T x : inF x = false -> mem x T = false -> mem (p x) T = true ->
  count (isA (T ++ [x])) all_bytes = count (isA T) all_bytes /\
  count (isH T) all_bytes = S (S (count (isH (T ++ [x])) all_bytes)) /\
  count (isU (T ++ [x])) all_bytes = count (isU T) all_bytes.
Proof.
  intros E1 E2 E3. pose proof E1 as E1'. rewrite <- inF_p in E1'. pose proof (beq_x_px x) as Bx.
  assert (Bx' : beq (p x) x = false) by (rewrite beq_p; exact Bx). split; [|split].
  - apply count_ext. intros c _. unfold isA. rewrite !mem_snoc, beq_p. destruct (beq c x) eqn:C1; [apply beq_true in C1; subst c|destruct (beq c (p x)) eqn:C2; [apply beq_true in C2; subst c|]].
    + rewrite E2, E3. cbn. rewrite !andb_false_r. reflexivity.
    + rewrite E3. cbn. rewrite !andb_false_r. reflexivity.
    + rewrite !orb_false_r. reflexivity.
  - unfold isH. apply (count_add2 _ _ x (p x)); try (intros E; apply (p_ne x); congruence).
    + rewrite !mem_snoc, E3, beq_refl, orb_true_r. apply andb_false_r.
    + rewrite !mem_snoc, p_p, E3, beq_refl, orb_true_r. apply andb_false_r.
    + intros c. rewrite !mem_snoc, beq_p. destruct (beq c x) eqn:C1; [apply beq_true in C1; subst c|destruct (beq c (p x)) eqn:C2; [apply beq_true in C2; subst c|]].
      * rewrite E1, E2, E3. cbn. rewrite ?orb_true_r. reflexivity.
      * rewrite E1', p_p, E2, E3. cbn. rewrite ?orb_true_r. reflexivity.
      * rewrite !orb_false_r. reflexivity.
  - apply count_ext. intros c _. unfold isU. rewrite mem_snoc. destruct (beq c x) eqn:C1; [|rewrite orb_false_r; reflexivity].
    apply beq_true in C1; subst c. unfold inF in E1. apply orb_false_iff in E1 as (_ & E1). rewrite E1. rewrite !andb_false_r. reflexivity.
Qed.

Lemma take_spare T x : isU T x = true ->
  count (isA (T ++ [x])) all_bytes = count (isA T) all_bytes /\
  count (isH (T ++ [x])) all_bytes = count (isH T) all_bytes /\
  count (isU T) all_bytes = S (count (isU (T ++ [x])) all_bytes).
Proof.
  unfold isU at 1. intros E. apply andb_prop in E as (E & E3). apply andb_prop in E as (E1 & E2). apply negb_true_iff in E1, E3.
  assert (F : inF x = true) by (unfold inF; rewrite E2; apply orb_true_r). pose proof F as F'. rewrite <- inF_p in F'.
  split; [|split].
  - apply count_ext. intros c _. unfold isA. rewrite !mem_snoc, beq_p. destruct (beq c x) eqn:C1; [apply beq_true in C1; subst c; rewrite F; reflexivity|].
    destruct (beq c (p x)) eqn:C2; [apply beq_true in C2; subst c; rewrite F'; reflexivity|]. rewrite !orb_false_r. reflexivity.
  - apply count_ext. intros c _. unfold isH. rewrite !mem_snoc, beq_p. destruct (beq c x) eqn:C1; [apply beq_true in C1; subst c; rewrite F; reflexivity|].
    destruct (beq c (p x)) eqn:C2; [apply beq_true in C2; subst c; rewrite F'; reflexivity|]. rewrite !orb_false_r. reflexivity.
  - apply (count_add1 _ _ x).
    + unfold isU. rewrite mem_snoc, beq_refl, orb_true_r. apply andb_false_r.
    + intros c. unfold isU. rewrite mem_snoc. destruct (beq c x) eqn:C1; [apply beq_true in C1; subst c; rewrite E1, E2, E3; reflexivity|].
      rewrite !orb_false_r. reflexivity.
Qed.

Definition num P : N := N.of_nat (count P all_bytes).

Lemma good_count : forall m T, (forall b, In b T -> bad b = false) ->
  count (good k0 bad T) (all_strings m) = N.to_nat (ways m (num (isA T)) (num (isH T)) (num (isU T))).
Proof.
  induction m as [|m IH]; intros T HT.
  - cbn [all_strings ways]. unfold count. cbn [filter good]. rewrite (proj2 (forallb_forall _ T)); [reflexivity|].
    intros b Hb. rewrite (HT b Hb). reflexivity.
  - cbn [all_strings]. rewrite count_flat_map.
    rewrite (sum_classes _ (isA T) (isH T) (isU T)
       (N.to_nat (ways m (num (isA T) - 2) (num (isH T) + 2) (num (isU T))))
       (N.to_nat (ways m (num (isA T)) (num (isH T) - 2) (num (isU T))))
       (N.to_nat (ways m (num (isA T)) (num (isH T)) (num (isU T) - 1)))).
    + cbn [ways]. rewrite !N2Nat.inj_add, !N2Nat.inj_mul. unfold num. rewrite !Nat2N.id. reflexivity.
    + intros b _. rewrite count_map. cbn [good].
      assert (Step : forall x, bad x = false -> count (good k0 bad (T ++ [x])) (all_strings m) =
          N.to_nat (ways m (num (isA (T ++ [x]))) (num (isH (T ++ [x]))) (num (isU (T ++ [x]))))).
      { intros x Hx. apply IH. intros c Hc. apply in_app_or in Hc as [Hc|[<-|[]]]; [apply HT; exact Hc|exact Hx]. }
      assert (Bad : forall x, bad x = true -> count (good k0 bad (T ++ [x])) (all_strings m) = 0).
      { intros x Hx. apply count_0. intros l _. apply (good_bad _ _ l _ x); [apply in_or_app; right; left; reflexivity|exact Hx]. }
      assert (S1 : forall x, count (fun l => good k0 bad (T ++ [x]) l) (all_strings m) = count (good k0 bad (T ++ [x])) (all_strings m)) by reflexivity.
      assert (MB : forall x, mem x T = true -> bad x = false) by (intros x Hx; apply HT, mem_In, Hx).
      destruct (isA T b) eqn:EA.
      { destruct (take_fresh T b EA) as (C1 & C2 & C3). unfold isA in EA. apply andb_prop in EA as (EA & E3). apply andb_prop in EA as (E1 & E2).
        apply negb_true_iff in E1, E2, E3. rewrite E2. unfold inF in E1. apply orb_false_iff in E1 as (E1 & _).
        rewrite (S1 b), (Step b E1). unfold num. rewrite C1, C2, C3. f_equal. f_equal; lia. }
      destruct (isH T b) eqn:EH.
      { unfold isH in EH. apply andb_prop in EH as (E1 & E2). apply negb_true_iff in E1. destruct (mem b T) eqn:M1, (mem (p b) T) eqn:M2; try discriminate.
        - assert (E1' : inF (p b) = false) by (rewrite inF_p; exact E1).
          destruct (take_half T (p b) E1' M2 ltac:(rewrite p_p; exact M1)) as (C1 & C2 & C3).
          unfold inF in E1'. apply orb_false_iff in E1' as (E1' & _). rewrite (S1 (p b)), (Step _ E1'). unfold num. rewrite C1, C2, C3. f_equal. f_equal; lia.
        - destruct (take_half T b E1 M1 M2) as (C1 & C2 & C3).
          unfold inF in E1. apply orb_false_iff in E1 as (E1 & _). rewrite (S1 b), (Step _ E1). unfold num. rewrite C1, C2, C3. f_equal. f_equal; lia. }
      destruct (isU T b) eqn:EU.
      { destruct (take_spare T b EU) as (C1 & C2 & C3). unfold isU in EU. apply andb_prop in EU as (EU & E3). apply andb_prop in EU as (E1 & E2).
        apply negb_true_iff in E1, E3. rewrite E3, (S1 b), (Step b E1). unfold num. rewrite C1, C2, C3. f_equal. f_equal; lia. }
      destruct (mem b T) eqn:M1.
      { destruct (mem (p b) T) eqn:M2; [apply count_0; reflexivity|]. apply Bad. unfold isH in EH. rewrite M1, M2 in EH. cbn in EH. rewrite andb_true_r in EH.
        apply negb_false_iff in EH. unfold inF in EH. rewrite (MB b M1) in EH. exact EH. }
      apply Bad. apply not_false_is_true. intros Bb. unfold isA, isH, isU in *. rewrite M1, Bb in *. unfold inF in *. rewrite Bb in *. cbn in *.
      destruct (bad (p b)); cbn in *; [discriminate|]. destruct (mem (p b) T); discriminate.
    + intros b _ EA. unfold isA in EA. apply andb_prop in EA as (EA & E3). apply andb_prop in EA as (E1 & E2). apply negb_true_iff in E2, E3.
      unfold isH. rewrite E2, E3. apply andb_false_r.
    + intros b _ E. unfold isU. destruct (bad (p b)) eqn:Bp; [|rewrite andb_false_r; reflexivity].
      exfalso. assert (F : inF b = true) by (unfold inF; rewrite Bp; apply orb_true_r). unfold isA, isH in E. rewrite F in E. destruct E; discriminate.
Qed.
End Pairs.

(** ** different bytes *)
Definition isN (bad : byte -> bool) T b := negb (bad b) && negb (mem b T).

Lemma distinct_count bad : forall m T, (forall b, In b T -> bad b = false) ->
  count (good x00 bad T) (all_strings m) = N.to_nat (falling (num (isN bad T)) m).
Proof.
  induction m as [|m IH]; intros T HT.
  - cbn [all_strings falling]. unfold count. cbn [filter good]. rewrite (proj2 (forallb_forall _ T)); [reflexivity|].
    intros b Hb. rewrite (HT b Hb). reflexivity.
  - cbn [all_strings]. rewrite count_flat_map.
    rewrite (sum_classes _ (isN bad T) (fun _ => false) (fun _ => false) (N.to_nat (falling (num (isN bad T) - 1) m)) 0 0); try reflexivity.
    + cbn [falling]. rewrite !Nat.mul_0_r, !Nat.add_0_r, N2Nat.inj_mul. unfold num. rewrite Nat2N.id. reflexivity.
    + intros b _. rewrite count_map. cbn [good]. rewrite gadd_0_r. unfold isN at 1. destruct (mem b T) eqn:M; [rewrite andb_false_r; apply count_0; reflexivity|].
      rewrite andb_true_r. destruct (bad b) eqn:Bb; cbn [negb].
      * apply count_0. intros l _. apply (good_bad _ _ l _ b); [apply in_or_app; right; left; reflexivity|exact Bb].
      * rewrite IH by (intros c Hc; apply in_app_or in Hc as [Hc|[<-|[]]]; [apply HT; exact Hc|exact Bb]). f_equal. f_equal. unfold num.
        rewrite (count_add1 (isN bad (T ++ [b])) (isN bad T) b).
        -- lia.
        -- unfold isN. rewrite mem_snoc, beq_refl, orb_true_r. apply andb_false_r.
        -- intros c. unfold isN. rewrite mem_snoc. destruct (beq c b) eqn:C; [apply beq_true in C; subst c; rewrite Bb, M; reflexivity|]. rewrite !orb_false_r. reflexivity.
Qed.

Lemma count_none {A} (l : list A) : count (fun _ => false) l = 0.
Proof. apply count_0. reflexivity. Qed.
Lemma count_all {A} (l : list A) : count (fun _ => true) l = length l.
Proof. unfold count. induction l as [|a l IH]; [reflexivity|]. cbn. rewrite IH. reflexivity. Qed.

Definition nobad (b : byte) : bool := false.
Definition isff (b : byte) : bool := beq b xff.

Lemma classes_nobad k0 : k0 <> x00 -> num (isA k0 nobad [k0]) = 254%N /\ num (isH k0 nobad [k0]) = 2%N /\ num (isU k0 nobad [k0]) = 0%N.
Proof.
  intros NZ. destruct (take_fresh k0 nobad NZ [] k0 eq_refl) as (C1 & C2 & C3). cbn [app] in *.
  assert (E1 : count (isA k0 nobad []) all_bytes = 256) by (transitivity (count (fun _ : byte => true) all_bytes); [apply count_ext; intros; reflexivity|rewrite count_all; reflexivity]).
  assert (E2 : count (isH k0 nobad []) all_bytes = 0) by (transitivity (count (fun _ : byte => false) all_bytes); [apply count_ext; intros; reflexivity|apply count_none]).
  assert (E3 : count (isU k0 nobad []) all_bytes = 0) by (transitivity (count (fun _ : byte => false) all_bytes); [apply count_ext; intros; reflexivity|apply count_none]).
  unfold num. rewrite C3, E3. rewrite C2, E2. rewrite E1 in C1. split; [lia|]. split; lia.
Qed.

Lemma classes_isff k0 : k0 <> x00 -> k0 <> xff -> num (isA k0 isff [k0]) = 252%N /\ num (isH k0 isff [k0]) = 2%N /\ num (isU k0 isff [k0]) = 1%N.
Proof.
  intros NZ NF.
  assert (EF : forall b, inF k0 isff b = beq b xff || beq b (gadd xff k0)) by (intros b; unfold inF, isff; rewrite (beq_p k0); reflexivity).
  assert (Ap : isA k0 isff [] k0 = true).
  { unfold isA. cbn [mem existsb]. rewrite EF. replace (beq k0 xff) with false by (symmetry; apply beq_false; exact NF).
    replace (beq k0 (gadd xff k0)) with false; [reflexivity|]. symmetry. apply beq_false. intros E.
    assert (E' : gadd k0 k0 = gadd (gadd xff k0) k0) by (rewrite <- E; reflexivity). rewrite gadd_self in E'. rewrite (p_p k0) in E'. discriminate. }
  destruct (take_fresh k0 isff NZ [] k0 Ap) as (C1 & C2 & C3). cbn [app] in *.
  assert (E1 : count (isA k0 isff []) all_bytes = 254).
  { pose proof (count_negb (inF k0 isff) all_bytes) as S. rewrite all_bytes_length in S.
    assert (F2 : count (inF k0 isff) all_bytes = 2).
    { rewrite (count_add2 (fun _ => false) _ xff (gadd xff k0)); [rewrite count_none; reflexivity|reflexivity|reflexivity| |].
      - intros E. apply (p_ne k0 NZ xff). symmetry. exact E.
      - intros b. rewrite EF. reflexivity. }
    rewrite (count_ext (isA k0 isff []) (fun b => negb (inF k0 isff b))); [lia|]. intros b _. unfold isA. cbn [mem existsb]. rewrite !andb_true_r. reflexivity. }
  assert (E2 : count (isH k0 isff []) all_bytes = 0).
  { transitivity (count (fun _ : byte => false) all_bytes); [apply count_ext|apply count_none]. intros b _. unfold isH. cbn. apply andb_false_r. }
  assert (E3 : count (isU k0 isff []) all_bytes = 1).
  { rewrite (count_add1 (fun _ => false) _ (gadd xff k0)); [rewrite count_none; reflexivity|reflexivity|].
    intros b. unfold isU, isff. cbn [mem existsb]. rewrite (beq_p k0), andb_true_r. cbn [orb]. destruct (beq b (gadd xff k0)) eqn:E; [|apply andb_false_r].
    apply beq_true in E. subst b. replace (beq (gadd xff k0) xff) with false; [reflexivity|]. symmetry. apply beq_false, p_ne, NZ. }
  unfold num. rewrite C3, E3. rewrite C2, E2. rewrite E1 in C1. split; [lia|]. split; lia.
Qed.

(** ** all key streams *)
Lemma all_returning m : count (fun r => good (nth 0 r x00) nobad [nth 0 r x00] (skipn 1 r)) (all_strings (S m)) = N.to_nat (returning_keys (S m)).
Proof.
  cbn [all_strings]. rewrite count_flat_map.
  rewrite (sum_classes _ (fun b => beq b x00) (fun b => negb (beq b x00)) (fun _ => false) (N.to_nat (falling 255 m)) (N.to_nat (ways m 254 2 0)) 0).
  - pose proof (count_negb (fun b => beq b x00) all_bytes) as S. rewrite all_bytes_length in S.
    assert (E : count (fun b => beq b x00) all_bytes = 1) by (rewrite (count_add1 (fun _ => false) _ x00); [rewrite count_none; reflexivity|reflexivity|intros; reflexivity]).
    rewrite E in *. unfold returning_keys. rewrite Nat.sub_succ, Nat.sub_0_r. rewrite N2Nat.inj_add, N2Nat.inj_mul. change (N.to_nat 255) with 255. nia.
  - intros b _. rewrite count_map. cbn [nth skipn]. destruct (beq b x00) eqn:E; cbn [negb].
    + apply beq_true in E. subst b. etransitivity; [apply (distinct_count nobad m [x00]); intros; reflexivity|]. apply (f_equal (fun a => N.to_nat (falling a m))).
      unfold num. rewrite (count_ext _ (fun b => negb (beq b x00))) by (intros b _; unfold isN, nobad; cbn [negb andb mem existsb]; rewrite orb_false_r; reflexivity).
      pose proof (count_negb (fun b => beq b x00) all_bytes) as S. rewrite all_bytes_length in S.
      rewrite (count_add1 (fun _ => false) (fun b => beq b x00) x00), count_none in S by reflexivity. lia.
    + apply beq_false in E. etransitivity; [apply (good_count b nobad E m [b]); intros; reflexivity|].
      destruct (classes_nobad b E) as (-> & -> & ->). reflexivity.
  - intros b _ E. rewrite E. reflexivity.
  - reflexivity.
Qed.

Lemma all_usable m : count (fun r => good (nth 0 r x00) isff [nth 0 r x00] (skipn 1 r)) (all_strings (S m)) = N.to_nat (usable_keys (S m)).
Proof.
  cbn [all_strings]. rewrite count_flat_map.
  assert (Cx : count (fun b => beq b x00) all_bytes = 1) by (rewrite (count_add1 (fun _ => false) _ x00); [rewrite count_none; reflexivity|reflexivity|intros; reflexivity]).
  assert (C2 : count (fun b => beq b x00 || beq b xff) all_bytes = 2).
  { rewrite (count_add2 (fun _ => false) _ x00 xff); [rewrite count_none; reflexivity|reflexivity|reflexivity|discriminate|reflexivity]. }
  pose proof (count_negb (fun b => beq b x00 || beq b xff) all_bytes) as S. rewrite all_bytes_length, C2 in S.
  rewrite (sum_classes _ (fun b => beq b x00) (fun b => negb (beq b x00 || beq b xff)) (fun _ => false) (N.to_nat (falling 254 m)) (N.to_nat (ways m 252 2 1)) 0).
  - rewrite Cx. unfold usable_keys. rewrite Nat.sub_succ, Nat.sub_0_r. rewrite N2Nat.inj_add, N2Nat.inj_mul. change (N.to_nat 254) with 254. nia.
  - intros b _. rewrite count_map. cbn [nth skipn]. destruct (beq b x00) eqn:E; cbn [negb orb].
    + apply beq_true in E. subst b. etransitivity; [apply (distinct_count isff m [x00]); intros c [<-|[]]; reflexivity|]. apply (f_equal (fun a => N.to_nat (falling a m))).
      unfold num. rewrite (count_ext _ (fun b => negb (beq b x00 || beq b xff))); [lia|].
      intros b _. unfold isN, isff. cbn [mem existsb]. rewrite orb_false_r, negb_orb. apply andb_comm.
    + apply beq_false in E. destruct (beq b xff) eqn:F; cbn [negb].
      * apply count_0. intros l _. apply (good_bad _ _ l _ b); [left; reflexivity|exact F].
      * apply beq_false in F. etransitivity; [apply (good_count b isff E m [b]); intros c [<-|[]]; apply beq_false; exact F|].
        destruct (classes_isff b E F) as (-> & -> & ->). reflexivity.
  - intros b _ E. rewrite E. reflexivity.
  - reflexivity.
Qed.

(** a test that looks at the first [n] bytes only *)
Lemma count_prefix (P : list byte -> bool) n d : (forall r, In r (all_strings (n + d)) -> P r = P (firstn n r)) ->
  count P (all_strings (n + d)) = count P (all_strings n) * 256 ^ d.
Proof.
  intros H. rewrite count_strings. rewrite (sum_classes _ P (fun _ => false) (fun _ => false) (256 ^ d) 0 0); try reflexivity; [lia|].
  intros r1 H1. apply all_strings_in in H1. rewrite (count_ext _ (fun _ => P r1)).
  - destruct (P r1); [rewrite count_all; apply all_strings_length|apply count_none].
  - intros r2 H2. apply all_strings_in in H2. rewrite H by (apply all_strings_in; rewrite app_length; lia).
    f_equal. rewrite <- H1. rewrite firstn_app, Nat.sub_diag, firstn_O, app_nil_r, firstn_all. reflexivity.
Qed.
