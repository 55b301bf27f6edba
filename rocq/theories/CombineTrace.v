(** The records of Combine (C66). *)
From Coq Require Import List NArith ZArith Lia Arith Bool.
From Coq.Init Require Import Byte.
From Verif Require Import GoSem Bytes Spec Galois GaloisTables ShamirTables Vector Csprng Pool Polynomial Shamir GoFacts GF CombineFacts Trace SpecTrace TraceFacts.
Import ListNotations.
Local Open Scope go_scope.

Lemma logTable_length : length logTable = 256.
Proof. vm_compute. reflexivity. Qed.
Lemma log_idx a : idx logTable (b2i a) = Ret (nth (b2i a) logTable x00).
Proof. apply idx_ok. rewrite logTable_length. apply b2i_lt. Qed.

Lemma fst_tbind_inv {A B} (f : T A) (k : A -> T B) r : fst (tbind f k) = Ret r -> exists a, fst f = Ret a /\ fst (k a) = Ret r.
Proof. rewrite fst_tbind. destruct (fst f) as [a|e|p| |]; cbn [bind]; try discriminate. intros E. exists a. split; [reflexivity|exact E]. Qed.

Lemma tmult_rec a b : exists e, snd (tmult a b) = [LogT a; LogT b; ExpT e].
Proof.
  unfold tmult. rewrite !log_idx. rewrite (snd_tlift _ _ _ eq_refl), (snd_tlift _ _ _ eq_refl). cbv zeta.
  rewrite (snd_tbind _ _ tt) by reflexivity. cbn [snd emit]. eexists. unfold tbind. cbn [snd fst tlift]. destruct (idx expTable _); reflexivity.
Qed.
Lemma tdiv_rec a b r : fst (tdiv a b) = Ret r -> exists e, snd (tdiv a b) = [Branch false; LogT a; LogT b; ExpT e].
Proof.
  intros H. apply fst_tbind_inv in H as (u & _ & H). unfold tdiv. destruct u. destruct (beq b x00); [discriminate H|].
  rewrite (snd_tbind _ _ tt) by reflexivity. cbn [snd emit]. rewrite !log_idx. rewrite (snd_tlift _ _ _ eq_refl), (snd_tlift _ _ _ eq_refl). cbv zeta.
  rewrite (snd_tbind _ _ tt) by reflexivity. cbn [snd emit]. eexists. destruct (_ <? _)%Z; [reflexivity|]. unfold tbind. cbn [snd fst tlift]. destruct (idx expTable _); reflexivity.
Qed.

Lemma app_inj {A} (a b c d : list A) : a ++ c = b ++ d -> length a = length b -> a = b /\ c = d.
Proof. revert b. induction a as [|x a IH]; intros [|y b] E L; try discriminate L; [split; [reflexivity|exact E]|]. injection E as -> E. destruct (IH b E) as [-> ->]; [injection L as L; exact L|split; reflexivity]. Qed.

(** two runs of a loop whose steps record equally many events *)
Lemma tforeach_inj {X S1 S2} (R : S1 -> S2 -> Prop) (P : X -> Prop) (f1 : X -> S1 -> T S1) (f2 : X -> S2 -> T S2) l :
  (forall x s1 s2 r1 r2, In x l -> fst (f1 x s1) = Ret r1 -> fst (f2 x s2) = Ret r2 ->
     length (snd (f1 x s1)) = length (snd (f2 x s2)) /\ (R s1 s2 -> snd (f1 x s1) = snd (f2 x s2) -> R r1 r2 /\ P x)) ->
  forall s1 s2 r1 r2, fst (tforeach l f1 s1) = Ret r1 -> fst (tforeach l f2 s2) = Ret r2 ->
    length (snd (tforeach l f1 s1)) = length (snd (tforeach l f2 s2)) /\
    (R s1 s2 -> snd (tforeach l f1 s1) = snd (tforeach l f2 s2) -> R r1 r2 /\ forall x, In x l -> P x).
Proof.
  induction l as [|x l IH]; intros H s1 s2 r1 r2 E1 E2.
  - cbn [tforeach tret fst snd] in *. split; [reflexivity|]. intros HR _. injection E1 as <-. injection E2 as <-. split; [exact HR|intros x []].
  - cbn [tforeach] in *. apply fst_tbind_inv in E1 as (a1 & F1 & E1). apply fst_tbind_inv in E2 as (a2 & F2 & E2).
    destruct (H x s1 s2 a1 a2 (or_introl eq_refl) F1 F2) as [HL HP].
    destruct (IH (fun y t1 t2 u1 u2 Hy => H y t1 t2 u1 u2 (or_intror Hy)) a1 a2 r1 r2 E1 E2) as [IL IP].
    rewrite (snd_tbind _ _ a1 F1), (snd_tbind _ _ a2 F2), !app_length. split; [lia|].
    intros HR EQ. apply app_inj in EQ as [Q1 Q2]; [|exact HL]. destruct (HP HR Q1) as [HR' Px]. destruct (IP HR' Q2) as [HR'' PX].
    split; [exact HR''|]. intros y [<-|Hy]; [exact Px|apply PX, Hy].
Qed.

Definition innerStep (xs : list byte) (x : byte) (i : nat) : nat -> byte -> T byte :=
  fun j basis =>
    if i =? j then tret basis
    else
      tdo xj <- tlift (idx xs j);
      tdo xi <- tlift (idx xs i);
      let num := add x xj in
      let denom := add xi xj in
      tdo term <- tdiv num denom;
      tmult basis term.

Lemma inner_rec xs x i j b r : fst (innerStep xs x i j b) = Ret r ->
  if i =? j then snd (innerStep xs x i j b) = []
  else exists xj xi t e1 e2, idx xs j = Ret xj /\ idx xs i = Ret xi /\
    snd (innerStep xs x i j b) = [Branch false; LogT (add x xj); LogT (add xi xj); ExpT e1; LogT b; LogT t; ExpT e2].
Proof.
  intros H. unfold innerStep in *. destruct (i =? j); [reflexivity|].
  apply fst_tbind_inv in H as (xj & E1 & H). cbn [fst tlift] in E1. apply fst_tbind_inv in H as (xi & E2 & H). cbn [fst tlift] in E2. cbv zeta in H.
  apply fst_tbind_inv in H as (t & E3 & H). destruct (tdiv_rec _ _ _ E3) as (e1 & R1). destruct (tmult_rec b t) as (e2 & R2).
  exists xj, xi, t, e1, e2. split; [exact E1|]. split; [exact E2|]. rewrite (snd_tlift _ _ _ E1), (snd_tlift _ _ _ E2). cbv zeta. rewrite (snd_tbind _ _ t E3), R1, R2. reflexivity.
Qed.

Lemma add_inj x a b : add x a = add x b -> a = b.
Proof. unfold add. intros E. assert (Q : gadd x (gadd x a) = gadd x (gadd x b)) by (change gadd with bxor; rewrite E; reflexivity). revert Q. change bxor with gadd.
  replace (gadd x (gadd x a)) with a by (transitivity (gadd (gadd x x) a); [rewrite gadd_self; symmetry; apply gadd_0_l|ring]).
  replace (gadd x (gadd x b)) with b by (transitivity (gadd (gadd x x) b); [rewrite gadd_self; symmetry; apply gadd_0_l|ring]). exact (fun e => e). Qed.

Lemma interp_inj xs1 ys1 xs2 ys2 x r1 r2 : length xs1 = length xs2 -> fst (tinterpolatePolynomial xs1 ys1 x) = Ret r1 -> fst (tinterpolatePolynomial xs2 ys2 x) = Ret r2 ->
  length (snd (tinterpolatePolynomial xs1 ys1 x)) = length (snd (tinterpolatePolynomial xs2 ys2 x)) /\
  (snd (tinterpolatePolynomial xs1 ys1 x) = snd (tinterpolatePolynomial xs2 ys2 x) ->
   forall i, i < length xs1 -> idx ys1 i = idx ys2 i /\ forall j, j < length xs1 -> i <> j -> idx xs1 j = idx xs2 j).
Proof.
  intros HL. unfold tinterpolatePolynomial. cbv zeta. rewrite <- HL. intros E1 E2.
  match type of E1 with fst (tforeach _ ?f1 _) = _ => match type of E2 with fst (tforeach _ ?f2 _) = _ =>
    edestruct (tforeach_inj (fun _ _ => True) (fun i => idx ys1 i = idx ys2 i /\ forall j, j < length xs1 -> i <> j -> idx xs1 j = idx xs2 j) f1 f2 (seq 0 (length xs1))) as [Q1 Q2];
      [|exact E1|exact E2|] end end.
  - intros i s1 s2 u1 u2 Hi F1 F2. fold (innerStep xs1 x i) in F1 |- *. fold (innerStep xs2 x i) in F2 |- *.
    apply fst_tbind_inv in F1 as (b1 & G1 & F1). apply fst_tbind_inv in F2 as (b2 & G2 & F2).
    edestruct (tforeach_inj (fun _ _ => True) (fun j => i <> j -> idx xs1 j = idx xs2 j) (innerStep xs1 x i) (innerStep xs2 x i) (seq 0 (length xs1))) as [I1 I2];
      [|exact G1|exact G2|].
    { intros j c1 c2 v1 v2 _ H1 H2. apply inner_rec in H1. apply inner_rec in H2. destruct (Nat.eqb_spec i j) as [e|ne].
      - rewrite H1, H2. split; [reflexivity|]. intros _ _. split; [exact I|]. intros NE. congruence.
      - destruct H1 as (xj & xi & t & e1 & e2 & D1 & D2 & ->). destruct H2 as (xj' & xi' & t' & e1' & e2' & D1' & D2' & ->). split; [reflexivity|].
        intros _ EQ. split; [exact I|]. intros _. injection EQ as Q1 Q2 Q3 Q4 Q5 Q6. apply add_inj in Q1. rewrite D1, D1', Q1. reflexivity. }
    apply fst_tbind_inv in F1 as (y1 & Y1 & F1). apply fst_tbind_inv in F2 as (y2 & Y2 & F2). cbn [fst tlift] in Y1, Y2.
    apply fst_tbind_inv in F1 as (g1 & M1 & F1). apply fst_tbind_inv in F2 as (g2 & M2 & F2).
    rewrite (snd_tbind _ _ b1 G1), (snd_tbind _ _ b2 G2), (snd_tlift _ _ y1 Y1), (snd_tlift _ _ y2 Y2), (snd_tbind _ _ g1 M1), (snd_tbind _ _ g2 M2).
    destruct (tmult_rec y1 b1) as (e1 & ->), (tmult_rec y2 b2) as (e2 & ->). cbn [app snd tret]. rewrite !app_length. cbn [length]. split; [lia|]. intros _ EQ. split; [exact I|].
    apply app_inj in EQ as [K1 K2]; [|exact I1]. destruct (I2 I K1) as [_ I3]. cbn [app snd tret] in K2. injection K2 as K2 _ _. rewrite Y1, Y2, K2. split; [reflexivity|].
    intros j Lj NE. apply I3; [apply in_seq; lia|exact NE].
  - split; [exact Q1|]. intros EQ i Hi. destruct (Q2 I EQ) as [_ Q3]. apply Q3, in_seq. lia.
Qed.

(** the branches *)
Lemma branches_app a b : branches (a ++ b) = branches a ++ branches b.
Proof. apply filter_app. Qed.
Fixpoint sumOf {X} (n : X -> nat) (l : list X) : nat := match l with [] => 0 | x :: r => n x + sumOf n r end.
Lemma tforeach_branches {X S} (e : event) (n : X -> nat) (f : X -> S -> T S) l :
  (forall x s r, In x l -> fst (f x s) = Ret r -> branches (snd (f x s)) = repeat e (n x)) ->
  forall s r, fst (tforeach l f s) = Ret r -> branches (snd (tforeach l f s)) = repeat e (sumOf n l).
Proof.
  induction l as [|x l IH]; intros H s r E; [reflexivity|]. cbn [tforeach sumOf] in *. apply fst_tbind_inv in E as (a & F & E).
  rewrite (snd_tbind _ _ a F), branches_app, repeat_app. f_equal; [eapply H; [left; reflexivity|exact F]|]. eapply IH; [|exact E]. intros y t u Hy. apply H. right. exact Hy.
Qed.
Lemma sumOf_const {X} (c : nat) (l : list X) : sumOf (fun _ => c) l = length l * c.
Proof. induction l as [|x l IH]; cbn [sumOf length Nat.mul]; [reflexivity|]. rewrite IH. reflexivity. Qed.
Lemma sumOf_others i n : forall s, s <= i < s + n -> sumOf (fun j => if i =? j then 0 else 1) (seq s n) = n - 1.
Proof.
  assert (O : forall n s, i < s -> sumOf (fun j => if i =? j then 0 else 1) (seq s n) = n).
  { clear. induction n as [|n IH]; intros s L; [reflexivity|]. cbn [seq sumOf]. rewrite IH by lia. destruct (Nat.eqb_spec i s); lia. }
  induction n as [|n IH]; intros s L; [lia|]. cbn [seq sumOf]. destruct (Nat.eqb_spec i s) as [e|ne]; [rewrite O by lia; lia|]. rewrite IH by lia. lia.
Qed.
Lemma interp_branches xs ys x r : fst (tinterpolatePolynomial xs ys x) = Ret r ->
  branches (snd (tinterpolatePolynomial xs ys x)) = repeat (Branch false) (length xs * (length xs - 1)).
Proof.
  unfold tinterpolatePolynomial. cbv zeta. intros E.
  replace (length xs * (length xs - 1)) with (sumOf (fun _ => length xs - 1) (seq 0 (length xs))) by (rewrite sumOf_const, seq_length; reflexivity).
  eapply tforeach_branches; [|exact E]. clear E r. intros i s r Hi F. fold (innerStep xs x i) in F |- *. apply in_seq in Hi.
  apply fst_tbind_inv in F as (b & G & F). apply fst_tbind_inv in F as (y & Y & F). cbn [fst tlift] in Y. apply fst_tbind_inv in F as (g & M & F).
  rewrite (snd_tbind _ _ b G), (snd_tlift _ _ y Y), (snd_tbind _ _ g M). destruct (tmult_rec y b) as (e & ->). rewrite branches_app. cbn [app snd tret branches filter]. rewrite app_nil_r.
  rewrite <- (sumOf_others i (length xs) 0) by lia. eapply tforeach_branches; [|exact G]. intros j t u _ H. apply inner_rec in H. destruct (i =? j); [rewrite H; reflexivity|].
  destruct H as (xj & xi & t' & e1 & e2 & _ & _ & ->). reflexivity.
Qed.

(** ** Combine *)
Lemma tinterpolateAll_erase n parts xs x : forall out, fst (tinterpolateAll n parts xs x out) = interpolateAll n parts xs x out.
Proof.
  intros out. unfold tinterpolateAll, interpolateAll. rewrite fst_tforeach. apply foreach_ext. intros j o. rewrite fst_tbind. cbn [fst tlift]. apply bind_ext. intros ys.
  rewrite fst_tbind, tinterpolate_erase. reflexivity.
Qed.

Lemma tCombine_unfold parts r : fst (tCombine parts) = Ret r ->
  exists L, L = length (nth 0 parts []) /\ 2 <= length parts /\ 2 <= L /\ (forall p, In p parts -> length p = L) /\
    fst (tinterpolateAll (L - 1) parts (map tag parts) x00 (zeros (L - 1))) = Ret r /\
    snd (tCombine parts) = snd (tinterpolateAll (L - 1) parts (map tag parts) x00 (zeros (L - 1))).
Proof.
  intros E. pose proof E as E'. rewrite tCombine_erase in E'. apply Combine_inv in E' as (L & H1 & H2 & H3 & ND & _ & HL).
  exists L. split; [exact HL|]. split; [exact H1|]. split; [exact H2|]. split; [exact H3|]. unfold tCombine in *.
  destruct (checkParts parts); [discriminate E|]. rewrite <- HL in *. cbv zeta in *. rewrite (collectTags_ok L) in * by (assumption || lia).
  rewrite (snd_tlift _ _ _ eq_refl). split; [exact E|reflexivity].
Qed.

Lemma tCombine_branches parts r : fst (tCombine parts) = Ret r ->
  branches (snd (tCombine parts)) = repeat (Branch false) (length r * (length parts * (length parts - 1))).
Proof.
  intros E. pose proof E as E'. apply tCombine_unfold in E as (L & HL & H1 & H2 & H3 & E & ->).
  assert (LR : length r = L - 1). { rewrite tCombine_erase in E'. apply Combine_inv in E' as (L' & _ & _ & _ & _ & -> & ->). unfold interpAt. rewrite map_length, seq_length, HL. reflexivity. }
  rewrite LR. unfold tinterpolateAll in *.
  replace ((L - 1) * (length parts * (length parts - 1))) with (sumOf (fun _ => length parts * (length parts - 1)) (seq 0 (L - 1))) by (rewrite sumOf_const, seq_length; reflexivity).
  eapply tforeach_branches; [|exact E]. intros j s u _ F. apply fst_tbind_inv in F as (ys & Y & F). cbn [fst tlift] in Y. apply fst_tbind_inv in F as (v & V & F).
  rewrite (snd_tlift _ _ ys Y), (snd_tbind _ _ v V). cbn [snd tlift]. rewrite app_nil_r. rewrite (interp_branches _ _ _ _ V), map_length. reflexivity.
Qed.

Lemma tCombine_inj p1 p2 r1 r2 : fst (tCombine p1) = Ret r1 -> fst (tCombine p2) = Ret r2 -> length p1 = length p2 -> length r1 = length r2 ->
  snd (tCombine p1) = snd (tCombine p2) -> p1 = p2.
Proof.
  intros E1 E2 LP LR EQ.
  assert (LL : forall p r, fst (tCombine p) = Ret r -> length r = length (nth 0 p []) - 1).
  { clear. intros p r E. rewrite tCombine_erase in E. apply Combine_inv in E as (L & _ & _ & _ & _ & -> & ->). unfold interpAt. rewrite map_length, seq_length. reflexivity. }
  rewrite (LL _ _ E1), (LL _ _ E2) in LR. clear LL.
  apply tCombine_unfold in E1 as (L & HL & A1 & A2 & A3 & E1 & F1). apply tCombine_unfold in E2 as (L2 & HL2 & B1 & B2 & B3 & E2 & F2). rewrite F1, F2 in EQ. clear F1 F2.
  assert (L2 = L) by lia. subst L2. clear LR. rewrite H in *. clear H. unfold tinterpolateAll in *.
  match type of E1 with fst (tforeach _ ?f1 _) = _ => match type of E2 with fst (tforeach _ ?f2 _) = _ =>
    edestruct (tforeach_inj (fun _ _ => True) (fun j => forall i, i < length p1 -> nth j (nth i p1 []) x00 = nth j (nth i p2 []) x00 /\
       forall i', i' < length p1 -> i <> i' -> tag (nth i' p1 []) = tag (nth i' p2 [])) f1 f2 (seq 0 (L - 1))) as [_ Q2];
      [|exact E1|exact E2|] end end.
  - intros j s1 s2 u1 u2 Hj G1 G2. apply in_seq in Hj. rewrite (column_ok p1 L) in * by (assumption || lia). rewrite (column_ok p2 L) in * by (assumption || lia).
    apply fst_tbind_inv in G1 as (ys1 & Y1 & G1). cbn [fst tlift] in Y1. injection Y1 as <-. apply fst_tbind_inv in G2 as (ys2 & Y2 & G2). cbn [fst tlift] in Y2. injection Y2 as <-.
    apply fst_tbind_inv in G1 as (v1 & V1 & G1). apply fst_tbind_inv in G2 as (v2 & V2 & G2).
    rewrite !(snd_tlift _ _ _ eq_refl), (snd_tbind _ _ v1 V1), (snd_tbind _ _ v2 V2). cbn [snd tlift]. rewrite !app_nil_r.
    destruct (interp_inj (map tag p1) (ycol p1 j) (map tag p2) (ycol p2 j) x00 v1 v2) as [I1 I2]; [rewrite !map_length; exact LP|exact V1|exact V2|].
    split; [exact I1|]. intros _ EQ'. split; [exact I|]. specialize (I2 EQ'). rewrite map_length in I2. intros i Hi. destruct (I2 i Hi) as [J1 J2].
    split.
    + unfold ycol in J1. rewrite (idx_ok _ i x00), (idx_ok _ i x00) in J1 by (rewrite map_length; lia). injection J1 as J1.
      rewrite (nth_map' _ p1 i x00 []), (nth_map' _ p2 i x00 []) in J1 by lia. exact J1.
    + intros i' Hi' NE. specialize (J2 i' Hi' NE). rewrite (idx_ok _ i' x00), (idx_ok _ i' x00) in J2 by (rewrite map_length; lia). injection J2 as J2.
      rewrite (nth_map' _ p1 i' x00 []), (nth_map' _ p2 i' x00 []) in J2 by lia. exact J2.
  - destruct (Q2 I EQ) as [_ Q3]. clear Q2. apply nth_ext with [] []; [exact LP|]. intros i Hi.
    assert (LA : length (nth i p1 []) = L) by (apply A3, nth_In; exact Hi). assert (LB : length (nth i p2 []) = L) by (apply B3, nth_In; lia).
    apply nth_ext with x00 x00; [congruence|]. intros q Hq. rewrite LA in Hq. destruct (Nat.eq_dec q (L - 1)) as [->|NQ].
    + set (k := if i =? 0 then 1 else 0). assert (Hk : k <> i /\ k < length p1) by (unfold k; destruct (Nat.eqb_spec i 0); lia).
      destruct (Q3 0 ltac:(apply in_seq; lia) k (proj2 Hk)) as [_ J]. specialize (J i Hi (proj1 Hk)). unfold tag in J. rewrite !last_nth, LA, LB in J. exact J.
    + apply (Q3 q ltac:(apply in_seq; lia) i Hi).
Qed.
