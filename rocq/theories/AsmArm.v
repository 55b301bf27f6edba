(** The arm64 routines: what each run does to memory. *)
From Coq Require Import List NArith ZArith Lia Arith Bool String Ascii.
From Coq.Init Require Import Byte.
From Verif Require Import GoSem Bytes Vector VectorFacts Asm SpecAsm AsmFacts AsmAmd AsmAvx AsmTop.
Import ListNotations.
Local Open Scope N_scope.

#[local] Arguments seta g d v !r /.
#[local] Arguments setv {A} g d v !r /.

Fixpoint aexec (p : list ainstr) (args : N -> N) (n : nat) (s : astate) : option astate :=
  match n with O => Some s | S k => match astep p args s with Some s1 => aexec p args k s1 | None => None end end.

Lemma aexec_run p args n : forall s s1 s', aexec p args n s = Some s1 -> arun p args s1 s' -> arun p args s s'.
Proof.
  induction n as [|n IH]; intros s s1 s' E R; cbn [aexec] in E; [injection E as <-; exact R|].
  destruct (astep p args s) as [t|] eqn:Es; [|discriminate]. eapply arun_step; [exact Es|]. eapply IH; eassumption.
Qed.

Lemma aexec_app p args n k s s1 s2 : aexec p args n s = Some s1 -> aexec p args k s1 = Some s2 -> aexec p args (n + k) s = Some s2.
Proof.
  revert s; induction n as [|n IH]; intros s E1 E2; cbn [aexec Nat.add] in *; [injection E1 as ->; exact E2|].
  destruct (astep p args s) as [t|]; [|discriminate]. apply IH; assumption.
Qed.

Lemma arun_det p args s s1 : arun p args s s1 -> forall s2, arun p args s s2 -> s1 = s2.
Proof.
  induction 1 as [s R|s t s1 St _ IH]; intros s2 H2; inversion H2 as [u R2|u t2 u2 St2 Ru2]; subst.
  - reflexivity.
  - unfold astep in St2. rewrite R in St2. discriminate.
  - unfold astep in St. rewrite R2 in St. discriminate.
  - rewrite St in St2. injection St2 as <-. apply IH. exact Ru2.
Qed.

Lemma testbit63 x : x < 2 ^ 64 -> N.testbit x 63 = (2 ^ 63 <=? x).
Proof.
  intros H. destruct (N.leb_spec (2 ^ 63) x) as [L|L].
  - apply N.testbit_true. assert (E : x / 2 ^ 63 = 1) by (symmetry; apply (N.div_unique x (2 ^ 63) 1 (x - 2 ^ 63)); lia). rewrite E. reflexivity.
  - apply N.testbit_false. rewrite N.div_small by exact L. reflexivity.
Qed.

Lemma word_lt x : word x < 2 ^ 64.
Proof. apply N.mod_lt. lia. Qed.

Lemma subs_flag r : r < 2 ^ 63 -> N.testbit (word (r + 2 ^ 64 - 32)) 63 = (r <? 32).
Proof.
  intros H. rewrite testbit63 by apply word_lt. unfold word. destruct (N.ltb_spec r 32) as [L|L].
  - rewrite N.mod_small by lia. apply N.leb_le. lia.
  - replace (r + 2 ^ 64 - 32) with (r - 32 + 1 * 2 ^ 64) by lia. rewrite N.mod_add by lia. rewrite N.mod_small by lia. apply N.leb_gt. lia.
Qed.
Lemma subs_val r : 32 <= r < 2 ^ 63 -> word (r + 2 ^ 64 - 32) = r - 32.
Proof. intros H. unfold word. replace (r + 2 ^ 64 - 32) with (r - 32 + 1 * 2 ^ 64) by lia. rewrite N.mod_add by lia. apply N.mod_small. lia. Qed.

(** a loop over 32-byte blocks; [rem] bytes are left, and R2 holds [rem - 32] *)
Definition abody p args f (lp ex : nat) (Inv : astate -> Prop) (K : nat) : Prop :=
  forall s a b rem, Inv s -> apc s = lp -> ag s R1 = a -> ag s R5 = b -> ag s R2 = rem - 32 -> 32 <= rem < 2 ^ 63 ->
     a + 32 < 2 ^ 64 -> b + 32 < 2 ^ 64 -> accessible (amem s) a 32 -> accessible (amem s) b 32 ->
     exists s1, aexec p args K s = Some s1 /\ Inv s1 /\ apc s1 = (if rem - 32 <? 32 then ex else lp) /\
       ag s1 R1 = a + 32 /\ ag s1 R5 = b + 32 /\ (64 <= rem -> ag s1 R2 = rem - 64) /\ rewritten f a b 32 (amem s) (amem s1).

Lemma aloop p args f lp ex Inv K : abody p args f lp ex Inv K ->
  forall n s a b rem, Inv s -> apc s = lp -> ag s R1 = a -> ag s R5 = b -> ag s R2 = rem - 32 -> 32 <= rem < 2 ^ 63 ->
     rem / 32 = N.of_nat n ->
     a + 32 * N.of_nat n < 2 ^ 64 -> b + 32 * N.of_nat n < 2 ^ 64 ->
     accessible (amem s) a (32 * N.of_nat n) -> accessible (amem s) b (32 * N.of_nat n) -> no_forward_overlap a b (32 * N.of_nat n) ->
     exists k s1, aexec p args k s = Some s1 /\ apc s1 = ex /\ rewritten f a b (32 * N.of_nat n) (amem s) (amem s1).
Proof.
  intros Body.
  assert (G : forall n j s m0 a b rem, Inv s -> apc s = lp -> ag s R1 = a + 32 * j -> ag s R5 = b + 32 * j -> ag s R2 = rem - 32 -> 32 <= rem < 2 ^ 63 ->
     rem / 32 = N.of_nat n -> a + 32 * (j + N.of_nat n) < 2 ^ 64 -> b + 32 * (j + N.of_nat n) < 2 ^ 64 ->
     accessible m0 a (32 * (j + N.of_nat n)) -> accessible m0 b (32 * (j + N.of_nat n)) ->
     no_forward_overlap a b (32 * (j + N.of_nat n)) -> rewritten f a b (32 * j) m0 (amem s) ->
     exists k s1, aexec p args k s = Some s1 /\ apc s1 = ex /\ rewritten f a b (32 * (j + N.of_nat n)) m0 (amem s1)).
  { induction n as [|n IH]; intros j s m0 a b rem I P HS HD HR Hr Hn La Lb Ma Mb Ov Rw.
    { exfalso. assert (1 <= rem / 32) by (apply N.div_le_lower_bound; lia). lia. }
    assert (Acc1 : accessible (amem s) (a + 32 * j) 32).
    { eapply rewritten_accessible; [exact Rw|]. eapply accessible_sub; [exact Ma|lia|lia]. }
    assert (Acc2 : accessible (amem s) (b + 32 * j) 32).
    { eapply rewritten_accessible; [exact Rw|]. eapply accessible_sub; [exact Mb|lia|lia]. }
    destruct (Body s _ _ _ I P HS HD HR Hr ltac:(lia) ltac:(lia) Acc1 Acc2) as (s1 & E & I1 & P1 & S1 & D1 & N1 & W1).
    assert (Rw1 : rewritten f a b (32 * (j + 1)) m0 (amem s1)).
    { eapply rewritten_step; [exact Rw|exact W1|lia|]. unfold no_forward_overlap in *. lia. }
    assert (Hd : rem = 32 * (rem / 32) + rem mod 32) by (apply N.div_mod; lia).
    assert (Hm : rem mod 32 < 32) by (apply N.mod_lt; lia). rewrite Hn in Hd.
    remember (rem mod 32) as q eqn:Hq. clear Hq.
    destruct n as [|n].
    - exists K, s1. replace (j + N.of_nat 1) with (j + 1) by lia. split; [exact E|]. split; [|exact Rw1].
      rewrite P1. destruct (N.ltb_spec (rem - 32) 32); [reflexivity|lia].
    - destruct (IH (j + 1) s1 m0 a b (rem - 32)) as (k & s2 & E2 & P2 & R2); try assumption; try lia.
      + rewrite P1. destruct (N.ltb_spec (rem - 32) 32); [lia|reflexivity].
      + symmetry. apply (N.div_unique _ 32 _ q); lia.
      + replace (j + 1 + N.of_nat (S n)) with (j + N.of_nat (S (S n))) by lia. exact Ma.
      + replace (j + 1 + N.of_nat (S n)) with (j + N.of_nat (S (S n))) by lia. exact Mb.
      + replace (j + 1 + N.of_nat (S n)) with (j + N.of_nat (S (S n))) by lia. exact Ov.
      + exists (K + k)%nat, s2. split; [eapply aexec_app; eassumption|]. split; [exact P2|].
        replace (j + N.of_nat (S (S n))) with (j + 1 + N.of_nat (S n)) by lia. exact R2. }
  intros n s a b rem I P HS HD HR Hr Hn La Lb Ma Mb Ov.
  destruct (G n 0 s (amem s) a b rem) as (k & s1 & E & P1 & Rw1); rewrite ?N.mul_0_r, ?N.add_0_r, ?N.add_0_l; try assumption.
  - apply rewritten_0.
  - exists k, s1. split; [exact E|split; [exact P1|exact Rw1]].
Qed.

Ltac ared t :=
  let u := eval lazy beta iota zeta delta [astep nth_error ag av an amem apc alabel String.eqb Ascii.eqb Bool.eqb galXorNEON_code] in t in
  eval cbn [seta setv ar_eqb Nat.eqb] in u.
Lemma aexec_S p args k s : aexec p args (S k) s = match astep p args s with Some s1 => aexec p args k s1 | None => None end.
Proof. reflexivity. Qed.
Ltac as_ tac :=
  rewrite aexec_S;
  match goal with |- context [astep ?p ?a ?s] => let t := ared (astep p a s) in change (astep p a s) with t end;
  tac; cbv iota beta.
Ltac asl := as_ xld.
Ltac aend := cbn [aexec]; eexists; split; [reflexivity|]; cbn [apc ag av amem seta setv ar_eqb Nat.eqb].
Ltac abegin := intros s a b rem I P HS HD HR Hr La Lb Ma Mb; destruct s as [g v z m pc]; cbn [apc ag amem av] in *; subst.
Ltac aunfold := unfold galMulNEON_code, galMulXorNEON_code, neon_head, LOADmacro, GALOIS_MUL; cbn [app].

(** ** values *)
Lemma neon_half low high x : List.length x = 16%nat ->
  pxor (vtbl low (pand x mask16)) (vtbl high (vushr4 x)) = map (nibbles low high) x.
Proof.
  intros H. unfold pand, mask16. rewrite !map2_repeat_r by exact H. rewrite vtbl_pshufb_low, vtbl_high. unfold pxor. rewrite map2_map.
  apply map_ext. intros b. apply nibbles_eq.
Qed.

Lemma neon_full low high x : List.length x = 32%nat ->
  pxor (vtbl low (pand (firstn 16 x) mask16)) (vtbl high (vushr4 (firstn 16 x))) ++
  pxor (vtbl low (pand (skipn 16 x) mask16)) (vtbl high (vushr4 (skipn 16 x))) = map (nibbles low high) x.
Proof. intros H. rewrite !neon_half by (rewrite ?firstn_length, ?skipn_length; lia). apply map_halves. Qed.

Lemma neon_fullx low high x y : List.length x = 32%nat -> List.length y = 32%nat ->
  pxor (pxor (vtbl low (pand (firstn 16 x) mask16)) (vtbl high (vushr4 (firstn 16 x)))) (firstn 16 y) ++
  pxor (pxor (vtbl low (pand (skipn 16 x) mask16)) (vtbl high (vushr4 (skipn 16 x)))) (skipn 16 y) = map2 (fmulxor low high) x y.
Proof.
  intros H Hy. rewrite !neon_half by (rewrite ?firstn_length, ?skipn_length; lia).
  rewrite !map_pxor by (rewrite ?firstn_length, ?skipn_length; lia). apply map2_halves. lia.
Qed.

(** a 32-byte store of [f x y] *)
Lemma arm_store h l m p q : l = map2 h (block m p 32) (block m q 32) -> accessible m p 32 -> accessible m q 32 ->
  exists m', store m q l = Some m' /\ rewritten h p q 32 m m'.
Proof.
  intros -> Hp Hq.
  destruct (store_ok (map2 h (block m p 32) (block m q 32)) m q) as (m' & E & A & B);
    rewrite map2_length, block_length in * by (rewrite !block_length; reflexivity); [exact Hq|].
  exists m'. split; [exact E|]. apply rw3_rewritten.
  apply (rw3_store (map2 h) _ _ _ _ _ m' 32 _) with (5 := A); try assumption; reflexivity.
Qed.

Definition ainv (low high : list byte) (s : astate) : Prop := av s 6%nat = low /\ av s 7%nat = high /\ av s 8%nat = mask16.
Definition noainv (s : astate) : Prop := True.

Ltac afinish Hr := rewrite ?subs_flag by lia; rewrite ?(word_small (_ + 32)) by lia;
  split; [assumption || exact Logic.I|]; split; [match goal with |- context [?r <? 32] => destruct (r <? 32); reflexivity end|];
  split; [reflexivity|]; split; [reflexivity|]; split; [intros Hx; rewrite subs_val by lia; lia|].

Lemma neon_body low high args : abody galMulNEON_code args (fmul low high) 12 27 (ainv low high) 15.
Proof.
  aunfold. abegin. pose proof I as (I6 & I7 & I8). cbn [av] in I6, I7, I8.
  assert (L1 := load_ok m 32 (g R1) Ma).
  destruct (arm_store (fmul low high) (map (nibbles low high) (block m (g R1) 32)) m (g R1) (g R5)) as (m' & S1 & Rw); try assumption.
  { apply (map_map2_const (nibbles low high)). rewrite !block_length. reflexivity. }
  rewrite <- neon_full in S1 by apply block_length. rewrite <- I6, <- I7, <- I8 in S1.
  do 12 asl. as_ ltac:(rewrite S1). do 2 asl. aend. rewrite HR. afinish Hr. exact Rw.
Qed.

Lemma neonxor_body low high args : abody galMulXorNEON_code args (fmulxor low high) 12 30 (ainv low high) 18.
Proof.
  aunfold. abegin. pose proof I as (I6 & I7 & I8). cbn [av] in I6, I7, I8.
  assert (L1 := load_ok m 32 (g R1) Ma). assert (L2 := load_ok m 32 (g R5) Mb).
  destruct (arm_store (fmulxor low high) (map2 (fmulxor low high) (block m (g R1) 32) (block m (g R5) 32)) m (g R1) (g R5))
    as (m' & S1 & Rw); try assumption; [reflexivity|].
  rewrite <- neon_fullx in S1 by apply block_length. rewrite <- I6, <- I7, <- I8 in S1.
  do 15 asl. as_ ltac:(rewrite S1). do 2 asl. aend. rewrite HR. afinish Hr. exact Rw.
Qed.

Lemma neonx_body args : abody galXorNEON_code args bxor 5 13 noainv 8.
Proof.
  abegin.
  assert (L1 := load_ok m 32 (g R1) Ma). assert (L2 := load_ok m 32 (g R5) Mb).
  destruct (arm_store bxor (map2 bxor (block m (g R1) 32) (block m (g R5) 32)) m (g R1) (g R5))
    as (m' & S1 & Rw); try assumption; [reflexivity|].
  rewrite <- map2_halves in S1 by (rewrite !block_length; reflexivity).
  do 5 asl. as_ ltac:(unfold pxor; rewrite S1). do 2 asl. aend. rewrite HR. afinish Hr. exact Rw.
Qed.

(** ** complete runs *)
Definition mul_acall (args : N -> N) (s : astate) (code : list ainstr) (f : list byte -> list byte -> byte -> byte -> byte) : Prop :=
  forall low high, apc s = 0%nat ->
  holds_at (amem s) (args 0) low -> List.length low = 16%nat ->
  holds_at (amem s) (args 24) high -> List.length high = 16%nat ->
  let pi := args 48 in let n := 32 * (args 56 / 32) in let po := args 72 in
  args 56 < 2 ^ 63 -> pi + n < 2 ^ 64 -> po + n < 2 ^ 64 ->
  accessible (amem s) pi n -> accessible (amem s) po n -> no_forward_overlap pi po n ->
  exists s', arun code args s s' /\ rewritten (f low high) pi po n (amem s) (amem s').

Lemma load_table_arm m p l : holds_at m p l -> List.length l = 16%nat -> load m p 16 = Some l.
Proof.
  intros H E. rewrite <- E. rewrite load_ok by (apply holds_accessible; exact H). f_equal. apply block_holds. exact H.
Qed.

(** from the head to the end *)
Lemma afinish_run p args f lp ex Inv K s k s1 len : abody p args f lp ex Inv K ->
  (forall t, apc t = ex -> exists t1, aexec p args 1 t = Some t1 /\ nth_error p (apc t1) = Some ARET /\ amem t1 = amem t) ->
  aexec p args k s = Some s1 -> amem s1 = amem s -> len < 2 ^ 63 ->
  forall a b, (len < 32 /\ apc s1 = ex \/ 32 <= len /\ apc s1 = lp /\ Inv s1 /\ ag s1 R1 = a /\ ag s1 R5 = b /\ ag s1 R2 = len - 32) ->
  let n := 32 * (len / 32) in
  a + n < 2 ^ 64 -> b + n < 2 ^ 64 -> accessible (amem s) a n -> accessible (amem s) b n -> no_forward_overlap a b n ->
  exists s', arun p args s s' /\ rewritten f a b n (amem s) (amem s').
Proof.
  intros HB HT E M Len a b C n La Lb Ma Mb Ov.
  destruct C as [[L P]|(L & P & I1 & H1 & H5 & H2)].
  - destruct (HT s1 P) as (t1 & E1 & R & M1). exists t1. split; [eapply aexec_run; [eapply aexec_app; eassumption|apply arun_ret; exact R]|].
    rewrite M1, M. unfold n. rewrite N.div_small by exact L. rewrite N.mul_0_r. apply rewritten_0.
  - assert (Hn : n = 32 * N.of_nat (N.to_nat (len / 32))) by (rewrite N2Nat.id; reflexivity). clearbody n. subst n.
    rewrite <- M in Ma, Mb.
    destruct (aloop p args f lp ex Inv K HB (N.to_nat (len / 32)) s1 a b len) as (k2 & s2 & E2 & P2 & R2);
      try assumption; rewrite ?N2Nat.id; try assumption; try lia; try reflexivity.
    destruct (HT s2 P2) as (t1 & E1 & R & M1). exists t1.
    split; [eapply aexec_run; [eapply aexec_app; [exact E|eapply aexec_app; [exact E2|exact E1]]|apply arun_ret; exact R]|].
    rewrite M1, <- M. rewrite N2Nat.id in R2. exact R2.
Qed.

Ltac atl := intros [g1 v1 z1 m1 pc1] E1; cbn [apc] in E1; subst pc1; asl; aend; split; reflexivity.

Lemma amask v : repeat (nth 0 (n2b 15 :: skipn 1 v) x00) 16 = mask16.
Proof. reflexivity. Qed.

Lemma neon_run args s : mul_acall args s galMulNEON_code fmul.
Proof.
  intros low high P Hl Ll Hh Lh pi n po Len Lpi Lpo Mi Mo Ov.
  assert (L1 := load_table_arm _ _ _ Hl Ll). assert (L2 := load_table_arm _ _ _ Hh Lh).
  assert (HT : forall t, apc t = 27%nat -> exists t1, aexec galMulNEON_code args 1 t = Some t1 /\ nth_error galMulNEON_code (apc t1) = Some ARET /\ amem t1 = amem t).
  { aunfold. atl. }
  assert (HD : exists k s1, aexec galMulNEON_code args k s = Some s1 /\ amem s1 = amem s /\
     (args 56 < 32 /\ apc s1 = 27%nat \/ 32 <= args 56 /\ apc s1 = 12%nat /\ ainv low high s1 /\ ag s1 R1 = pi /\ ag s1 R5 = po /\ ag s1 R2 = args 56 - 32)).
  { destruct s as [g v z m pc]. cbn [apc amem] in *. subst pc. aunfold.
    destruct (N.ltb_spec (args 56) 32) as [L|L].
    - exists 5%nat. do 5 asl. aend. split; [reflexivity|]. left. split; [exact L|]. rewrite subs_flag by exact Len.
      destruct (N.ltb_spec (args 56) 32); [reflexivity|lia].
    - exists 12%nat. do 5 asl. rewrite subs_flag by exact Len. destruct (N.ltb_spec (args 56) 32); [lia|].
      do 7 asl. aend. split; [reflexivity|]. right. split; [exact L|]. split; [reflexivity|].
      split; [split; [reflexivity|split; reflexivity]|]. split; [reflexivity|]. split; [reflexivity|]. apply subs_val. lia. }
  destruct HD as (k & s1 & E & M & C).
  exact (afinish_run _ args _ 12 27 (ainv low high) 15 s k s1 (args 56) (neon_body low high args) HT E M Len pi po C Lpi Lpo Mi Mo Ov).
Qed.

Lemma neonxor_run args s : mul_acall args s galMulXorNEON_code fmulxor.
Proof.
  intros low high P Hl Ll Hh Lh pi n po Len Lpi Lpo Mi Mo Ov.
  assert (L1 := load_table_arm _ _ _ Hl Ll). assert (L2 := load_table_arm _ _ _ Hh Lh).
  assert (HT : forall t, apc t = 30%nat -> exists t1, aexec galMulXorNEON_code args 1 t = Some t1 /\ nth_error galMulXorNEON_code (apc t1) = Some ARET /\ amem t1 = amem t).
  { aunfold. atl. }
  assert (HD : exists k s1, aexec galMulXorNEON_code args k s = Some s1 /\ amem s1 = amem s /\
     (args 56 < 32 /\ apc s1 = 30%nat \/ 32 <= args 56 /\ apc s1 = 12%nat /\ ainv low high s1 /\ ag s1 R1 = pi /\ ag s1 R5 = po /\ ag s1 R2 = args 56 - 32)).
  { destruct s as [g v z m pc]. cbn [apc amem] in *. subst pc. aunfold.
    destruct (N.ltb_spec (args 56) 32) as [L|L].
    - exists 5%nat. do 5 asl. aend. split; [reflexivity|]. left. split; [exact L|]. rewrite subs_flag by exact Len.
      destruct (N.ltb_spec (args 56) 32); [reflexivity|lia].
    - exists 12%nat. do 5 asl. rewrite subs_flag by exact Len. destruct (N.ltb_spec (args 56) 32); [lia|].
      do 7 asl. aend. split; [reflexivity|]. right. split; [exact L|]. split; [reflexivity|].
      split; [split; [reflexivity|split; reflexivity]|]. split; [reflexivity|]. split; [reflexivity|]. apply subs_val. lia. }
  destruct HD as (k & s1 & E & M & C).
  exact (afinish_run _ args _ 12 30 (ainv low high) 18 s k s1 (args 56) (neonxor_body low high args) HT E M Len pi po C Lpi Lpo Mi Mo Ov).
Qed.

Definition xor_acall (args : N -> N) (s : astate) (code : list ainstr) : Prop :=
  apc s = 0%nat ->
  let pi := args 0 in let n := 32 * (args 8 / 32) in let po := args 24 in
  args 8 < 2 ^ 63 -> pi + n < 2 ^ 64 -> po + n < 2 ^ 64 ->
  accessible (amem s) pi n -> accessible (amem s) po n -> no_forward_overlap pi po n ->
  exists s', arun code args s s' /\ rewritten bxor pi po n (amem s) (amem s').

Lemma neonx_run args s : xor_acall args s galXorNEON_code.
Proof.
  intros P pi n po Len Lpi Lpo Mi Mo Ov.
  assert (HT : forall t, apc t = 13%nat -> exists t1, aexec galXorNEON_code args 1 t = Some t1 /\ nth_error galXorNEON_code (apc t1) = Some ARET /\ amem t1 = amem t).
  { atl. }
  assert (HD : exists k s1, aexec galXorNEON_code args k s = Some s1 /\ amem s1 = amem s /\
     (args 8 < 32 /\ apc s1 = 13%nat \/ 32 <= args 8 /\ apc s1 = 5%nat /\ noainv s1 /\ ag s1 R1 = pi /\ ag s1 R5 = po /\ ag s1 R2 = args 8 - 32)).
  { destruct s as [g v z m pc]. cbn [apc amem] in *. subst pc. exists 5%nat.
    do 5 asl. aend. split; [reflexivity|]. rewrite subs_flag by exact Len.
    destruct (N.ltb_spec (args 8) 32) as [L|L]; [left; split; [exact L|reflexivity]|right].
    split; [exact L|]. split; [reflexivity|]. split; [exact Logic.I|]. split; [reflexivity|]. split; [reflexivity|]. apply subs_val. lia. }
  destruct HD as (k & s1 & E & M & C).
  exact (afinish_run _ args _ 5 13 noainv 8 s k s1 (args 8) (neonx_body args) HT E M Len pi po C Lpi Lpo Mi Mo Ov).
Qed.
