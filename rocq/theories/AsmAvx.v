(** The AVX2 loops. *)
From Coq Require Import List NArith ZArith Lia Arith Bool String Ascii.
From Coq.Init Require Import Byte.
From Verif Require Import GoSem Bytes Vector VectorFacts Asm SpecAsm AsmFacts AsmAmd.
Import ListNotations.
Local Open Scope N_scope.

#[local] Arguments setg g d v !r /.
#[local] Arguments setv {A} g d v !r /.

Definition inv32 (low high : list byte) (s : xstate) : Prop :=
  xv s 6%nat = (low, low) /\ xv s 7%nat = (high, high) /\ xv s 8%nat = (mask16, mask16).

Definition half (tl th mk x : list byte) : list byte := pxor (pshufb tl (pand x mk)) (pshufb th (pand (psrlq4 x) mk)).

Lemma half_length tl th mk x : List.length x = 16%nat -> List.length mk = 16%nat -> List.length (half tl th mk x) = 16%nat.
Proof. intros H1 H2. unfold half. xlen. Qed.

Lemma half_ok low high x : List.length x = 16%nat -> half low high mask16 x = map (nibbles low high) x.
Proof. apply half_lh. Qed.

Lemma halves_ok low high x : List.length x = 32%nat ->
  half low high mask16 (firstn 16 x) ++ half low high mask16 (skipn 16 x) = map (nibbles low high) x.
Proof. intros H. rewrite !half_ok by (rewrite ?firstn_length, ?skipn_length; lia). apply map_halves. Qed.

Lemma halvesxor_ok low high x y : List.length x = 32%nat -> List.length y = 32%nat ->
  pxor (half low high mask16 (firstn 16 x)) (firstn 16 y) ++ pxor (half low high mask16 (skipn 16 x)) (skipn 16 y) =
  map2 (fmulxor low high) x y.
Proof.
  intros H Hy. rewrite !half_ok by (rewrite ?firstn_length, ?skipn_length; lia).
  rewrite !map_pxor by (rewrite ?firstn_length, ?skipn_length; lia). apply map2_halves. lia.
Qed.

Ltac avxinv I := pose proof I as (I6 & I7 & I8); cbn [xv] in I6, I7, I8.


(** the store of one 32-byte result into [mb], computed from [m] *)
Definition hv (v : nat -> list byte * list byte) (X : list byte) : list byte :=
  half (fst (v 6%nat)) (fst (v 7%nat)) (fst (v 8%nat)) (firstn 16 X) ++ half (snd (v 6%nat)) (snd (v 7%nat)) (snd (v 8%nat)) (skipn 16 X).
Definition hvx (v : nat -> list byte * list byte) (X Y : list byte) : list byte :=
  pxor (half (fst (v 6%nat)) (fst (v 7%nat)) (fst (v 8%nat)) (firstn 16 X)) (firstn 16 Y) ++
  pxor (half (snd (v 6%nat)) (snd (v 7%nat)) (snd (v 8%nat)) (skipn 16 X)) (skipn 16 Y).

Lemma hv_ok low high v X : v 6%nat = (low, low) -> v 7%nat = (high, high) -> v 8%nat = (mask16, mask16) -> List.length X = 32%nat ->
  hv v X = map (nibbles low high) X.
Proof. intros I6 I7 I8 H. unfold hv. rewrite I6, I7, I8. apply halves_ok. exact H. Qed.
Lemma hvx_ok low high v X Y : v 6%nat = (low, low) -> v 7%nat = (high, high) -> v 8%nat = (mask16, mask16) ->
  List.length X = 32%nat -> List.length Y = 32%nat -> hvx v X Y = map2 (fmulxor low high) X Y.
Proof. intros I6 I7 I8 H HY. unfold hvx. rewrite I6, I7, I8. apply halvesxor_ok; assumption. Qed.

Lemma avx_store low high v m mb p q o : v 6%nat = (low, low) -> v 7%nat = (high, high) -> v 8%nat = (mask16, mask16) ->
  q + o + 32 < 2 ^ 64 -> accessible m (p + o) 32 -> accessible m (q + o) 32 -> accessible mb (q + o) 32 ->
  exists m', store mb (word (q + o)) (hv v (block m (p + o) 32)) = Some m' /\
    (forall a n, accessible mb a n -> accessible m' a n) /\
    rw3 (fmul low high) (p + o) (q + o) 32 m mb m'.
Proof.
  intros I6 I7 I8 Hq Hp Hm Hb.
  assert (EH : hv v (block m (p + o) 32) = map (nibbles low high) (block m (p + o) 32)) by (apply hv_ok; try assumption; apply block_length).
  rewrite EH.
  destruct (store_word mb q o (map (nibbles low high) (block m (p + o) 32)) (q + o) 32 eq_refl) as (m' & E & A & B);
    [rewrite map_length; apply block_length|exact Hq|exact Hb|].
  exists m'. split; [exact E|]. split.
  - intros a n Ha. eapply (accessible_store mb m' a n (q + o) 32); [exact Ha|exact Hb| |exact B].
    intros i Hi. eexists. apply A. exact Hi.
  - apply (rw3_store (fun x y => map (nibbles low high) x) _ _ _ _ _ m' 32 _) with (5 := A); try assumption.
    + intros x y Hx Hy. apply (map_map2_const (nibbles low high)). lia.
    + reflexivity.
Qed.

Lemma avx_storex low high v m mb p q o : v 6%nat = (low, low) -> v 7%nat = (high, high) -> v 8%nat = (mask16, mask16) ->
  q + o + 32 < 2 ^ 64 -> accessible m (p + o) 32 -> accessible m (q + o) 32 -> accessible mb (q + o) 32 ->
  exists m', store mb (word (q + o)) (hvx v (block m (p + o) 32) (block m (q + o) 32)) = Some m' /\
    (forall a n, accessible mb a n -> accessible m' a n) /\
    rw3 (fmulxor low high) (p + o) (q + o) 32 m mb m'.
Proof.
  intros I6 I7 I8 Hq Hp Hm Hb.
  set (X := block m (p + o) 32). set (Y := block m (q + o) 32).
  assert (EH : hvx v X Y = map2 (fmulxor low high) X Y) by (apply hvx_ok; try assumption; apply block_length).
  rewrite EH.
  destruct (store_word mb q o (map2 (fmulxor low high) X Y) (q + o) 32 eq_refl) as (m' & E & A & B);
    [rewrite map2_length; unfold X, Y; rewrite !block_length; reflexivity|exact Hq|exact Hb|].
  exists m'. split; [exact E|]. split.
  - intros a n Ha. eapply (accessible_store mb m' a n (q + o) 32); [exact Ha|exact Hb| |exact B].
    intros i Hi. eexists. apply A. exact Hi.
  - apply (rw3_store (map2 (fmulxor low high)) _ _ _ _ _ m' 32 _) with (5 := A); try assumption; reflexivity.
Qed.

Lemma load_word' m p o k : p + o + N.of_nat k < 2 ^ 64 -> accessible m (p + o) (N.of_nat k) ->
  load m (word (p + o)) k = Some (block m (p + o) k).
Proof. apply load_word. reflexivity. Qed.

Ltac acc := match goal with H : accessible ?m ?a ?n |- accessible ?m ?b ?k => apply (accessible_sub m a n b k H); lia end.

Lemma avx2_body low high args : xbody galMulAVX2_code args 32 (fmul low high) 15 28 (inv32 low high) noal 13.
Proof.
  unfold galMulAVX2_code, avx2_head; cbn [app]. xbegin. avxinv I.
  assert (L1 := load_word' m (g SI) 0 32 ltac:(lia) ltac:(acc)).
  destruct (avx_store low high v m m (g SI) (g DX) 0 I6 I7 I8 ltac:(lia) ltac:(acc) ltac:(acc) ltac:(acc)) as (m' & S1 & A1 & R1).
  unfold hv, half in S1.
  do 8 xsl. xs ltac:(rewrite S1). do 4 xsl. xend. xfinish Hr. rewrite !N.add_0_r in R1. exact R1.
Qed.

Lemma avx2xor_body low high args : xbody galMulAVX2Xor_code args 32 (fmulxor low high) 15 30 (inv32 low high) noal 15.
Proof.
  unfold galMulAVX2Xor_code, avx2_head; cbn [app]. xbegin. avxinv I.
  assert (L1 := load_word' m (g SI) 0 32 ltac:(lia) ltac:(acc)).
  assert (L2 := load_word' m (g DX) 0 32 ltac:(lia) ltac:(acc)).
  destruct (avx_storex low high v m m (g SI) (g DX) 0 I6 I7 I8 ltac:(lia) ltac:(acc) ltac:(acc) ltac:(acc)) as (m' & S1 & A1 & R1).
  unfold hvx, half in S1.
  do 10 xsl. xs ltac:(rewrite S1). do 4 xsl. xend. xfinish Hr. rewrite !N.add_0_r in R1. exact R1.
Qed.

Lemma avx2_64_body low high args : xbody galMulAVX2_64_code args 64 (fmul low high) 15 36 (inv32 low high) noal 21.
Proof.
  unfold galMulAVX2_64_code, avx2_head; cbn [app]. xbegin. avxinv I.
  assert (L1 := load_word' m (g SI) 0 32 ltac:(lia) ltac:(acc)).
  assert (L2 := load_word' m (g SI) 32 32 ltac:(lia) ltac:(acc)).
  destruct (avx_store low high v m m (g SI) (g DX) 0 I6 I7 I8 ltac:(lia) ltac:(acc) ltac:(acc) ltac:(acc)) as (m1 & S1 & A1 & R1).
  specialize (A1 _ _ Mb).
  destruct (avx_store low high v m m1 (g SI) (g DX) 32 I6 I7 I8 ltac:(lia) ltac:(acc) ltac:(acc) ltac:(acc)) as (m2 & S2 & A2 & R2).
  unfold hv, half in S1, S2.
  do 15 xsl. xs ltac:(rewrite S1). xs ltac:(rewrite S2). do 4 xsl. xend. xfinish Hr. rewrite !N.add_0_r in R1.
  eapply rw3_join; [exact R1|exact R2|reflexivity].
Qed.

Lemma avx2xor_64_body low high args : xbody galMulAVX2Xor_64_code args 64 (fmulxor low high) 15 40 (inv32 low high) noal 25.
Proof.
  unfold galMulAVX2Xor_64_code, avx2_head; cbn [app]. xbegin. avxinv I.
  assert (L1 := load_word' m (g SI) 0 32 ltac:(lia) ltac:(acc)).
  assert (L2 := load_word' m (g SI) 32 32 ltac:(lia) ltac:(acc)).
  assert (L3 := load_word' m (g DX) 0 32 ltac:(lia) ltac:(acc)).
  assert (L4 := load_word' m (g DX) 32 32 ltac:(lia) ltac:(acc)).
  destruct (avx_storex low high v m m (g SI) (g DX) 0 I6 I7 I8 ltac:(lia) ltac:(acc) ltac:(acc) ltac:(acc)) as (m1 & S1 & A1 & R1).
  specialize (A1 _ _ Mb).
  destruct (avx_storex low high v m m1 (g SI) (g DX) 32 I6 I7 I8 ltac:(lia) ltac:(acc) ltac:(acc) ltac:(acc)) as (m2 & S2 & A2 & R2).
  unfold hvx, half in S1, S2.
  do 19 xsl. xs ltac:(rewrite S1). xs ltac:(rewrite S2). do 4 xsl. xend. xfinish Hr. rewrite !N.add_0_r in R1.
  eapply rw3_join; [exact R1|exact R2|reflexivity].
Qed.
