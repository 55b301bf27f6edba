(** The amd64 routines: what each run does to memory. *)
From Coq Require Import List NArith ZArith Lia Arith Bool String Ascii.
From Coq.Init Require Import Byte.
From Verif Require Import GoSem Bytes Vector VectorFacts Asm SpecAsm AsmFacts.
Import ListNotations.
Local Open Scope N_scope.

#[local] Arguments setg g d v !r /.
#[local] Arguments setv {A} g d v !r /.

Ltac xred t :=
  let u := eval lazy beta iota zeta delta [xstep nth_error xg xv xz xmem xpc xlabel String.eqb Ascii.eqb Bool.eqb
    galMulSSSE3Xor_code galMulSSSE3_code sSE2XorSlice_code sSE2XorSlice_64_code] in t in
  eval cbn [setg setv gp_eqb Nat.eqb fst snd] in u.

Lemma xexec_S p args k s : xexec p args (S k) s = match xstep p args s with Some s1 => xexec p args k s1 | None => None end.
Proof. reflexivity. Qed.

(** one instruction; [tac] resolves a memory access *)
Ltac xs tac :=
  rewrite xexec_S;
  match goal with |- context [xstep ?p ?a ?s] => let t := xred (xstep p a s) in change (xstep p a s) with t end;
  tac; cbv iota beta.

Lemma dec_zero r : 0 < r < 2 ^ 64 -> (word (r + 2 ^ 64 - 1) =? 0) = (r =? 1).
Proof. intros H. rewrite word_dec by exact H. destruct (N.eqb_spec (r - 1) 0), (N.eqb_spec r 1); try reflexivity; lia. Qed.

(** resolve a load with a hypothesis *)
Ltac xld := repeat match goal with H : load ?m ?a ?n = Some _ |- context [load ?m ?a ?n] => rewrite H end.
Ltac xsl := xs xld.

Lemma load_word m p off q k : p + off = q -> q + N.of_nat k < 2 ^ 64 -> accessible m q (N.of_nat k) ->
  load m (word (p + off)) k = Some (block m q k).
Proof. intros <- H A. rewrite word_small by lia. apply load_ok. exact A. Qed.

Lemma store_word m p off l q k : p + off = q -> List.length l = k -> q + N.of_nat k < 2 ^ 64 -> accessible m q (N.of_nat k) ->
  exists m', store m (word (p + off)) l = Some m' /\
    (forall i, (i < k)%nat -> m' (q + N.of_nat i) = Some (nth i l x00)) /\
    (forall x, x < q \/ q + N.of_nat k <= x -> m' x = m x).
Proof. intros <- <- H A. rewrite word_small by lia. apply store_ok. exact A. Qed.

Ltac xend := cbn [xexec]; eexists; split; [reflexivity|]; cbn [xpc xg xv xmem setg setv gp_eqb Nat.eqb fst snd].
(** ** one or more block stores whose values were computed from the memory [m] before the first of them *)
Definition rw3 (f : byte -> byte -> byte) (pi po n : N) (m mb m' : memory) : Prop :=
  (forall i, i < n -> exists x y, m (pi + i) = Some x /\ m (po + i) = Some y /\ m' (po + i) = Some (f x y)) /\
  (forall a, a < po \/ po + n <= a -> m' a = mb a).

Lemma rw3_store f h pi po m mb m' n l : (forall x y, List.length x = n -> List.length y = n -> f x y = map2 h x y) ->
  l = f (block m pi n) (block m po n) ->
  accessible m pi (N.of_nat n) -> accessible m po (N.of_nat n) ->
  (forall i, (i < n)%nat -> m' (po + N.of_nat i) = Some (nth i l x00)) ->
  (forall x, x < po \/ po + N.of_nat n <= x -> m' x = mb x) -> rw3 h pi po (N.of_nat n) m mb m'.
Proof.
  intros Hf -> Ai Ao A B. split; [|exact B]. intros i Hi.
  destruct (m (pi + i)) as [x|] eqn:X; [|exfalso; apply (Ai (pi + i)); [lia|exact X]].
  destruct (m (po + i)) as [y|] eqn:Y; [|exfalso; apply (Ao (po + i)); [lia|exact Y]].
  exists x, y. split; [reflexivity|split; [reflexivity|]].
  specialize (A (N.to_nat i)). rewrite N2Nat.id in A. rewrite A by lia. rewrite Hf by apply block_length. f_equal.
  rewrite (nth_map2 _ _ _ _ _ x00 x00) by (rewrite ?block_length; lia).
  rewrite !nth_block by lia. rewrite !N2Nat.id. unfold val. rewrite X, Y. reflexivity.
Qed.

Lemma rw3_join f pi po n k nk m mb m1 m2 : rw3 f pi po n m mb m1 -> rw3 f (pi + n) (po + n) k m m1 m2 -> nk = n + k ->
  rw3 f pi po nk m mb m2.
Proof.
  intros [A1 A2] [B1 B2] ->. split.
  - intros i Hi. destruct (N.lt_ge_cases i n) as [L|L].
    + destruct (A1 i L) as (x & y & X & Y & Z). exists x, y. split; [exact X|split; [exact Y|]]. rewrite B2 by lia. exact Z.
    + destruct (B1 (i - n)) as (x & y & X & Y & Z); [lia|].
      replace (pi + n + (i - n)) with (pi + i) in X by lia. replace (po + n + (i - n)) with (po + i) in Y, Z by lia. eauto.
  - intros a Ha. rewrite B2 by lia. apply A2. lia.
Qed.

Lemma rw3_rewritten f pi po n m m' : rw3 f pi po n m m m' -> rewritten f pi po n m m'.
Proof. exact (fun H => H). Qed.

Lemma accessible_store m m' a n q k : accessible m a n -> accessible m q k ->
  (forall i, (i < N.to_nat k)%nat -> exists b, m' (q + N.of_nat i) = Some b) -> (forall x, x < q \/ q + k <= x -> m' x = m x) ->
  accessible m' a n.
Proof.
  intros H _ A B x Hx. destruct (N.lt_ge_cases x q) as [L|L]; [rewrite B by lia; apply H; exact Hx|].
  destruct (N.lt_ge_cases x (q + k)) as [L2|L2]; [|rewrite B by lia; apply H; exact Hx].
  destruct (A (N.to_nat (x - q))) as (b & E); [lia|]. rewrite N2Nat.id in E. replace (q + (x - q)) with x in E by lia. rewrite E. discriminate.
Qed.

(** ** vector arithmetic *)
Lemma pxor_length x y : List.length x = List.length y -> List.length (pxor x y) = List.length x.
Proof. apply map2_length. Qed.
Lemma pshufb_length t c : List.length (pshufb t c) = List.length c.
Proof. apply map_length. Qed.
Lemma pand_length x y : List.length x = List.length y -> List.length (pand x y) = List.length x.
Proof. apply map2_length. Qed.

Definition mask16 : list byte := repeat x0f 16.

Lemma map_map2_const {A B C : Type} (h : A -> C) (l : list A) (m : list B) : List.length l = List.length m ->
  map h l = map2 (fun a _ => h a) l m.
Proof. intros H. symmetry. apply map2_const. exact H. Qed.

Lemma mod16_nat b : (b2i b mod 16)%nat = N.to_nat (b2n b mod 16).
Proof. unfold b2i. symmetry. apply (N2Nat.inj_mod (b2n b) 16). Qed.
Lemma div16_nat b : (b2i b / 16)%nat = N.to_nat (b2n b / 16).
Proof. unfold b2i. symmetry. apply (N2Nat.inj_div (b2n b) 16). Qed.

Lemma nibbles_eq low high b : bxor (nth (b2i b mod 16) low x00) (nth (b2i b / 16) high x00) = nibbles low high b.
Proof. unfold nibbles, bxor. rewrite mod16_nat, div16_nat. reflexivity. Qed.

(** low part XOR high part, as the AVX2 routines compute it *)
Lemma half_lh low high x : List.length x = 16%nat ->
  pxor (pshufb low (pand x mask16)) (pshufb high (pand (psrlq4 x) mask16)) = map (nibbles low high) x.
Proof.
  intros H. unfold pand, mask16. rewrite !map2_repeat_r by (exact H || apply psrlq4_length).
  rewrite psrlq4_mask by exact H. rewrite low_nibble_lookup, high_nibble_lookup. unfold pxor. rewrite map2_map.
  apply map_ext. intros b. apply nibbles_eq.
Qed.

Lemma pxor_comm x y : pxor x y = pxor y x.
Proof. unfold pxor. rewrite map2_swap. apply map2_ext. intros a b. apply bxor_comm. Qed.

Lemma half_hl low high x : List.length x = 16%nat ->
  pxor (pshufb high (pand (psrlq4 x) mask16)) (pshufb low (pand x mask16)) = map (nibbles low high) x.
Proof. intros H. rewrite pxor_comm. apply half_lh. exact H. Qed.

Lemma map_pxor (h : byte -> byte) x y : List.length x = List.length y -> pxor (map h x) y = map2 (fun a b => bxor (h a) b) x y.
Proof. revert y; induction x as [|a x IH]; intros [|b y] H; cbn in *; try lia; try reflexivity. f_equal. apply IH. lia. Qed.

Lemma map_halves {A B : Type} (h : A -> B) (x : list A) : map h (firstn 16 x) ++ map h (skipn 16 x) = map h x.
Proof. rewrite <- map_app, firstn_skipn. reflexivity. Qed.

Lemma map2_halves {A B C : Type} (h : A -> B -> C) x y : List.length x = List.length y ->
  map2 h (firstn 16 x) (firstn 16 y) ++ map2 h (skipn 16 x) (skipn 16 y) = map2 h x y.
Proof. intros H. rewrite <- map2_app by (rewrite !firstn_length; lia). rewrite !firstn_skipn. reflexivity. Qed.

Definition fmul (low high : list byte) (x _ : byte) : byte := nibbles low high x.
Definition fmulxor (low high : list byte) (x y : byte) : byte := bxor (nibbles low high x) y.

(** ** a loop body, in the form [xloop] wants *)
Definition xbody p args bs f (lp ex : nat) (Inv : xstate -> Prop) (Al : N -> Prop) (K : nat) : Prop :=
  forall s a b r, Inv s -> xpc s = lp -> xg s SI = a -> xg s DX = b -> xg s R9 = r -> 0 < r < 2 ^ 64 ->
     a + bs < 2 ^ 64 -> b + bs < 2 ^ 64 -> Al a -> Al b -> accessible (xmem s) a bs -> accessible (xmem s) b bs ->
     exists s1, xexec p args K s = Some s1 /\ Inv s1 /\ xpc s1 = (if r =? 1 then ex else lp) /\
       xg s1 SI = a + bs /\ xg s1 DX = b + bs /\ xg s1 R9 = r - 1 /\ rewritten f a b bs (xmem s) (xmem s1).

Ltac xbegin := intros s a b r I P HS HD HR Hr La Lb Ala Alb Ma Mb; destruct s as [g v z m pc]; cbn [xpc xg xmem xv] in *; subst.
Ltac xfinish Hr := rewrite dec_zero by exact Hr; rewrite word_dec by exact Hr; rewrite !word_small by lia;
  split; [assumption || exact I|]; split; [match goal with |- context [?r =? 1] => destruct (r =? 1); reflexivity end|];
  split; [reflexivity|]; split; [reflexivity|]; split; [reflexivity|]; apply rw3_rewritten.
Ltac xlen := repeat (rewrite ?pxor_length, ?pshufb_length, ?pand_length, ?app_length, ?map_length, ?block_length, ?psrlq4_length,
   ?firstn_length, ?skipn_length, ?repeat_length; try reflexivity; try lia).

Definition noinv (s : xstate) : Prop := True.
Definition noal (a : N) : Prop := True.

Lemma sse2_body args : xbody sSE2XorSlice_code args 16 bxor 6 15 noinv noal 9.
Proof.
  xbegin.
  pose proof (load_word m (g SI) 0 (g SI) 16 (N.add_0_r _) La Ma) as L1.
  pose proof (load_word m (g DX) 0 (g DX) 16 (N.add_0_r _) Lb Mb) as L2.
  destruct (store_word m (g DX) 0 (pxor (block m (g DX) 16) (block m (g SI) 16)) (g DX) 16 (N.add_0_r _)) as (m' & S1 & A & B);
    [xlen|exact Lb|exact Mb|].
  do 4 xsl. xs ltac:(rewrite S1). do 4 xsl. xend. xfinish Hr.
  apply (rw3_store (fun x y => pxor x y) _ _ _ _ _ m' 16 _) with (5 := A); try assumption; [reflexivity|apply pxor_comm].
Qed.

Lemma sse2_64_body args : xbody sSE2XorSlice_64_code args 64 bxor 6 27 noinv noal 21.
Proof.
  xbegin.
  assert (Acc : forall q o, accessible m q 64 -> o + 16 <= 64 -> accessible m (q + o) 16)
    by (intros q o Hq Ho; eapply accessible_sub; [exact Hq|lia|lia]).
  assert (LD : forall r o, g r + 64 < 2 ^ 64 -> accessible m (g r) 64 -> o + 16 <= 64 ->
     load m (word (g r + o)) 16 = Some (block m (g r + o) 16)).
  { intros r o Hl Hq Ho. apply load_word; [reflexivity|cbn; lia|apply Acc; assumption]. }
  assert (L1 := LD SI 0 La Ma). assert (L2 := LD SI 16 La Ma). assert (L3 := LD SI 32 La Ma). assert (L4 := LD SI 48 La Ma).
  assert (L5 := LD DX 0 Lb Mb). assert (L6 := LD DX 16 Lb Mb). assert (L7 := LD DX 32 Lb Mb). assert (L8 := LD DX 48 Lb Mb).
  specialize (L1 ltac:(lia)). specialize (L2 ltac:(lia)). specialize (L3 ltac:(lia)). specialize (L4 ltac:(lia)).
  specialize (L5 ltac:(lia)). specialize (L6 ltac:(lia)). specialize (L7 ltac:(lia)). specialize (L8 ltac:(lia)).
  assert (ST : forall mb o, o + 16 <= 64 -> accessible mb (g DX) 64 ->
     let l := pxor (block m (g DX + o) 16) (block m (g SI + o) 16) in
     exists m', store mb (word (g DX + o)) l = Some m' /\ accessible m' (g DX) 64 /\ rw3 bxor (g SI + o) (g DX + o) 16 m mb m').
  { intros mb o Ho Hb l.
    destruct (store_word mb (g DX) o l (g DX + o) 16) as (m' & E & A & B); [reflexivity|unfold l; xlen|cbn; lia| |].
    - eapply accessible_sub; [exact Hb|lia|cbn; lia].
    - exists m'. split; [exact E|]. split.
      + eapply (accessible_store mb m' (g DX) 64 (g DX + o) 16); [exact Hb| | |exact B].
        * eapply accessible_sub; [exact Hb|lia|lia].
        * intros i Hi. eexists. apply A. exact Hi.
      + apply (rw3_store (fun x y => pxor x y) _ _ _ _ _ m' 16 l) with (5 := A); try assumption;
          [reflexivity|apply pxor_comm| |]; apply Acc; assumption. }
  destruct (ST m 0 ltac:(lia) Mb) as (m1 & E1 & A1 & R1). destruct (ST m1 16 ltac:(lia) A1) as (m2 & E2 & A2 & R2).
  destruct (ST m2 32 ltac:(lia) A2) as (m3 & E3 & A3 & R3). destruct (ST m3 48 ltac:(lia) A3) as (m4 & E4 & A4 & R4).
  do 13 xsl. xs ltac:(rewrite E1). xs ltac:(rewrite E2). xs ltac:(rewrite E3). xs ltac:(rewrite E4). do 4 xsl. xend. xfinish Hr.
  rewrite !N.add_0_r in R1.
  eapply rw3_join; [eapply (rw3_join _ _ _ 32 16); [eapply (rw3_join _ _ _ 16 16); [exact R1|exact R2|reflexivity]|exact R3|reflexivity]
    |exact R4|reflexivity].
Qed.

(** ** SSSE3 *)
Definition inv16 (low high : list byte) (s : xstate) : Prop :=
  fst (xv s 6%nat) = low /\ fst (xv s 7%nat) = high /\ fst (xv s 8%nat) = mask16.

Lemma ssse3_body low high args : xbody galMulSSSE3_code args 16 (fmul low high) 38 54 (inv16 low high) noal 16.
Proof.
  xbegin. pose proof I as (I6 & I7 & I8). cbn [xv] in I6, I7, I8.
  pose proof (load_word m (g SI) 0 (g SI) 16 (N.add_0_r _) La Ma) as L1.
  set (X := block m (g SI) 16) in *.
  destruct (store_word m (g DX) 0 (pxor (pshufb (fst (v 7%nat)) (pand (psrlq4 X) (fst (v 8%nat)))) (pshufb (fst (v 6%nat)) (pand X (fst (v 8%nat)))))
    (g DX) 16 (N.add_0_r _)) as (m' & S1 & A & B); [rewrite I8; subst X; unfold mask16; xlen|exact Lb|exact Mb|].
  do 11 xsl. xs ltac:(rewrite S1). do 4 xsl. xend. xfinish Hr.
  apply (rw3_store (fun x y => map (nibbles low high) x) _ _ _ _ _ m' 16 _) with (5 := A); try assumption.
  - intros x y Hx Hy. apply (map_map2_const (nibbles low high)). lia.
  - rewrite I6, I7, I8. apply half_hl. apply block_length.
Qed.

Definition al16 (a : N) : Prop := a mod 16 = 0.
Lemma al16_word p : al16 p -> p + 16 < 2 ^ 64 -> (word (p + 0) mod 16 =? 0) = true.
Proof. intros H L. rewrite N.add_0_r, word_small by lia. apply N.eqb_eq. exact H. Qed.

Lemma ssse3_aligned_body low high args : xbody galMulSSSE3_code args 16 (fmul low high) 21 37 (inv16 low high) al16 16.
Proof.
  xbegin. pose proof I as (I6 & I7 & I8). cbn [xv] in I6, I7, I8.
  pose proof (load_word m (g SI) 0 (g SI) 16 (N.add_0_r _) La Ma) as L1.
  set (X := block m (g SI) 16) in *.
  destruct (store_word m (g DX) 0 (pxor (pshufb (fst (v 7%nat)) (pand (psrlq4 X) (fst (v 8%nat)))) (pshufb (fst (v 6%nat)) (pand X (fst (v 8%nat)))))
    (g DX) 16 (N.add_0_r _)) as (m' & S1 & A & B); [rewrite I8; subst X; unfold mask16; xlen|exact Lb|exact Mb|].
  xsl. xs ltac:(rewrite al16_word by assumption; xld). do 9 xsl. xs ltac:(rewrite al16_word by assumption; rewrite S1). do 4 xsl. xend. xfinish Hr.
  apply (rw3_store (fun x y => map (nibbles low high) x) _ _ _ _ _ m' 16 _) with (5 := A); try assumption.
  - intros x y Hx Hy. apply (map_map2_const (nibbles low high)). lia.
  - rewrite I6, I7, I8. apply half_hl. apply block_length.
Qed.

Lemma ssse3xor_body low high args : xbody galMulSSSE3Xor_code args 16 (fmulxor low high) 40 58 (inv16 low high) noal 18.
Proof.
  xbegin. pose proof I as (I6 & I7 & I8). cbn [xv] in I6, I7, I8.
  pose proof (load_word m (g SI) 0 (g SI) 16 (N.add_0_r _) La Ma) as L1.
  pose proof (load_word m (g DX) 0 (g DX) 16 (N.add_0_r _) Lb Mb) as L2.
  set (X := block m (g SI) 16) in *. set (Y := block m (g DX) 16) in *.
  destruct (store_word m (g DX) 0 (pxor (pxor (pshufb (fst (v 7%nat)) (pand (psrlq4 X) (fst (v 8%nat)))) (pshufb (fst (v 6%nat)) (pand X (fst (v 8%nat))))) Y)
    (g DX) 16 (N.add_0_r _)) as (m' & S1 & A & B); [rewrite I8; subst X Y; unfold mask16; xlen|exact Lb|exact Mb|].
  do 13 xsl. xs ltac:(rewrite S1). do 4 xsl. xend. xfinish Hr.
  apply (rw3_store (fun x y => pxor (map (nibbles low high) x) y) _ _ _ _ _ m' 16 _) with (5 := A); try assumption.
  - intros x y Hx Hy. apply (map_pxor (nibbles low high)). lia.
  - rewrite I6, I7, I8. f_equal. apply half_hl. apply block_length.
Qed.

Lemma ssse3xor_aligned_body low high args : xbody galMulSSSE3Xor_code args 16 (fmulxor low high) 21 39 (inv16 low high) al16 18.
Proof.
  xbegin. pose proof I as (I6 & I7 & I8). cbn [xv] in I6, I7, I8.
  pose proof (load_word m (g SI) 0 (g SI) 16 (N.add_0_r _) La Ma) as L1.
  pose proof (load_word m (g DX) 0 (g DX) 16 (N.add_0_r _) Lb Mb) as L2.
  set (X := block m (g SI) 16) in *. set (Y := block m (g DX) 16) in *.
  destruct (store_word m (g DX) 0 (pxor (pxor (pshufb (fst (v 7%nat)) (pand (psrlq4 X) (fst (v 8%nat)))) (pshufb (fst (v 6%nat)) (pand X (fst (v 8%nat))))) Y)
    (g DX) 16 (N.add_0_r _)) as (m' & S1 & A & B); [rewrite I8; subst X Y; unfold mask16; xlen|exact Lb|exact Mb|].
  xsl. xs ltac:(rewrite al16_word by assumption; xld). xs ltac:(rewrite al16_word by assumption; xld).
  do 10 xsl. xs ltac:(rewrite al16_word by assumption; rewrite S1). do 4 xsl. xend. xfinish Hr.
  apply (rw3_store (fun x y => pxor (map (nibbles low high) x) y) _ _ _ _ _ m' 16 _) with (5 := A); try assumption.
  - intros x y Hx Hy. apply (map_pxor (nibbles low high)). lia.
  - rewrite I6, I7, I8. f_equal. apply half_hl. apply block_length.
Qed.
