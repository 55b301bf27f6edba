(** Facts about the machines of Asm.v: memory, runs, loops. *)
From Coq Require Import List NArith ZArith Lia Arith Bool String.
From Coq.Init Require Import Byte.
From Verif Require Import GoSem Bytes Vector VectorFacts Asm SpecAsm.
Import ListNotations.
Local Open Scope N_scope.

Definition val (m : memory) (a : N) : byte := match m a with Some b => b | None => x00 end.
(** the block of [n] bytes at [a] *)
Definition block (m : memory) (a : N) (n : nat) : list byte := map (fun i => val m (a + N.of_nat i)) (seq 0 n).

Lemma block_length m a n : List.length (block m a n) = n.
Proof. unfold block. rewrite map_length, seq_length. reflexivity. Qed.

Lemma nth_block m a n i : (i < n)%nat -> nth i (block m a n) x00 = val m (a + N.of_nat i).
Proof.
  intros H. unfold block. rewrite (nth_indep _ _ (val m (a + N.of_nat 0))) by (rewrite map_length, seq_length; lia).
  rewrite (map_nth (fun i => val m (a + N.of_nat i))), seq_nth by lia. reflexivity.
Qed.

Lemma load_ok m n : forall a, accessible m a (N.of_nat n) -> load m a n = Some (block m a n).
Proof.
  induction n as [|n IH]; intros a H; [reflexivity|]. cbn [load].
  destruct (m a) as [b|] eqn:E; [|exfalso; apply (H a); [lia|exact E]].
  rewrite IH by (intros x Hx; apply H; lia). unfold block. cbn [seq map]. f_equal. f_equal.
  - unfold val. rewrite N.add_0_r, E. reflexivity.
  - rewrite <- seq_shift, map_map. apply map_ext. intros i. f_equal. lia.
Qed.

Lemma store_ok l : forall m a, accessible m a (N.of_nat (List.length l)) ->
  exists m', store m a l = Some m' /\
    (forall i, (i < List.length l)%nat -> m' (a + N.of_nat i) = Some (nth i l x00)) /\
    (forall x, x < a \/ a + N.of_nat (List.length l) <= x -> m' x = m x).
Proof.
  induction l as [|b l IH]; intros m a H.
  - exists m. repeat split; [intros i Hi; cbn in Hi; lia].
  - cbn [store List.length] in *. destruct (m a) as [b0|] eqn:E; [|exfalso; apply (H a); [lia|exact E]].
    destruct (IH (fun x => if x =? a then Some b else m x) (a + 1)) as (m' & E' & A & B).
    { intros x Hx. destruct (N.eqb_spec x a); [discriminate|]. apply H. lia. }
    exists m'. split; [exact E'|]. split.
    + intros [|i] Hi.
      * rewrite N.add_0_r. rewrite B by lia. rewrite N.eqb_refl. reflexivity.
      * cbn [nth]. replace (a + N.of_nat (S i)) with (a + 1 + N.of_nat i) by lia. apply A. lia.
    + intros x Hx. rewrite B by lia. destruct (N.eqb_spec x a); [lia|reflexivity].
Qed.

Lemma rewritten_0 f pi po m : rewritten f pi po 0 m m.
Proof. split; [intros i H; lia|reflexivity]. Qed.

Lemma rewritten_step f pi po n n' bs m mk m' : rewritten f pi po n m mk -> rewritten f (pi + n) (po + n) bs mk m' ->
  n' = n + bs -> no_forward_overlap pi po n' -> rewritten f pi po n' m m'.
Proof.
  intros [A1 A2] [B1 B2] -> Ov. split.
  - intros i Hi. destruct (N.lt_ge_cases i n) as [L|L].
    + destruct (A1 i L) as (x & y & X & Y & Z). exists x, y. split; [exact X|split; [exact Y|]]. rewrite B2 by lia. exact Z.
    + destruct (B1 (i - n)) as (x & y & X & Y & Z); [lia|].
      replace (pi + n + (i - n)) with (pi + i) in X by lia. replace (po + n + (i - n)) with (po + i) in Y, Z by lia.
      exists x, y. split; [|split; [|exact Z]].
      * rewrite <- X. symmetry. apply A2. unfold no_forward_overlap in Ov. lia.
      * rewrite <- Y. symmetry. apply A2. lia.
  - intros a Ha. rewrite B2 by lia. apply A2. lia.
Qed.

Lemma rewritten_accessible f pi po n m m' a k : rewritten f pi po n m m' -> accessible m a k -> accessible m' a k.
Proof.
  intros [A B] H x Hx. destruct (N.lt_ge_cases x po) as [L|L]; [rewrite B by lia; apply H; exact Hx|].
  destruct (N.lt_ge_cases x (po + n)) as [L2|L2]; [|rewrite B by lia; apply H; exact Hx].
  destruct (A (x - po)) as (u & v & _ & _ & Z); [lia|]. replace (po + (x - po)) with x in Z by lia. rewrite Z. discriminate.
Qed.

Lemma accessible_sub m a n b k : accessible m a n -> a <= b -> b + k <= a + n -> accessible m b k.
Proof. intros H L1 L2 x Hx. apply H. lia. Qed.

(** one block store *)
Lemma rewritten_store f h pi po m m' n : (forall x y, List.length x = n -> List.length y = n -> f x y = map2 h x y) ->
  accessible m pi (N.of_nat n) -> accessible m po (N.of_nat n) ->
  (forall i, (i < n)%nat -> m' (po + N.of_nat i) = Some (nth i (f (block m pi n) (block m po n)) x00)) ->
  (forall x, x < po \/ po + N.of_nat n <= x -> m' x = m x) -> rewritten h pi po (N.of_nat n) m m'.
Proof.
  intros Hf Ai Ao A B. split; [|exact B]. intros i Hi.
  destruct (m (pi + i)) as [x|] eqn:X; [|exfalso; apply (Ai (pi + i)); [lia|exact X]].
  destruct (m (po + i)) as [y|] eqn:Y; [|exfalso; apply (Ao (po + i)); [lia|exact Y]].
  exists x, y. split; [reflexivity|split; [reflexivity|]].
  specialize (A (N.to_nat i)). rewrite N2Nat.id in A. rewrite A by lia. rewrite Hf by apply block_length. f_equal.
  rewrite (nth_map2 _ _ _ _ _ x00 x00) by (rewrite ?block_length; lia).
  rewrite !nth_block by lia. rewrite !N2Nat.id. unfold val. rewrite X, Y. reflexivity.
Qed.

(** ** runs *)
Fixpoint xexec (p : list xinstr) (args : N -> N) (n : nat) (s : xstate) : option xstate :=
  match n with O => Some s | S k => match xstep p args s with Some s1 => xexec p args k s1 | None => None end end.

Lemma xexec_run p args n : forall s s1 s', xexec p args n s = Some s1 -> xrun p args s1 s' -> xrun p args s s'.
Proof.
  induction n as [|n IH]; intros s s1 s' E R; cbn [xexec] in E; [injection E as <-; exact R|].
  destruct (xstep p args s) as [t|] eqn:Es; [|discriminate]. eapply xrun_step; [exact Es|]. eapply IH; eassumption.
Qed.

Lemma xexec_app p args n k s s1 s2 : xexec p args n s = Some s1 -> xexec p args k s1 = Some s2 -> xexec p args (n + k) s = Some s2.
Proof.
  revert s; induction n as [|n IH]; intros s E1 E2; cbn [xexec Nat.add] in *; [injection E1 as ->; exact E2|].
  destruct (xstep p args s) as [t|]; [|discriminate]. apply IH; assumption.
Qed.

Lemma xrun_det p args s s1 : xrun p args s s1 -> forall s2, xrun p args s s2 -> s1 = s2.
Proof.
  induction 1 as [s R|s t s1 St _ IH]; intros s2 H2; inversion H2 as [u R2|u t2 u2 St2 Ru2]; subst.
  - reflexivity.
  - unfold xstep in St2. rewrite R in St2. discriminate.
  - unfold xstep in St. rewrite R2 in St. discriminate.
  - rewrite St in St2. injection St2 as <-. apply IH. exact Ru2.
Qed.

Lemma word_small n : n < 2 ^ 64 -> word n = n.
Proof. intros H. apply N.mod_small. exact H. Qed.
Lemma word_add n k : n + k < 2 ^ 64 -> word (n + k) = n + k.
Proof. apply word_small. Qed.
Lemma word_dec r : 0 < r < 2 ^ 64 -> word (r + 2 ^ 64 - 1) = r - 1.
Proof.
  intros H. unfold word. replace (r + 2 ^ 64 - 1) with (r - 1 + 1 * 2 ^ 64) by lia. rewrite N.mod_add by lia. apply N.mod_small. lia.
Qed.

(** a loop that handles [bs] bytes at SI and DX per iteration and counts R9 down *)
Lemma xloop p args bs f (lp ex : nat) (Inv : xstate -> Prop) (Al : N -> Prop) (K : nat) :
  (forall a, Al a -> Al (a + bs)) ->
  (forall s a b r, Inv s -> xpc s = lp -> xg s SI = a -> xg s DX = b -> xg s R9 = r -> 0 < r < 2 ^ 64 ->
     a + bs < 2 ^ 64 -> b + bs < 2 ^ 64 -> Al a -> Al b -> accessible (xmem s) a bs -> accessible (xmem s) b bs ->
     exists s1, xexec p args K s = Some s1 /\ Inv s1 /\ xpc s1 = (if r =? 1 then ex else lp) /\
       xg s1 SI = a + bs /\ xg s1 DX = b + bs /\ xg s1 R9 = r - 1 /\ rewritten f a b bs (xmem s) (xmem s1)) ->
  forall n s a b, Inv s -> xpc s = lp -> xg s SI = a -> xg s DX = b -> xg s R9 = N.of_nat n -> (0 < n)%nat ->
     a + bs * N.of_nat n < 2 ^ 64 -> b + bs * N.of_nat n < 2 ^ 64 -> N.of_nat n < 2 ^ 64 -> Al a -> Al b ->
     accessible (xmem s) a (bs * N.of_nat n) -> accessible (xmem s) b (bs * N.of_nat n) ->
     no_forward_overlap a b (bs * N.of_nat n) ->
     exists k s1, xexec p args k s = Some s1 /\ xpc s1 = ex /\ Inv s1 /\ rewritten f a b (bs * N.of_nat n) (xmem s) (xmem s1).
Proof.
  intros HAl Body.
  (* generalised: [j] iterations done *)
  assert (G : forall n j s m0 a b, Inv s -> xpc s = lp -> xg s SI = a + bs * j -> xg s DX = b + bs * j -> xg s R9 = N.of_nat n ->
     (0 < n)%nat -> a + bs * (j + N.of_nat n) < 2 ^ 64 -> b + bs * (j + N.of_nat n) < 2 ^ 64 -> N.of_nat n < 2 ^ 64 ->
     Al (a + bs * j) -> Al (b + bs * j) ->
     accessible m0 a (bs * (j + N.of_nat n)) -> accessible m0 b (bs * (j + N.of_nat n)) ->
     no_forward_overlap a b (bs * (j + N.of_nat n)) -> rewritten f a b (bs * j) m0 (xmem s) ->
     exists k s1, xexec p args k s = Some s1 /\ xpc s1 = ex /\ Inv s1 /\ rewritten f a b (bs * (j + N.of_nat n)) m0 (xmem s1)).
  { induction n as [|n IH]; intros j s m0 a b I P HS HD HR Hn La Lb Lr Aa Ab Ma Mb Ov Rw; [lia|].
    assert (Hbs : bs <= bs * N.of_nat (S n)) by nia.
    assert (Acc1 : accessible (xmem s) (a + bs * j) bs).
    { eapply rewritten_accessible; [exact Rw|]. eapply accessible_sub; [exact Ma|nia|nia]. }
    assert (Acc2 : accessible (xmem s) (b + bs * j) bs).
    { eapply rewritten_accessible; [exact Rw|]. eapply accessible_sub; [exact Mb|nia|nia]. }
    destruct (Body s _ _ _ I P HS HD HR) as (s1 & E & I1 & P1 & S1 & D1 & N1 & W1); try assumption; try nia.
    assert (Rw1 : rewritten f a b (bs * (j + 1)) m0 (xmem s1)).
    { eapply rewritten_step; [exact Rw|exact W1|nia|]. unfold no_forward_overlap in *. nia. }
    destruct n as [|n].
    - exists K, s1. replace (j + N.of_nat 1) with (j + 1) by lia. repeat split; try assumption; try apply Rw1.
    - destruct (IH (j + 1) s1 m0 a b) as (k & s2 & E2 & P2 & I2 & R2); try assumption; try nia.
      + rewrite P1. destruct (N.eqb_spec (N.of_nat (S (S n))) 1); [lia|reflexivity].
      + replace (a + bs * (j + 1)) with (a + bs * j + bs) by nia. apply HAl. exact Aa.
      + replace (b + bs * (j + 1)) with (b + bs * j + bs) by nia. apply HAl. exact Ab.
      + replace (j + 1 + N.of_nat (S n)) with (j + N.of_nat (S (S n))) by lia. exact Ma.
      + replace (j + 1 + N.of_nat (S n)) with (j + N.of_nat (S (S n))) by lia. exact Mb.
      + replace (j + 1 + N.of_nat (S n)) with (j + N.of_nat (S (S n))) by lia. exact Ov.
      + exists (K + k)%nat, s2. split; [eapply xexec_app; eassumption|]. split; [exact P2|]. split; [exact I2|].
        replace (j + N.of_nat (S (S n))) with (j + 1 + N.of_nat (S n)) by lia. exact R2. }
  intros n s a b I P HS HD HR Hn La Lb Lr Aa Ab Ma Mb Ov.
  destruct (G n 0 s (xmem s) a b) as (k & s1 & E & P1 & I1 & R1); rewrite ?N.mul_0_r, ?N.add_0_r, ?N.add_0_l; try assumption.
  - apply rewritten_0.
  - exists k, s1. repeat split; try assumption; apply R1.
Qed.
