(** Facts about programs that draw from the random source (C71). *)
From Coq Require Import List NArith ZArith Lia Arith Bool Permutation.
From Coq.Init Require Import Byte.
From Verif Require Import GoSem Bytes Spec Vector Csprng Pool Polynomial Shamir SplitP Libs Krawczyk MathRand GoFacts GF VectorFacts Secrecy MathRandFacts ConcRand SpecConcRand.
Import ListNotations.

(** ** unfolding *)
Definition rfrob {A} (p : rprog A) : rprog A :=
  match p with RDone o => RDone o | RInt63 k => RInt63 k | RRead n k => RRead n k | RSeed s k => RSeed s k end.
Lemma rfrob_eq {A} (p : rprog A) : p = rfrob p.
Proof. destruct p; reflexivity. Qed.

Lemma rReject_eq {A} max (k : N -> rprog A) :
  rReject max k = RInt63 (fun x => if (max <? x / 2 ^ 32)%N then rReject max k else k (x / 2 ^ 32)%N).
Proof. rewrite (rfrob_eq (rReject max k)) at 1. reflexivity. Qed.

Lemma rRedraw_eq {A} nx m (k : byte -> rprog A) :
  rRedraw nx m k = if mem nx m then RInt63 (fun x => rRedraw (n2b (x / 2 ^ 31)) m k) else k nx.
Proof.
  transitivity (rfrob (rRedraw nx m k)); [apply rfrob_eq|].
  change (rfrob (if mem nx m then RInt63 (fun x => rRedraw (n2b (x / 2 ^ 31)) m k) else k nx) =
    if mem nx m then RInt63 (fun x => rRedraw (n2b (x / 2 ^ 31)) m k) else k nx).
  symmetry. apply rfrob_eq.
Qed.

Lemma xor_app a b : forall c d, length a = length c -> xor_bytes (a ++ b) (c ++ d) = xor_bytes a c ++ xor_bytes b d.
Proof. induction a as [|x a IH]; intros [|y c] d L; try discriminate; [reflexivity|]. cbn [app xor_bytes]. rewrite IH by (injection L; auto). reflexivity. Qed.

(** ** two programs that run in step: the same words, the bytes of the second XORed with a mask *)
Section Rel.
Context {A : Type} (Bd : nat -> Prop) (R : outcome A -> outcome A -> Prop).
Fixpoint rel (n : nat) (p p' : rprog A) : Prop :=
  match n with
  | O => True
  | S m =>
    match p, p' with
    | RDone o, RDone o' => R o o'
    | RInt63 k, RInt63 k' => forall x, rel m (k x) (k' x)
    | RRead l k, RRead l' k' => l = l' /\ Bd l /\ exists mask, length mask = l /\ forall c, length c = l -> rel m (k c) (k' (xor_bytes c mask))
    | RSeed s k, RSeed s' k' => s = s' /\ rel m k k'
    | _, _ => False
    end
  end.

Lemma rel_S m p p' : rel (S m) p p' =
    match p, p' with
    | RDone o, RDone o' => R o o'
    | RInt63 k, RInt63 k' => forall x, rel m (k x) (k' x)
    | RRead l k, RRead l' k' => l = l' /\ Bd l /\ exists mask, length mask = l /\ forall c, length c = l -> rel m (k c) (k' (xor_bytes c mask))
    | RSeed s k, RSeed s' k' => s = s' /\ rel m k k'
    | _, _ => False
    end.
Proof. reflexivity. Qed.

Lemma rel_le n : forall p p', rel (S n) p p' -> rel n p p'.
Proof.
  induction n as [|n IH]; intros p p' H; [exact I|]. rewrite rel_S in H. rewrite rel_S.
  destruct p, p'; try contradiction; auto.
  - destruct H as (-> & HB & mask & L & H). split; [reflexivity|]. split; [exact HB|]. exists mask. auto.
  - destruct H as (-> & H). auto.
Qed.

Lemma rel_reject max (k k' : N -> rprog A) : (forall v n, rel n (k v) (k' v)) -> forall n, rel n (rReject max k) (rReject max k').
Proof.
  intros H. induction n as [|n IH]; [exact I|]. rewrite (rReject_eq max k), (rReject_eq max k'). cbn [rel].
  intros x. destruct (max <? x / 2 ^ 32)%N; auto.
Qed.

Lemma rel_intn m (k k' : N -> rprog A) : (0 < m)%N -> (forall v n, (v < m)%N -> rel n (k v) (k' v)) -> forall n, rel n (rIntn m k) (rIntn m k').
Proof.
  intros Hm H n. unfold rIntn. destruct (N.land m (m - 1) =? 0)%N.
  - destruct n as [|n]; [exact I|]. cbn [rel]. intros x. apply H. pose proof (land_le (x / 2 ^ 32) (m - 1)). lia.
  - apply rel_reject. intros v n0. apply H. apply N.mod_lt. lia.
Qed.

Lemma rel_permFrom fin fin' N (k k' : list nat -> rprog A) :
  (forall perm n, Permutation perm (seq 0 N) -> rel n (k perm) (k' perm)) ->
  forall c i m n, i + c = N -> length m = N -> Permutation (firstn i m) (seq 0 i) ->
    rel n (rPermFrom fin (seq i c) m k) (rPermFrom fin' (seq i c) m k').
Proof.
  intros H. induction c as [|c IH]; intros i m n Hic Lm P.
  - cbn [seq rPermFrom]. apply H. rewrite Nat.add_0_r in Hic. subst i. rewrite firstn_all2 in P by lia. exact P.
  - cbn [seq rPermFrom]. apply rel_intn; [lia|]. intros v n0 Hv.
    assert (Hj : N.to_nat v <= i) by lia. rewrite (idx_ok m (N.to_nat v) 0) by lia. cbn [bind]. rewrite upd_ok by lia. cbn [bind].
    rewrite upd_ok by (rewrite set_nth_length; lia). cbn [rlift].
    apply IH; [lia|rewrite !set_nth_length by (rewrite ?set_nth_length; lia); exact Lm|].
    apply perm_swap_fact; [exact Hj|lia|exact P].
Qed.
Lemma rel_perm fin fin' N (k k' : list nat -> rprog A) :
  (forall perm n, Permutation perm (seq 0 N) -> rel n (k perm) (k' perm)) -> forall n, rel n (rPerm fin N k) (rPerm fin' N k').
Proof. intros H n. unfold rPerm. apply (rel_permFrom fin fin' N k k' H); [reflexivity|apply repeat_length|apply Permutation_refl]. Qed.

Lemma rel_reads d (k k' : list byte -> rprog A) mask : Bd d -> forall c l l', length mask = length l + c * d -> length l' = length l ->
  l' = xor_bytes l (firstn (length l) mask) ->
  (forall bytes n, length bytes = length l + c * d -> rel n (k bytes) (k' (xor_bytes bytes mask))) ->
  forall n, rel n (rReads c d l k) (rReads c d l' k').
Proof.
  intros HB. induction c as [|c IH]; intros l l' Lm Ll El H n; cbn [rReads].
  - rewrite El. rewrite firstn_all2 by lia. apply H. lia.
  - destruct n as [|n]; [exact I|]. cbn [rel]. split; [reflexivity|]. split; [exact HB|].
    exists (firstn d (skipn (length l) mask)). split; [rewrite firstn_length, skipn_length; cbn [Nat.mul] in Lm; lia|].
    intros b Lb.
    assert (Lx : length (xor_bytes b (firstn d (skipn (length l) mask))) = d).
    { rewrite xor_bytes_length; [exact Lb|]. rewrite firstn_length, skipn_length. cbn [Nat.mul] in Lm. lia. }
    apply IH.
    + rewrite app_length. cbn [Nat.mul] in Lm. lia.
    + rewrite !app_length. lia.
    + rewrite app_length, Lb, El. rewrite <- (firstn_skipn (length l) mask) at 3. rewrite firstn_app.
      rewrite firstn_firstn, Nat.min_r by lia.
      assert (Lf : length (firstn (length l) mask) = length l) by (rewrite firstn_length; cbn [Nat.mul] in Lm; lia).
      rewrite Lf. replace (length l + d - length l) with d by lia.
      symmetry. apply xor_app. symmetry. exact Lf.
    + intros bytes n0 Lbytes. apply H. rewrite app_length in Lbytes. cbn [Nat.mul]. lia.
Qed.
End Rel.
