(** Specification vocabulary for the demonstration program. *)
From Coq Require Import List NArith ZArith Lia Arith Bool Permutation.
From Coq.Init Require Import Byte.
From Verif Require Import GoSem Bytes Spec Main.
Import ListNotations.

(** the random permutation of a Split call is one *)
Definition rnd_ok (r : rnd) : Prop := Permutation (r_perm r) (seq 0 255).

(** [ls] is l, 2l, 4l, ...: all of these that are at most [m] *)
Definition doubling (l m : N) (ls : list N) : Prop :=
  ls = map (fun k => (l * 2 ^ N.of_nat k)%N) (seq 0 (length ls)) /\
  (forall x, In x ls -> (x <= m)%N) /\ (m < l * 2 ^ N.of_nat (length ls))%N.

(** there is only one such list *)
Lemma doubling_unique l m ls ls' : (0 < l)%N -> doubling l m ls -> doubling l m ls' -> ls = ls'.
Proof.
  intros H0 (E & B & U) (E' & B' & U').
  assert (W : forall a b, length a < length b -> a = map (fun k => (l * 2 ^ N.of_nat k)%N) (seq 0 (length a)) ->
    b = map (fun k => (l * 2 ^ N.of_nat k)%N) (seq 0 (length b)) -> (m < l * 2 ^ N.of_nat (length a))%N -> (forall x, In x b -> (x <= m)%N) -> False).
  { intros a b Hl _ Eb Ua Bb. assert (I : In (l * 2 ^ N.of_nat (length a))%N b).
    { rewrite Eb. apply in_map_iff. exists (length a). split; [reflexivity|]. apply in_seq. lia. }
    apply Bb in I. lia. }
  destruct (Nat.lt_trichotomy (length ls) (length ls')) as [H|[H|H]].
  - exfalso. eapply (W ls ls'); eassumption.
  - rewrite E, E', H. reflexivity.
  - exfalso. eapply (W ls' ls); eassumption.
Qed.
