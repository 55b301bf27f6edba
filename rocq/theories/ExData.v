(** Data used by the non-vacuity examples beside the theorems. Not a model of any file in /repo. *)
From Coq Require Import List NArith ZArith Lia Arith Bool Permutation.
From Coq.Init Require Import Byte.
From Verif Require Import GoSem Bytes Spec Vector Csprng Pool Polynomial Shamir SplitP.
Import ListNotations.

(** Data for the non-vacuity examples: the 5-byte secret "hello", the identity permutation as result of rand.Perm(255),
    a non-constant byte stream, the buffer growth of Go 1.17 and an arbitrary stale pool buffer. *)
Definition ex_secret : list byte := [x68; x65; x6c; x6c; x6f].
Definition ex_perm : list nat := seq 0 255.
Definition ex_stream (i : nat) : byte := i2b (7 * i + 3).
Definition ex_stale : list byte := [xde; xad; xbe; xef].
Definition ex_ar : arch := ArchAmd64 true true true.
Definition ex_ev : nat -> list byte := fun _ => ex_stale.

Example ex_valid : valid_args ex_secret 5 3.
Proof. repeat split; try discriminate. Qed.
Example ex_grow : grow_ok growcap117.
Proof. intros c n H. unfold growcap117. destruct ((c =? 0) && (n <=? 64))%bool eqn:E; [apply andb_true_iff in E as [_ E]; apply Nat.leb_le in E|]; lia. Qed.
Example ex_perm_ok : Permutation ex_perm (seq 0 255).
Proof. apply Permutation_refl. Qed.
