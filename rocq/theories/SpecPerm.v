(** Vocabulary for C80: what the tags drawn by CSPRNG.Perm(255) tell about the key stream. *)
From Coq Require Import List NArith ZArith Arith.
From Coq.Init Require Import Byte.
From Verif Require Import GoSem Bytes Spec.
Import ListNotations.

(** Perm(255) exchanges the elements [i] and [1 + ks[i] mod (255-i)], for i = 0, 1, ..., 252 *)
Definition partner (ks : nat -> byte) (i : nat) : nat := 1 + b2i (ks i) mod (255 - i).

(** Element [m] is exchanged with an element behind it that was not exchanged before, and is not exchanged again; and the key
    stream byte is small enough to be read off its remainder. *)
Definition undisturbed (ks : nat -> byte) (m : nat) : Prop :=
  m <= partner ks m /\ (forall i, i < m -> partner ks i <> partner ks m) /\
  (forall i, m < i -> i < 253 -> partner ks i <> m) /\ b2i (ks m) < 255 - m.

(** The formula by which the [t-1] shares number t*p+1 .. t*p+t-1 (listed in [view]) then give away secret byte [p]: their tags minus 2
    are the non-constant coefficients of polynomial [p]. *)
Definition leakByte2 (t p : nat) (view : list (list byte)) : byte :=
  let x := tag (nth 0 view []) in
  gadd (nth p (nth 0 view []) x00)
       (gsum (map (fun c => gmul (bsub (tag (nth (c - 1) view [])) x02) (gpow x c)) (seq 1 (t - 1)))).
