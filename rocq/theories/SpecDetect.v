(** Specification vocabulary for C82: leaving out parts, and counting wrong ones. *)
From Coq Require Import List NArith ZArith Lia Arith Bool.
From Coq.Init Require Import Byte.
From Verif Require Import GoSem Bytes Spec.
Import ListNotations.

(** the parts without part [i] *)
Definition without {A : Type} (i : nat) (l : list A) : list A := firstn i l ++ skipn (S i) l.

(** [received] are parts that claim to be the shares [sent]: as many, of the same lengths, with the same tags. *)
Definition claims_to_be (received sent : list (list byte)) : Prop :=
  map (@length byte) received = map (@length byte) sent /\ map tag received = map tag sent.

(** how many of them are wrong *)
Definition wrong (received sent : list (list byte)) : nat :=
  count (fun p => if list_eq_dec byte_eq_dec (fst p) (snd p) then false else true) (combine received sent).

(** All choices of [t] of the parts numbered [js] combine to [secret] (with the function [combine_parts]). *)
Definition consistent (combine_parts : list (list byte) -> outcome (list byte)) (received : list (list byte)) (t : nat) (js : list nat) (secret : list byte) : Prop :=
  forall ks, NoDup ks -> length ks = t -> (forall k, In k ks -> In k js) -> combine_parts (pick [] received ks) = Ret secret.
