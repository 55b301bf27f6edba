(** Specification vocabulary for C67: an attacker who asks for many splits and sees some of the shares of each. *)
From Coq Require Import List NArith ZArith Lia Arith Bool Permutation.
From Coq.Init Require Import Byte.
From Verif Require Import GoSem Bytes Spec Vector Pool Polynomial Shamir SplitP.
Import ListNotations.

(** which function is called; SplitP with the schedule of its goroutines *)
Inductive api : Type := ASplit | AGeneric | ASplitP (sched : list nat).

(** A request: split one of these two secrets with these parameters and show the shares with these indices. *)
Record query : Type := { q_api : api; q_perm : list nat; q_left : list byte; q_right : list byte; q_parts : Z; q_threshold : Z; q_show : list nat }.

(** A fair request: the secrets are equally long, and fewer shares than the threshold are shown unless the two secrets are the same. *)
Definition fair (q : query) : Prop :=
  Permutation (q_perm q) (seq 0 255) /\ valid_args (q_left q) (q_parts q) (q_threshold q) /\ length (q_left q) = length (q_right q) /\
  (coalition (Z.to_nat (q_parts q)) (Z.to_nat (q_threshold q)) (q_show q) \/ q_left q = q_right q) /\
  match q_api q with ASplitP _ => (N.of_nat (length (q_left q)) <= 4294967296 - 1024)%N | _ => True end.

(** how many random bytes the call takes from the random source *)
Definition reads (q : query) : nat :=
  match q_api q with ASplit => Z.to_nat (q_threshold q) * length (q_left q) | _ => (Z.to_nat (q_threshold q) - 1) * length (q_left q) end.

(** what the attacker has seen, latest first: the shares shown, or that the call did not return normally *)
Definition history : Type := list (option (list (list byte))).
(** the attacker asks depending on what it has seen *)
Definition attacker : Type := history -> query.

(** the buffers a call finds in the pools: arbitrary contents *)
Record pools : Type := { s_pol : bbuf; s_tr : bbuf; s_ev : nat -> bbuf }.

(** [left]: in this world all left secrets are split, otherwise the right ones *)
Definition answer (left : bool) (ar : arch) (growcap : nat -> nat -> nat) (b : pools) (stream : nat -> byte) (q : query) : option (list (list byte)) :=
  let secret := if left then q_left q else q_right q in
  let o := match q_api q with
           | ASplit => Some (Split ar growcap (q_perm q) stream (s_pol b) (s_tr b) (s_ev b) secret (q_parts q) (q_threshold q))
           | AGeneric => Some (SplitGeneric (q_perm q) stream secret (q_parts q) (q_threshold q))
           | ASplitP sched => SplitPRun (q_perm q) stream secret (q_parts q) (q_threshold q) sched
           end in
  match o with Some (Ret shares) => Some (pick [] shares (q_show q)) | _ => None end.

(** [n] requests one after the other, all taking their random bytes from the same source *)
Fixpoint play (left : bool) (ar : arch) (growcap : nat -> nat -> nat) (att : attacker) (b : nat -> pools) (n : nat) (stream : nat -> byte) (h : history) : history :=
  match n with
  | O => h
  | S k => let q := att h in
           play left ar growcap att b k (fun i => stream (reads q + i)) (answer left ar growcap (b k) stream q :: h)
  end.
