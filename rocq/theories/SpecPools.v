(** Specification vocabulary for C74: what happens to the pool buffers over a whole history. *)
From Coq Require Import List NArith ZArith Lia Arith Bool.
From Coq.Init Require Import Byte.
From Verif Require Import GoSem Concurrency SpecConc.
Import ListNotations.

(** how often goroutine [th] got a buffer from pool [pl], and how often it put one back there *)
Definition gets (tr : history) (th pl : nat) : nat :=
  length (filter (fun '(t, ev) => (t =? th) && match ev with EvHit p _ | EvMiss p _ => p =? pl | _ => false end) tr).
Definition puts (tr : history) (th pl : nat) : nat :=
  length (filter (fun '(t, ev) => (t =? th) && match ev with EvPut p _ | EvDrop p _ => p =? pl | _ => false end) tr).

(** the buffers allocated for pool [pl] because it was empty, and those it dropped because it was full *)
Definition created (tr : history) (pl : nat) : list nat :=
  flat_map (fun '(_, ev) => match ev with EvMiss p b => if p =? pl then [b] else [] | _ => [] end) tr.
Definition dropped (tr : history) (pl : nat) : list nat :=
  flat_map (fun '(_, ev) => match ev with EvDrop p b => if p =? pl then [b] else [] | _ => [] end) tr.

(** pool and buffer of an event *)
Definition about (ev : event) : option (nat * nat) :=
  match ev with EvHit p b | EvMiss p b | EvPut p b | EvDrop p b => Some (p, b) | EvLocal => None end.

(** how many buffers of a pool one call works with: two of [bPool], one of [polynomialBufferPool] *)
Definition most (pl : nat) : nat := match pl with 0 => 2 | 1 => 1 | _ => 0 end.
