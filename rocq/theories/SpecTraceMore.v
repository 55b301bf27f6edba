(** Specification vocabulary for C73: the access pattern of one goroutine of SplitP. *)
From Coq Require Import List NArith ZArith Lia Arith Bool.
From Coq.Init Require Import Byte.
From Verif Require Import Bytes Spec Trace.
Import ListNotations.

(** The records of one evaluation of the polynomial [p] (lowest coefficient first) at [x]: a test for x = 0, then going down from the highest
    coefficient the value so far is multiplied by x. *)
Definition evalRecords (p : list byte) (x : byte) : list event :=
  Branch (beq x x00) :: if beq x x00 then [] else map (fun k => MulT (peval (skipn (S k) p) x) x) (rev (seq 0 (length p - 1))).

(** what thread [th] left in the records of a schedule *)
Definition recordsOf (th : nat) (l : list (nat * list event)) : list event :=
  flat_map (fun e => if fst e =? th then snd e else []) l.
