(** Specification vocabulary for programs that also call SplitP on memory (C64). *)
From Coq Require Import List NArith ZArith Lia Arith Bool.
From Coq.Init Require Import Byte.
From Verif Require Import GoSem Bytes Vector Pool Shamir SplitP Libs Krawczyk Memory MemCalls SpecMemCalls KrMem SpecKrMem KrSplitMem SpecKrSplitMem SplitPMem.
Import ListNotations.

(** The memories and slices such a program can reach: as in SpecKrSplitMem.v, with calls of SplitP (under any schedule of its goroutines) added. *)
Inductive reachedP (E : blockCipher) (zp : bool) (rd : nat -> nat) (size : nat) ar growcap : memory * list gslice -> Prop :=
  | reachedP_start : reachedP E zp rd size ar growcap (emptyMemory, [])
  | reachedP_step c op : reachedP E zp rd size ar growcap c -> pkgOp_ok (snd c) op -> reachedP E zp rd size ar growcap (pkgStep E zp rd size ar growcap c op)
  | reachedP_splitp c perm stream k parts threshold sched r : reachedP E zp rd size ar growcap c -> length perm = 255 ->
      mSplitP perm stream (nthSlice (snd c) k) parts threshold (fst c) sched r ->
      reachedP E zp rd size ar growcap (fst r, snd c ++ match snd r with Ret slices => slices | _ => [] end).
