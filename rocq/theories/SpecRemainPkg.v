(** Specification vocabulary for C65 and C76 in programs that use both packages. *)
From Coq Require Import List NArith ZArith Lia Arith Bool.
From Coq.Init Require Import Byte.
From Verif Require Import GoSem Bytes Vector SpecKr Libs Memory MemCalls SpecMemCalls KrSplitMem SpecKrSplitMem SpecRemain.
Import ListNotations.

(** The operations that take no buffer of the pool: all but the four split functions below. *)
Definition sparesPool (op : pkgOp) : Prop :=
  match op with
  | PBase op => noPoolOp op
  | POld _ _ _ _ | PKrCombine _ _ _ => True
  | PKrSplit _ _ _ _ _ _ _ | PKrSplitWithRandomizer _ _ _ _ _ _ => False
  end.

(** The bytes a split is said to leave behind, and its threshold: the secret itself, or AES key and length of the secret. *)
Definition left_behind (m : memory) (env : list gslice) (op : pkgOp) : option (list byte * Z) :=
  match op with
  | PBase (KSplit _ _ k _ threshold) | PBase (KSplitWithRandomizer _ _ k _ threshold) => Some (mcontents m (nthSlice env k), threshold)
  | PKrSplit _ rand _ _ k _ threshold | PKrSplitWithRandomizer _ _ rand k _ threshold =>
      Some (map rand (seq 0 16) ++ le32 (N.of_nat (length (mcontents m (nthSlice env k)))), threshold)
  | _ => None
  end.

(** What a program can come to from one configuration without using the pool. *)
Inductive later (E : blockCipher) (zp : bool) (rd : nat -> nat) (size : nat) ar growcap : memory * list gslice -> memory * list gslice -> Prop :=
  | later_now c : later E zp rd size ar growcap c c
  | later_step c op c' : pkgOp_ok (snd c) op -> sparesPool op -> later E zp rd size ar growcap (pkgStep E zp rd size ar growcap c op) c' ->
      later E zp rd size ar growcap c c'.
