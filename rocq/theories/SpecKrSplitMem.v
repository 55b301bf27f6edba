(** Specification vocabulary for programs that use both packages on memory. *)
From Coq Require Import List NArith ZArith Lia Arith Bool.
From Coq.Init Require Import Byte.
From Verif Require Import GoSem Bytes Vector Pool Shamir Libs Krawczyk Memory MemCalls SpecMemCalls KrMem SpecKrMem KrSplitMem.
Import ListNotations.

(** One step of such a program: a step of SpecMemCalls.v, or a call of krawczyk or of SplitWithRandomizerOld. Shares are referred to by their
    number among the slices held, [None] is a nil share. *)
Inductive pkgOp : Type :=
  | PBase (op : clientOp)
  | POld (ks : nat -> byte) (k : nat) (parts threshold : Z)
  | PKrSplit (extra : nat) (krand : nat -> byte) (perm : list nat) (stream : nat -> byte) (k : nat) (parts threshold : Z)
  | PKrSplitWithRandomizer (fuel extra : nat) (ks : nat -> byte) (k : nat) (parts threshold : Z)
  | PKrCombine (ps : list (option nat)) (parts threshold : Z).

(** the call made by an operation, if it is a call *)
Definition pkgCall (E : blockCipher) (zp : bool) (rd : nat -> nat) (size : nat) ar growcap (env : list gslice) (op : pkgOp) : option (M (list gslice)) :=
  match op with
  | PBase op => callOf size ar growcap env op
  | POld ks k parts threshold => Some (mSplitWithRandomizerOld size ar growcap ks (nthSlice env k) parts threshold)
  | PKrSplit extra krand perm stream k parts threshold => Some (mKrSplit E zp extra size ar growcap krand perm stream (nthSlice env k) parts threshold)
  | PKrSplitWithRandomizer fuel extra ks k parts threshold => Some (mKrSplitWithRandomizer fuel E zp extra size ar growcap ks (nthSlice env k) parts threshold)
  | PKrCombine ps parts threshold => Some (fun m => one (mKrCombine E zp rd (map (option_map (nthSlice env)) ps) parts threshold m))
  end.

(** an operation that goes wrong adds nothing *)
Definition pkgStep (E : blockCipher) (zp : bool) (rd : nat -> nat) (size : nat) ar growcap (c : memory * list gslice) (op : pkgOp) : memory * list gslice :=
  match op with
  | PBase op => clientStep size ar growcap c op
  | _ => match pkgCall E zp rd size ar growcap (snd c) op with
         | Some call => match call (fst c) with (m', Ret slices) => (m', snd c ++ slices) | (m', _) => (m', snd c) end
         | None => c
         end
  end.

(** The operations considered: permutations of 255 elements; shares given to krawczyk.Combine that are not 22 bytes long (C63 treats those). *)
Definition pkgOp_ok (env : list gslice) (op : pkgOp) : Prop :=
  match op with
  | PBase op => op_ok op
  | PKrSplit _ _ perm _ _ _ _ => length perm = 255
  | PKrCombine ps _ _ => forall p, In (Some p) ps -> sl_len (nthSlice env p) <> 22
  | _ => True
  end.

(** the memories and slices a program can reach *)
Inductive reached (E : blockCipher) (zp : bool) (rd : nat -> nat) (size : nat) ar growcap : memory * list gslice -> Prop :=
  | reached_start : reached E zp rd size ar growcap (emptyMemory, [])
  | reached_step c op : reached E zp rd size ar growcap c -> pkgOp_ok (snd c) op -> reached E zp rd size ar growcap (pkgStep E zp rd size ar growcap c op).

(** What the operation computes from values, when it is a call. [stale] is the array of the pool buffer that SplitWithRandomizer gets, [spares]
    the bytes between the lengths and the capacities of the slices. *)
Definition pkgValue (E : blockCipher) (zp : bool) (rd : nat -> nat) ar growcap (stale : list byte) (vals spares : list (list byte)) (op : pkgOp)
  : option (outcome (list (list byte))) :=
  match op with
  | PBase op => valueOf ar growcap stale vals op
  | POld ks k parts threshold => Some (SplitWithRandomizerOld ar growcap ks (fun _ => []) (nth k vals []) parts threshold)
  | PKrSplit extra krand perm stream k parts threshold => Some (krSplit E zp ar growcap krand perm stream [] [] (fun _ => []) (nth k vals []) parts threshold)
  | PKrSplitWithRandomizer fuel extra ks k parts threshold => Some (krSplitWithRandomizer fuel E zp ar growcap ks stale [] (fun _ => []) (nth k vals []) parts threshold)
  | PKrCombine ps parts threshold =>
      Some (do r <- krCombineCap E zp rd (map (option_map (fun p => (nth p vals [], nth p spares []))) ps) parts threshold; Ret [r])
  end.
