(** Specification vocabulary for C65: what Split leaves behind in the buffer pool. *)
From Coq Require Import List NArith ZArith Lia Arith Bool.
From Coq.Init Require Import Byte.
From Verif Require Import GoSem Bytes Vector Shamir Memory MemCalls SpecMemCalls.
Import ListNotations.

(** A buffer [b] lies in the pool of the package and its array, from the start, spells the bytes [l]. *)
Definition buffered (m : memory) (b : gslice) (l : list byte) : Prop :=
  In b (m_bpool m) /\ length l <= sl_cap b /\ firstn (length l) (nth (sl_arr b) (m_heap m) []) = l.

(** A buffer [b] lies in the pool of the package and byte p of [l] stands at position [t*p] of its array. *)
Definition scattered (m : memory) (b : gslice) (t : nat) (l : list byte) : Prop :=
  In b (m_bpool m) /\ t * length l <= sl_cap b /\ forall p, p < length l -> nth (t * p) (nth (sl_arr b) (m_heap m) []) x00 = nth p l x00.

(** The operations of a client that do not use the buffers of the pool: everything except Split and SplitWithRandomizer. *)
Definition noPoolOp (op : clientOp) : Prop :=
  match op with KSplit _ _ _ _ _ | KSplitWithRandomizer _ _ _ _ _ => False | _ => True end.

(** The operation splits slice [k] of the client with this threshold. *)
Definition splits (op : clientOp) (k : nat) (threshold : Z) : Prop :=
  match op with
  | KSplit _ _ k' _ t | KSplitWithRandomizer _ _ k' _ t => k' = k /\ t = threshold
  | _ => False
  end.
