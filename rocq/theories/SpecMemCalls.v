(** Specification vocabulary for the properties about calls that run on memory (MemCalls.v). *)
From Coq Require Import List NArith ZArith Lia Arith Bool.
From Coq.Init Require Import Byte.
From Verif Require Import GoSem Bytes Vector Shamir Memory MemCalls.
Import ListNotations.

(** The buffers that lie in the two pools of the package, and the arrays behind them (a new buffer has none). *)
Definition buffers (m : memory) : list gslice := m_bpool m ++ m_epool m.
Definition arraysOf (bs : list gslice) : list nat := map sl_arr (filter (fun b => 0 <? sl_cap b) bs).
Definition pooled (m : memory) (a : nat) : Prop := In a (arraysOf (buffers m)).

(** A buffer covers an array of the heap from its start to its end. *)
Definition backed (h : heap) (b : gslice) : Prop :=
  0 < sl_cap b -> sl_arr b < length h /\ sl_off b = 0 /\ sl_cap b = length (nth (sl_arr b) h []).

(** The pools are in order: every buffer has an array of its own. *)
Definition mem_ok (m : memory) : Prop := Forall (backed (m_heap m)) (buffers m) /\ NoDup (arraysOf (buffers m)).

(** A slice a caller can have: nil or empty, or a window of an array that does not belong to a pool. *)
Definition usable (m : memory) (s : gslice) : Prop :=
  sl_len s <= sl_cap s /\
  (0 < sl_cap s -> sl_arr s < length (m_heap m) /\ sl_off s + sl_cap s <= length (nth (sl_arr s) (m_heap m) []) /\ ~ pooled m (sl_arr s)).

(** What a call may do to memory: every array that existed before, other than the buffers in the pools, has the bytes it had, and
    has not been put into a pool. *)
Definition keeps (m m' : memory) : Prop :=
  mem_ok m' /\ length (m_heap m) <= length (m_heap m') /\
  forall a, a < length (m_heap m) -> ~ pooled m a -> nth a (m_heap m') [] = nth a (m_heap m) [] /\ ~ pooled m' a.

(** A slice of an array allocated by the call, which the pools do not share. *)
Definition fresh (m m' : memory) (s : gslice) : Prop := usable m' s /\ length (m_heap m) <= sl_arr s.

(** The backing array of the buffer that the next [bPool.Get] delivers. *)
Definition nextStale (m : memory) : list byte :=
  match m_bpool m with [] => [] | b :: _ => firstn (sl_cap b) (nth (sl_arr b) (m_heap m) []) end.

(** Slices that show different bytes: no two of them overlap. *)
Definition separate (l : list gslice) : Prop :=
  forall i j, i < j -> j < length l -> sl_arr (nth i l nilSlice) = sl_arr (nth j l nilSlice) ->
    sl_off (nth i l nilSlice) + sl_len (nth i l nilSlice) <= sl_off (nth j l nilSlice).

(** A call from memory [m] with result [r] behaves like the function of values [model]: it keeps the caller's memory, it ends as
    [model] says, and when it returns slices they show the values of [model], are fresh and do not overlap. *)
Definition call_ok (m : memory) (r : memory * outcome (list gslice)) (model : outcome (list (list byte))) : Prop :=
  keeps m (fst r) /\
  match snd r with
  | Ret slices => model = Ret (map (mcontents (fst r)) slices) /\ Forall (fresh m (fst r)) slices /\ separate slices
  | Fail e => model = Fail e
  | Panic p => model = Panic p
  | UB => model = UB
  | Diverge => model = Diverge
  end.

(** the single slice of [Combine], as a list *)
Definition one {A} (r : memory * outcome A) : memory * outcome (list A) := (fst r, do a <- snd r; Ret [a]).

(** ** A client program: it allocates, stores, appends, reslices and calls the package, in any order. It holds a list of slices,
    which it refers to by number; every slice made or returned is added at the end. *)
Inductive clientOp : Type :=
  | KNew (data : list byte)
  | KStore (k i : nat) (v : byte)
  | KAppend (k extra : nat) (v : byte)
  | KSlice (k i j : nat)
  | KSplit (perm : list nat) (stream : nat -> byte) (k : nat) (parts threshold : Z)
  | KSplitWithRandomizer (fuel : nat) (ks : nat -> byte) (k : nat) (parts threshold : Z)
  | KSplitGeneric (perm : list nat) (stream : nat -> byte) (k : nat) (parts threshold : Z)
  | KCombine (ps : list nat)
  | KRegenerate (fuel : nat) (stream u : nat -> byte) (ps : list nat) (num : Z).

Definition nthSlice (env : list gslice) (k : nat) : gslice := nth k env nilSlice.

(** the call made by an operation, if it is a call *)
Definition callOf (size : nat) ar growcap (env : list gslice) (op : clientOp) : option (M (list gslice)) :=
  match op with
  | KSplit perm stream k parts threshold => Some (mSplit size ar growcap perm stream (nthSlice env k) parts threshold)
  | KSplitWithRandomizer fuel ks k parts threshold => Some (mSplitWithRandomizer size fuel ar growcap ks (nthSlice env k) parts threshold)
  | KSplitGeneric perm stream k parts threshold => Some (mSplitGeneric perm stream (nthSlice env k) parts threshold)
  | KCombine ps => Some (fun m => one (mCombine (map (nthSlice env) ps) m))
  | KRegenerate fuel stream u ps num => Some (mRegenerate fuel stream u (map (nthSlice env) ps) num)
  | _ => None
  end.

(** an operation that goes wrong (error, panic) adds nothing *)
Definition clientStep (size : nat) ar growcap (c : memory * list gslice) (op : clientOp) : memory * list gslice :=
  let (m, env) := c in
  match callOf size ar growcap env op with
  | Some call => match call m with (m', Ret slices) => (m', env ++ slices) | (m', _) => (m', env) end
  | None =>
    match op with
    | KNew data => let (h, s) := alloc (m_heap m) data in (setHeap m h, env ++ [s])
    | KStore k i v => (fst (mstore (nthSlice env k) i v m), env)
    | KAppend k extra v => let (h, s) := append1 extra (m_heap m) (nthSlice env k) v in (setHeap m h, env ++ [s])
    | KSlice k i j => match reslice (nthSlice env k) i j with Ret s => (m, env ++ [s]) | _ => (m, env) end
    | _ => c
    end
  end.
Definition clientRun (size : nat) ar growcap (c : memory * list gslice) (ops : list clientOp) : memory * list gslice :=
  fold_left (clientStep size ar growcap) ops c.

(** the permutation drawn by [rand.Perm(255)] *)
Definition op_ok (op : clientOp) : Prop :=
  match op with KSplit perm _ _ _ _ | KSplitGeneric perm _ _ _ _ => length perm = 255 | _ => True end.

(** What the operation computes from values, when it is a call: the functions of Shamir.v. [stale] is the array of the pool buffer
    that SplitWithRandomizer gets. *)
Definition valueOf ar growcap (stale : list byte) (vals : list (list byte)) (op : clientOp) : option (outcome (list (list byte))) :=
  match op with
  | KSplit perm stream k parts threshold => Some (Split ar growcap perm stream [] [] (fun _ => []) (nth k vals []) parts threshold)
  | KSplitWithRandomizer fuel ks k parts threshold =>
      Some (SplitWithRandomizer fuel ar growcap ks stale [] (fun _ => []) (nth k vals []) parts threshold)
  | KSplitGeneric perm stream k parts threshold => Some (SplitGeneric perm stream (nth k vals []) parts threshold)
  | KCombine ps => Some (do r <- Combine (map (fun p => nth p vals []) ps); Ret [r])
  | KRegenerate fuel stream u ps num => Some (Regenerate fuel stream u (map (fun p => nth p vals []) ps) num)
  | _ => None
  end.

(** The client's slices are slices it may use, and the pools are in order. *)
Definition client_ok (c : memory * list gslice) : Prop := mem_ok (fst c) /\ Forall (usable (fst c)) (snd c).

(** nothing allocated, empty pools *)
Definition emptyMemory : memory := {| m_heap := []; m_bpool := []; m_epool := [] |}.
