(** Specification vocabulary for krawczyk.Combine on memory. *)
From Coq Require Import List NArith ZArith Lia Arith Bool.
From Coq.Init Require Import Byte.
From Verif Require Import GoSem Bytes Memory MemCalls SpecMemCalls.
Import ListNotations.

(** The slices, with their capacities, show different bytes. *)
Definition apart (s t : gslice) : Prop :=
  sl_arr s <> sl_arr t \/ sl_off s + sl_cap s <= sl_off t \/ sl_off t + sl_cap t <= sl_off s.

(** A stub: a share of 22 bytes, which has metadata and an index but no piece between them. No stub among the shares lies, with its
    capacity, over another share. *)
Definition stubs_apart (ss : list (option gslice)) : Prop :=
  forall i j s t, i <> j -> nth_error ss i = Some (Some s) -> nth_error ss j = Some (Some t) -> sl_len s = 22 -> apart s t.

(** Byte [k] of array [a] is, in some stub, at or after the position of the index, within the capacity. *)
Definition in_stub (ss : list (option gslice)) (a k : nat) : Prop :=
  exists s, In (Some s) ss /\ sl_len s = 22 /\ sl_arr s = a /\ sl_off s + 21 <= k < sl_off s + sl_cap s.

(** What a call may do to memory that is allowed to write the bytes [W]: all other bytes of the arrays that existed before and do not
    belong to a pool are as they were, and no such array has been put into a pool. *)
Definition keepsBut (W : nat -> nat -> Prop) (m m' : memory) : Prop :=
  mem_ok m' /\ length (m_heap m) <= length (m_heap m') /\
  forall a, a < length (m_heap m) -> ~ pooled m a ->
    ~ pooled m' a /\ length (nth a (m_heap m') []) = length (nth a (m_heap m) []) /\
    forall k, ~ W a k -> nth k (nth a (m_heap m') []) x00 = nth k (nth a (m_heap m) []) x00.

(** the shares that are not nil can be used by the caller *)
Definition usable_shares (m : memory) (ss : list (option gslice)) : Prop := forall s, In (Some s) ss -> usable m s.

(** [n] bytes from offset [o] of a slice's start on *)
Definition bytesAt (m : memory) (s : gslice) (o n : nat) : list byte := firstn n (skipn (sl_off s + o) (nth (sl_arr s) (m_heap m) [])).

(** A call from memory [m] with result [r] that may write the bytes [W] and otherwise behaves like the function of values [model]: it
    ends as [model] says, and a slice it returns shows the value of [model] and is fresh. *)
Definition call_ok_but (W : nat -> nat -> Prop) (m : memory) (r : memory * outcome gslice) (model : outcome (list byte)) : Prop :=
  keepsBut W m (fst r) /\
  match snd r with
  | Ret s => model = Ret (mcontents (fst r) s) /\ fresh m (fst r) s
  | Fail e => model = Fail e
  | Panic p => model = Panic p
  | UB => model = UB
  | Diverge => model = Diverge
  end.
