(** Specification vocabulary for concurrent use of the buffer pools. *)
From Coq Require Import List NArith ZArith Lia Arith Bool Permutation.
From Coq.Init Require Import Byte.
From Verif Require Import GoSem Bytes Spec Vector Csprng Pool Polynomial Shamir Concurrency.
Import ListNotations.

(** A history: who did what, oldest first. *)
Definition history := list (nat * event).

(** The buffers goroutine [th] holds: those it got and has not put back since. *)
Definition heldBy (tr : history) (th : nat) : list nat :=
  fold_left (fun held '(t, ev) =>
    if t =? th then
      match ev with
      | EvHit _ b | EvMiss _ b => b :: held
      | EvPut _ b | EvDrop _ b => remove Nat.eq_dec b held
      | EvLocal => held
      end
    else held) tr [].

(** Buffer [b] occurs in a history. *)
Definition occurs (b : nat) (tr : history) : Prop := exists t ev, In (t, ev) tr /\
  match ev with EvHit _ c | EvMiss _ c | EvPut _ c | EvDrop _ c => c = b | EvLocal => False end.

(** The buffers stored into / taken from the pool [pl], in order. *)
Definition stored (pl : nat) (tr : history) : list nat :=
  flat_map (fun '(_, ev) => match ev with EvPut p b => if p =? pl then [b] else [] | _ => [] end) tr.
Definition taken (pl : nat) (tr : history) : list nat :=
  flat_map (fun '(_, ev) => match ev with EvHit p b => if p =? pl then [b] else [] | _ => [] end) tr.

(** The buffer that the next operation of a goroutine touches. *)
Definition touches {A : Type} (p : prog A) : option nat :=
  match p with
  | PPut _ b _ | PCap b _ | PAlloc b _ _ | PLoad b _ _ | PStore b _ _ _ => Some b
  | PDone _ | PGet _ _ => None
  end.

(** A client that follows the rules: it puts back and accesses only buffers it holds, whatever buffers the pool hands out and
    whatever they contain. [held] are the buffers it holds now. *)
Fixpoint well_behaved {A : Type} (held : list nat) (p : prog A) : Prop :=
  match p with
  | PDone _ => True
  | PGet _ k => forall b, ~ In b held -> well_behaved (b :: held) (k b)
  | PPut _ b k => In b held /\ well_behaved (remove Nat.eq_dec b held) k
  | PCap b k => In b held /\ forall n, well_behaved held (k n)
  | PAlloc b _ k => In b held /\ well_behaved held k
  | PLoad b _ k => In b held /\ forall v, well_behaved held (k v)
  | PStore b _ _ k => In b held /\ well_behaved held k
  end.

(** No buffer is in two places: held by two goroutines, held and pooled, or pooled twice. *)
Definition exclusive {A : Type} (tr : history) (s : gstate A) : Prop :=
  NoDup (concat (g_pools s)) /\
  (forall th, NoDup (heldBy tr th)) /\
  (forall th b, In b (heldBy tr th) -> ~ In b (concat (g_pools s))) /\
  (forall th th' b, In b (heldBy tr th) -> In b (heldBy tr th') -> th = th').

(** What a program can return when it runs alone: its buffers are private, [h] says what they contain; a [Get] delivers a buffer
    it does not hold, with any contents. *)
Definition setBuf (h : nat -> list byte) (b : nat) (c : list byte) : nat -> list byte := fun b' => if b' =? b then c else h b'.
Inductive alone {A : Type} : list nat -> (nat -> list byte) -> prog A -> list nat -> (nat -> list byte) -> outcome A -> Prop :=
  | A_done own h o : alone own h (PDone o) own h o
  | A_get own h pl k b c own' h' o : ~ In b own -> alone (b :: own) (setBuf h b c) (k b) own' h' o -> alone own h (PGet pl k) own' h' o
  | A_put own h pl b k own' h' o : alone (remove Nat.eq_dec b own) h k own' h' o -> alone own h (PPut pl b k) own' h' o
  | A_cap own h b k own' h' o : alone own h (k (length (h b))) own' h' o -> alone own h (PCap b k) own' h' o
  | A_alloc own h b n k own' h' o : alone own (setBuf h b (zeros n)) k own' h' o -> alone own h (PAlloc b n k) own' h' o
  | A_load own h b i k v own' h' o : nth_error (h b) i = Some v -> alone own h (k v) own' h' o -> alone own h (PLoad b i k) own' h' o
  | A_load_panic own h b i k : nth_error (h b) i = None -> alone own h (PLoad b i k) own h (Panic PIndex)
  | A_store own h b i v k own' h' o : i < length (h b) -> alone own (setBuf h b (setNth (h b) i v)) k own' h' o -> alone own h (PStore b i v k) own' h' o
  | A_store_panic own h b i v k : length (h b) <= i -> alone own h (PStore b i v k) own h (Panic PIndex).

(** [p] can return [o] when it runs alone, starting without buffers *)
Definition returns_alone {A : Type} (p : prog A) (o : outcome A) : Prop :=
  exists own' h', alone [] (fun _ => []) p own' h' o.

(** [o] is a correct outcome of the call [c]. Split: the outcome of the sequential Split on fresh buffers. SplitWithRandomizer: the
    sequential call on fresh buffers fails (panics, hangs) in the same way, or both return, with the same tags, and the shares
    combine to the secret (the data bytes depend on what the pool buffers contain). *)
Definition correct_outcome (ar : arch) (growcap : nat -> nat -> nat) (c : ccall) (o : outcome (list (list byte))) : Prop :=
  match c with
  | CSplit perm stream secret parts threshold => o = Split ar growcap perm stream [] [] (fun _ => []) secret parts threshold
  | CSplitWithRandomizer fuel ks secret parts threshold =>
    match o, SplitWithRandomizer fuel ar growcap ks [] [] (fun _ => []) secret parts threshold with
    | Ret shares, Ret shares' =>
        map tag shares = map tag shares' /\ length shares = Z.to_nat parts /\
        forall is, selection (Z.to_nat parts) (Z.to_nat threshold) is -> Combine (pick [] shares is) = Ret secret
    | o, o' => o = o'
    end
  end.

(** the permutations that Split calls draw are permutations of 0..254 *)
Definition draws_ok (c : ccall) : Prop := match c with CSplit perm _ _ _ _ => Permutation perm (seq 0 255) | _ => True end.
