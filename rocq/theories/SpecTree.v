(** Specification vocabulary for C87: shares that are split again (a tree of calls). *)
From Coq Require Import List NArith ZArith Lia Arith Bool Permutation.
From Coq.Init Require Import Byte.
From Verif Require Import GoSem Bytes Spec Vector Pool Polynomial Shamir SplitP SpecJoint.
Import ListNotations.

(** A call of one of the split functions, without the secret and the random bytes *)
Record call : Type := { c_api : api; c_perm : list nat; c_parts : Z; c_threshold : Z; c_pools : pools }.

(** How a secret is handed out: to one person, or by a call whose shares are handed out in turn, one per child *)
Inductive tree : Type :=
  | Leaf
  | Node (c : call) (children : list tree).

Fixpoint leaves (t : tree) : nat := match t with Leaf => 1 | Node _ children => list_sum (map leaves children) end.

(** how many random bytes are taken for a secret of [n] bytes; shares are one byte longer *)
Definition takes (c : call) (n : nat) : nat :=
  match c_api c with ASplit => Z.to_nat (c_threshold c) * n | _ => (Z.to_nat (c_threshold c) - 1) * n end.
Fixpoint need (t : tree) (n : nat) : nat :=
  match t with Leaf => 0 | Node c children => takes c n + list_sum (map (fun child => need child (n + 1)) children) end.

(** valid arguments for a secret of [n] bytes, in all calls; as many children as parts *)
Fixpoint proper_tree (t : tree) (n : nat) : Prop :=
  match t with
  | Leaf => True
  | Node c children =>
    Permutation (c_perm c) (seq 0 255) /\ 1 <= n /\ (2 <= c_threshold c)%Z /\ (c_threshold c <= c_parts c)%Z /\ (c_parts c <= 255)%Z /\
    match c_api c with ASplitP _ => (N.of_nat n <= 4294967296 - 1024)%N | _ => True end /\
    length children = Z.to_nat (c_parts c) /\ fold_right and True (map (fun child => proper_tree child (n + 1)) children)
  end.

(** no call in this tree is one of SplitP *)
Fixpoint no_SplitP (t : tree) : Prop :=
  match t with
  | Leaf => True
  | Node c children => match c_api c with ASplitP _ => False | _ => True end /\ fold_right and True (map no_SplitP children)
  end.

Definition runCall (ar : arch) (growcap : nat -> nat -> nat) (c : call) (stream : nat -> byte) (secret : list byte) : option (outcome (list (list byte))) :=
  let b := c_pools c in
  match c_api c with
  | ASplit => Some (Split ar growcap (c_perm c) stream (s_pol b) (s_tr b) (s_ev b) secret (c_parts c) (c_threshold c))
  | AGeneric => Some (SplitGeneric (c_perm c) stream secret (c_parts c) (c_threshold c))
  | ASplitP sched => SplitPRun (c_perm c) stream secret (c_parts c) (c_threshold c) sched
  end.

(** the children one after the other, each with one share and its own random bytes *)
Definition handOut {A} (f : tree -> (nat -> byte) -> list byte -> list A) :=
  fix go (children : list tree) (shares : list (list byte)) (stream : nat -> byte) : list A :=
    match children, shares with
    | child :: children', share :: shares' => f child stream share ++ go children' shares' (fun i => stream (need child (length share) + i))
    | _, _ => []
    end.

(** What each person gets, from left to right; nothing below a call that does not return (SplitP, with some schedules). *)
Fixpoint deal (ar : arch) (growcap : nat -> nat -> nat) (t : tree) (stream : nat -> byte) (secret : list byte) : list (option (list byte)) :=
  match t with
  | Leaf => [Some secret]
  | Node c children =>
    match runCall ar growcap c stream secret with
    | Some (Ret shares) => handOut (deal ar growcap) children shares (fun i => stream (takes c (length secret) + i))
    | _ => repeat None (leaves t)
    end
  end.

(** each child with its part of a list about the leaves *)
Definition spread {A B} (f : tree -> list A -> B) :=
  fix go (children : list tree) (l : list A) : list B :=
    match children with
    | child :: children' => f child (firstn (leaves child) l) :: go children' (skipn (leaves child) l)
    | [] => []
    end.

(** Do these people ([seen], from left to right) know the secret: at a call, they know at least threshold of its shares. *)
Fixpoint qualified (t : tree) (seen : list bool) : bool :=
  match t with
  | Leaf => nth 0 seen false
  | Node c children => Z.to_nat (c_threshold c) <=? count (fun b : bool => b) (spread qualified children seen)
  end.

(** what these people have *)
Definition mask (seen : list bool) (l : list (option (list byte))) : list (option (list byte)) :=
  map (fun p : bool * option (list byte) => if fst p then snd p else None) (combine seen l).

Fixpoint present {A} (l : list (option A)) : list A := match l with [] => [] | Some a :: l' => a :: present l' | None :: l' => present l' end.

(** Combining what there is, from the leaves to the root: Combine is called wherever threshold shares are known. *)
Fixpoint recover (t : tree) (got : list (option (list byte))) : option (list byte) :=
  match t with
  | Leaf => nth 0 got None
  | Node c children =>
    let shares := present (spread recover children got) in
    if Z.to_nat (c_threshold c) <=? length shares
    then match Combine shares with Ret secret => Some secret | _ => None end
    else None
  end.

(** these people and the one at position [i] *)
Definition with_person (seen : list bool) (i : nat) : list bool := map (fun j => nth j seen false || (j =? i)) (seq 0 (length seen)).

(** An attacker that wins people over one after the other: [att] names the next person, from left to right, upon what it has been told so far
    (latest first). It is told what that person has, unless the people won over would then be qualified; the attacker knows the tree, so it can
    tell these refusals from nothing. *)
Fixpoint corrupt (t : tree) (att : list (option (list byte)) -> nat) (has : list (option (list byte))) (n : nat) (seen : list bool)
         (told : list (option (list byte))) : list (option (list byte)) :=
  match n with
  | O => told
  | S k =>
    let i := att told in
    let seen' := with_person seen i in
    if qualified t seen' then corrupt t att has k seen (None :: told)
    else corrupt t att has k seen' (nth i has None :: told)
  end.
