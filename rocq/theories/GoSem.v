(** Semantics of the Go fragment used by the repository: outcomes of a call,
    bounds-checked slice operations and loops. This file models the Go language,
    not a file of /repo. *)
From Coq Require Import List NArith ZArith Lia Arith Bool.
From Coq.Init Require Import Byte.
Import ListNotations.

(** Error values returned by the library (one constructor per distinct message). *)
Inductive err : Type :=
  (* shamir.go *)
  | EPartsLtThreshold | EPartsTooMany | EThresholdSmall | EThresholdBig | EEmptySecret
  | ETooFewParts | EPartsTooShort | EPartsLength | EDuplicatePart
  (* krawczyk.go *)
  | ESecretTooLarge | EZeroParam | EThresholdGtParts | EParamsTooBig | EWrongPartId
  (* crypto/aes: key size *)
  | EKeySize
  (* reedsolomon library errors *)
  | ERSInvShardNum | ERSMaxShardNum | ERSShortData | ERSTooFewShards | ERSShardNoData
  | ERSShardSize | ERSReconstructRequired
  (* worker.go *)
  | EInvalidAlgorithm.

(** Run-time panics. *)
Inductive panic : Type :=
  | PIndex      (* index out of range *)
  | PSlice      (* slice bounds out of range *)
  | PMakeLen    (* make with a negative length *)
  | PDivide     (* explicit panic("divide by zero") etc. *)
  | PLength     (* explicit panic on different vector lengths *)
  | PDivZero.   (* integer division by zero *)

(** Outcome of a Go call. [UB]: assembly code accesses memory outside its slices.
    [Diverge]: the fuel of an unbounded Go loop is used up. *)
Inductive outcome (A : Type) : Type :=
  | Ret (a : A)
  | Fail (e : err)
  | Panic (p : panic)
  | UB
  | Diverge.
Arguments Ret {A} _.
Arguments Fail {A} _.
Arguments Panic {A} _.
Arguments UB {A}.
Arguments Diverge {A}.

(** Sequencing of statements. *)
Definition bind {A B : Type} (m : outcome A) (k : A -> outcome B) : outcome B :=
  match m with
  | Ret a => k a
  | Fail e => Fail e
  | Panic p => Panic p
  | UB => UB
  | Diverge => Diverge
  end.

Declare Scope go_scope.
Delimit Scope go_scope with go.
Notation "'do' x <- m ; k" := (bind m (fun x => k))
  (at level 200, x name, m at level 100, k at level 200, right associativity) : go_scope.
Notation "'do' ' x <- m ; k" := (bind m (fun x => k))
  (at level 200, x strict pattern, m at level 100, k at level 200, right associativity) : go_scope.
Open Scope go_scope.

(** A [for] loop over a list of loop-variable values, threading a state. *)
Fixpoint foreach {X S : Type} (l : list X) (f : X -> S -> outcome S) (s : S) : outcome S :=
  match l with
  | [] => Ret s
  | x :: r => do s' <- f x s; foreach r f s'
  end.

(** [l[i]] *)
Definition idx {A : Type} (l : list A) (i : nat) : outcome A :=
  match nth_error l i with Some a => Ret a | None => Panic PIndex end.

(** [l[i] = v] *)
Definition upd {A : Type} (l : list A) (i : nat) (v : A) : outcome (list A) :=
  if i <? length l then Ret (firstn i l ++ v :: skipn (S i) l) else Panic PIndex.

(** [l[s:e]] (for slices whose capacity is their length) *)
Definition slice {A : Type} (l : list A) (s e : nat) : outcome (list A) :=
  if (s <=? e) && (e <=? length l) then Ret (firstn (e - s) (skipn s l)) else Panic PSlice.

(** [copy(dst, src)]: the new contents of [dst]. *)
Definition gocopy {A : Type} (dst src : list A) : list A :=
  firstn (length dst) src ++ skipn (length src) dst.

(** Contents of [l] after the window starting at [s] has been overwritten by [sub]
    (writing through a sub-slice). *)
Definition splice {A : Type} (l : list A) (s : nat) (sub : list A) : list A :=
  firstn s l ++ sub ++ skipn (s + length sub) l.

(** [make([]byte, n)] *)
Definition zeros (n : nat) : list byte := repeat x00 n.

(** [make([]T, n)] with a signed length. *)
Definition make_len (n : Z) : outcome nat :=
  if (n <? 0)%Z then Panic PMakeLen else Ret (Z.to_nat n).

(** First [n] elements of a random byte stream. *)
Definition take_stream (s : nat -> byte) (n : nat) : list byte := map s (seq 0 n).
