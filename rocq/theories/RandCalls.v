(** A program that makes any sequence of calls which draw from the global generator of math/rand: what the calls return and the generator they
    leave to the next one. *)
From Coq Require Import List NArith ZArith Lia Arith Bool.
From Coq.Init Require Import Byte.
From Verif Require Import GoSem Bytes Vector Csprng Pool Polynomial Shamir Libs Krawczyk Worker MathRand.
Import ListNotations.

(** A call: shamir/shamir.go:30-104 [Split] and krawczyk/krawczyk.go:21-89 [Split], with the contents of the pool buffers they find,
    shamir/shamir.go:238-288 [SplitGeneric], and csprng/csprng.go:18-23 [NewCSPRNG]. *)
Inductive rcall : Type :=
  | RSplit (polB trB : bbuf) (evBufs : nat -> bbuf) (secret : list byte) (parts threshold : Z)
  | RGeneric (secret : list byte) (parts threshold : Z)
  | RKrawczyk (polB trB : bbuf) (evBufs : nat -> bbuf) (secret : list byte) (parts threshold : Z)
  | RNewCSPRNG.

(** What a call hands back: shares or an error (shamir/shamir.go:30, 238, krawczyk/krawczyk.go:21), or the key stream of a new generator (csprng/csprng.go:18) *)
Inductive rresult : Type :=
  | RShares (o : outcome (list (list byte)))
  | RStream (ks : nat -> byte).

(** The generator that a failed krawczyk.Split leaves: the checks of krawczyk/krawczyk.go:22-36 come before the key is drawn (lines 38-43), all
    other failures (lines 46-77) after it; shamir.Split draws only when its arguments are valid. *)
Definition krFailedRng (r : rng) (secret : list byte) (parts threshold : Z) : rng :=
  match krCheck (length secret) parts threshold with Some _ => r | None => rngSkip LenKey r end.

(** The generator that a successful krawczyk.Split leaves: the key (krawczyk/krawczyk.go:38-43), then shamir.Split (line 74) of the key and the length,
    which draws a permutation (shamir/shamir.go:49) and [threshold] bytes for each of them (shamir/polynomial.go:21). *)
Definition krDoneRng (fuel : nat) (r : rng) (threshold : Z) : outcome rng :=
  do '(_, r1) <- rngPerm fuel (rngSkip LenKey r) 255;
  Ret (rngSkip (Z.to_nat threshold * (LenKey + LenLen)) r1).

(** One call, with the generator in state [r]. (shamir/shamir.go:30-104, 238-288, krawczyk/krawczyk.go:21-89, csprng/csprng.go:18-23) *)
Definition runCall (fuel : nat) (E : blockCipher) (zp : bool) (ar : arch) (growcap : nat -> nat -> nat) (r : rng) (c : rcall)
  : outcome (rresult * rng) :=
  match c with
  | RSplit polB trB evBufs secret parts threshold =>
    match SplitRand fuel ar growcap polB trB evBufs r secret parts threshold with
    | Ret (shares, r') => Ret (RShares (Ret shares), r')
    | Fail e => Ret (RShares (Fail e), r)
    | Panic p => Panic p
    | UB => UB
    | Diverge => Diverge
    end
  | RGeneric secret parts threshold =>
    match SplitGenericRand fuel r secret parts threshold with
    | Ret (shares, r') => Ret (RShares (Ret shares), r')
    | Fail e => Ret (RShares (Fail e), r)
    | Panic p => Panic p
    | UB => UB
    | Diverge => Diverge
    end
  | RKrawczyk polB trB evBufs secret parts threshold =>
    match krSplitRand fuel E zp ar growcap polB trB evBufs r secret parts threshold with
    | Ret shares => do r' <- krDoneRng fuel r threshold; Ret (RShares (Ret shares), r')
    | Fail e => Ret (RShares (Fail e), krFailedRng r secret parts threshold)
    | Panic p => Panic p
    | UB => UB
    | Diverge => Diverge
    end
  | RNewCSPRNG => let (ks, r') := NewCSPRNGRand E r in Ret (RStream ks, r')
  end.

(** Calls one after the other. (shamir/shamir.go:30-104, 238-288, krawczyk/krawczyk.go:21-89, csprng/csprng.go:18-23) *)
Fixpoint runCalls (fuel : nat) (E : blockCipher) (zp : bool) (ar : arch) (growcap : nat -> nat -> nat) (r : rng) (calls : list rcall)
  : outcome (list rresult * rng) :=
  match calls with
  | [] => Ret ([], r)
  | c :: rest =>
    do '(x, r1) <- runCall fuel E zp ar growcap r c;
    do '(xs, r2) <- runCalls fuel E zp ar growcap r1 rest;
    Ret (x :: xs, r2)
  end.
