(** Vocabulary for C51 (histories of calls): what it means that a call did what it should. *)
From Coq Require Import List NArith ZArith Arith.
From Coq.Init Require Import Byte.
From Verif Require Import GoSem Bytes Spec SpecKr Libs Shamir Krawczyk RandCalls.
Import ListNotations.

(** The documented error for bad arguments; for good ones shares, as many as asked for, any [threshold] of which combine to the secret. *)
Definition call_correct (E : blockCipher) (zp : bool) (rd : nat -> nat) (c : rcall) (x : rresult) : Prop :=
  match c with
  | RSplit _ _ _ secret parts threshold | RGeneric secret parts threshold =>
    (exists e, arg_error secret parts threshold e /\ x = RShares (Fail e)) \/
    (valid_args secret parts threshold /\ exists shares, x = RShares (Ret shares) /\ length shares = Z.to_nat parts /\
       forall is, selection (Z.to_nat parts) (Z.to_nat threshold) is -> Combine (pick [] shares is) = Ret secret)
  | RKrawczyk _ _ _ secret parts threshold =>
    (exists e, kr_arg_error zp secret parts threshold e /\ x = RShares (Fail e)) \/
    (kr_valid_args zp secret parts threshold /\ exists shares, x = RShares (Ret shares) /\ length shares = Z.to_nat parts /\
       forall ss is, selection (Z.to_nat parts) (Z.to_nat threshold) is -> somes ss = pick [] shares is ->
         krCombine E zp rd ss parts threshold = Ret secret)
  | RNewCSPRNG => exists ks, x = RStream ks
  end.
