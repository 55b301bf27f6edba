(** Specification vocabulary for C75: an attacker who asks for many splits, with shamir and with krawczyk, and an attacker who only gets
    ciphertexts. *)
From Coq Require Import List NArith ZArith Lia Arith Bool Permutation.
From Coq.Init Require Import Byte.
From Verif Require Import GoSem Bytes Spec SpecKr Vector Pool Polynomial Shamir SplitP Libs Krawczyk SpecJoint.
Import ListNotations.

(** A request for shares of one of two secrets, made with the shamir functions or with krawczyk.Split ([q_api] is then without meaning). *)
Inductive request : Type := RShamir (q : query) | RKrawczyk (q : query).

(** The secrets are equally long and acceptable, and fewer shares than the threshold are shown unless the two secrets are the same. *)
Definition fair_request (zp : bool) (r : request) : Prop :=
  match r with
  | RShamir q => fair q
  | RKrawczyk q =>
      Permutation (q_perm q) (seq 0 255) /\ kr_valid_args zp (q_left q) (q_parts q) (q_threshold q) /\ length (q_left q) = length (q_right q) /\
      (coalition (Z.to_nat (q_parts q)) (Z.to_nat (q_threshold q)) (q_show q) \/ q_left q = q_right q)
  end.

(** how many random bytes the call takes: krawczyk.Split takes 16 for the key, and its call of shamir.Split 20 for each of [threshold] coefficients *)
Definition consumes (r : request) : nat :=
  match r with RShamir q => reads q | RKrawczyk q => 16 + Z.to_nat (q_threshold q) * 20 end.

(** the shares shown; [left]: in this world all left secrets are split, otherwise the right ones *)
Definition shows (left : bool) (E : blockCipher) (zp : bool) (ar : arch) (growcap : nat -> nat -> nat) (b : pools) (stream : nat -> byte) (r : request)
  : option (list (list byte)) :=
  match r with
  | RShamir q => answer left ar growcap b stream q
  | RKrawczyk q =>
      match krSplit E zp ar growcap stream (q_perm q) (fun i => stream (16 + i)) (s_pol b) (s_tr b) (s_ev b)
                    (if left then q_left q else q_right q) (q_parts q) (q_threshold q) with
      | Ret shares => Some (pick [] shares (q_show q))
      | _ => None
      end
  end.

(** [n] requests one after the other, chosen by [att] depending on what it has seen, all taking their random bytes from the same source *)
Fixpoint share_game (left : bool) (E : blockCipher) (zp : bool) (ar : arch) (growcap : nat -> nat -> nat) (att : history -> request) (b : nat -> pools)
         (n : nat) (stream : nat -> byte) (h : history) : history :=
  match n with
  | O => h
  | S k => let r := att h in
           share_game left E zp ar growcap att b k (fun i => stream (consumes r + i)) (shows left E zp ar growcap (b k) stream r :: h)
  end.

(** Someone who attacks the cipher: knowing [coins] (random bytes of its own) and the ciphertexts obtained so far (latest first, [None] for a
    round in which it did not ask), it may hand in two messages; in the end it makes up its mind. *)
Record breaker : Type := {
  hand_in : list byte -> list (option (list byte)) -> option (list byte * list byte);
  verdict : list byte -> list (option (list byte)) -> bool }.

(** [n] rounds. In each one of the two messages handed in is encrypted under the next, fresh key of 16 bytes; [left] says which. *)
Fixpoint cipher_game (left : bool) (enc : list byte -> list byte -> list byte) (a : breaker) (n : nat) (keys coins : list byte)
         (seen : list (option (list byte))) : bool :=
  match n with
  | O => verdict a coins seen
  | S k =>
      let c := match hand_in a coins seen with
               | Some (l, r) => Some (enc (firstn 16 keys) (if left then l else r))
               | None => None
               end in
      cipher_game left enc a k (skipn 16 keys) coins (c :: seen)
  end.
