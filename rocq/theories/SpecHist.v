(** Specification vocabulary for histories: one split followed by any number of Regenerate calls, each on shares chosen
    from all the shares issued so far. *)
From Coq Require Import List NArith ZArith Lia Arith Bool.
From Coq.Init Require Import Byte.
From Verif Require Import GoSem Bytes Spec Vector Pool Polynomial Shamir.
Import ListNotations.

(** One call [Regenerate(parts, num)]: the indices of the parts in the list of shares issued so far, the number of new shares, and the
    random choices of the call: the bytes drawn as tags, the replacement bytes, and how many of these are drawn at most. *)
Record regen_call := RegenCall
  { rc_from : list nat; rc_num : Z; rc_fuel : nat; rc_tags : nat -> byte; rc_redraws : nat -> byte }.

(** All shares issued after the calls. A call that reports an error issues none; a call that panics or never returns ends the history. *)
Fixpoint regen_history (calls : list regen_call) (issued : list (list byte)) : outcome (list (list byte)) :=
  match calls with
  | [] => Ret issued
  | c :: rest =>
    match Regenerate (rc_fuel c) (rc_tags c) (rc_redraws c) (pick [] issued (rc_from c)) (rc_num c) with
    | Ret new => regen_history rest (issued ++ new)
    | Fail _ => regen_history rest issued
    | Panic p => Panic p
    | UB => UB
    | Diverge => Diverge
    end
  end.

(** every call is given at least [t] distinct shares *)
Definition enough (t : nat) (calls : list regen_call) : Prop := Forall (fun c => t <= length (rc_from c)) calls.

(** Split(secret, parts, threshold) with [stream] as source of the coefficients, then the calls *)
Definition split_history ar growcap perm stream polB trB evBufs (secret : list byte) (parts threshold : Z)
  (calls : list regen_call) : outcome (list (list byte)) :=
  match Split ar growcap perm stream polB trB evBufs secret parts threshold with
  | Ret shares => regen_history calls shares
  | Fail e => Fail e
  | Panic p => Panic p
  | UB => UB
  | Diverge => Diverge
  end.
