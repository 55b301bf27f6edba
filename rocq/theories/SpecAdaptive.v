(** Specification vocabulary for C83: an attacker who asks for splits and regenerated shares and collects shares one by one. *)
From Coq Require Import List NArith ZArith Lia Arith Bool Permutation.
From Coq.Init Require Import Byte.
From Verif Require Import GoSem Bytes Spec Vector Pool Polynomial Shamir SplitP SpecHist SpecJoint.
Import ListNotations.

(** A call of a split function, with one of two secrets *)
Record splitting : Type := { p_api : api; p_perm : list nat; p_left : list byte; p_right : list byte; p_parts : Z; p_threshold : Z }.

(** valid arguments, and secrets of the same length *)
Definition proper (p : splitting) : Prop :=
  Permutation (p_perm p) (seq 0 255) /\ valid_args (p_left p) (p_parts p) (p_threshold p) /\ length (p_left p) = length (p_right p) /\
  match p_api p with ASplitP _ => (N.of_nat (length (p_left p)) <= 4294967296 - 1024)%N | _ => True end.

(** how many random bytes it takes *)
Definition bytes_of (p : splitting) : nat :=
  match p_api p with ASplit => Z.to_nat (p_threshold p) * length (p_left p) | _ => (Z.to_nat (p_threshold p) - 1) * length (p_left p) end.

(** [left]: in this world all left secrets are split, otherwise the right ones *)
Definition secret_of (left : bool) (p : splitting) : list byte := if left then p_left p else p_right p.
Definition splitOf (left : bool) (ar : arch) (growcap : nat -> nat -> nat) (b : pools) (stream : nat -> byte) (p : splitting)
  : option (outcome (list (list byte))) :=
  match p_api p with
  | ASplit => Some (Split ar growcap (p_perm p) stream (s_pol b) (s_tr b) (s_ev b) (secret_of left p) (p_parts p) (p_threshold p))
  | AGeneric => Some (SplitGeneric (p_perm p) stream (secret_of left p) (p_parts p) (p_threshold p))
  | ASplitP sched => SplitPRun (p_perm p) stream (secret_of left p) (p_parts p) (p_threshold p) sched
  end.

(** What the attacker may ask: split one of two secrets; call Regenerate on shares of the [k]-th sharing; show share [j] of the [k]-th sharing.
    It chooses the permutations and the bytes that Regenerate draws, too. *)
Inductive request : Type :=
  | QSplit (p : splitting)
  | QRegenerate (k : nat) (c : regen_call)
  | QShow (k j : nat).

(** What it is told: the tags of the new shares, a share, how a call ended, or that the request is refused. *)
Inductive reply : Type :=
  | RTags (tags : list byte) | RShare (s : list byte) | RError (e : err) | RPanic (p : panic) | RHangs | RRefused.

(** A sharing: the call that made it and where its random bytes start, all shares issued so far, the tags of the shares shown so far *)
Record sharing : Type := { g_split : splitting; g_from : nat; g_issued : list (list byte); g_shown : list byte }.

(** A share is shown if the two secrets are the same, or its tag is not zero and with it fewer than threshold different shares have been shown. *)
Definition may_show (g : sharing) (s : list byte) : bool :=
  (if list_eq_dec byte_eq_dec (p_left (g_split g)) (p_right (g_split g)) then true else false) ||
  (negb (beq (tag s) x00) && (length (nodup byte_eq_dec (tag s :: g_shown g)) <? Z.to_nat (p_threshold (g_split g)))).

(** all sharings, and how many random bytes have been taken *)
Definition world : Type := (list sharing * nat)%type.

(** Regenerate is only called with at least threshold many shares (C60 is about fewer). *)
Definition serve (left : bool) (ar : arch) (growcap : nat -> nat -> nat) (b : pools) (random : nat -> byte) (w : world) (q : request) : reply * world :=
  let (st, pos) := w in
  match q with
  | QSplit p =>
    match splitOf left ar growcap b (fun i => random (pos + i)) p with
    | Some (Ret shares) =>
      (RTags (map tag shares), (st ++ [{| g_split := p; g_from := pos; g_issued := shares; g_shown := [] |}], pos + bytes_of p))
    | _ => (RHangs, (st, pos + bytes_of p))
    end
  | QRegenerate k c =>
    match nth_error st k with
    | Some g =>
      if Z.to_nat (p_threshold (g_split g)) <=? length (rc_from c) then
        match Regenerate (rc_fuel c) (rc_tags c) (rc_redraws c) (pick [] (g_issued g) (rc_from c)) (rc_num c) with
        | Ret new => (RTags (map tag new), (replace st k {| g_split := g_split g; g_from := g_from g; g_issued := g_issued g ++ new; g_shown := g_shown g |}, pos))
        | Fail e => (RError e, w)
        | Panic p => (RPanic p, w)
        | UB | Diverge => (RHangs, w)
        end
      else (RRefused, w)
    | None => (RRefused, w)
    end
  | QShow k j =>
    match nth_error st k with
    | Some g =>
      match nth_error (g_issued g) j with
      | Some s =>
        if may_show g s
        then (RShare s, (replace st k {| g_split := g_split g; g_from := g_from g; g_issued := g_issued g; g_shown := tag s :: g_shown g |}, pos))
        else (RRefused, w)
      | None => (RRefused, w)
      end
    | None => (RRefused, w)
    end
  end.

(** [n] requests, each chosen from the replies so far (latest first); all splits take their random bytes from one source. *)
Fixpoint playOn (left : bool) (ar : arch) (growcap : nat -> nat -> nat) (att : list reply -> request) (b : nat -> pools) (n : nat)
  (random : nat -> byte) (w : world) (h : list reply) : list reply * world :=
  match n with
  | O => (h, w)
  | S m => let (a, w') := serve left ar growcap (b m) random w (att h) in playOn left ar growcap att b m random w' (a :: h)
  end.

(** the replies to the attacker *)
Definition seen (left : bool) ar growcap att b n (r : list byte) : list reply := fst (playOn left ar growcap att b n (stream_of r) ([], 0) []).

(** the attacker asks for proper splits that take at most [B] random bytes *)
Definition proper_requests (att : list reply -> request) (B : nat) : Prop :=
  forall h, match att h with QSplit p => proper p /\ bytes_of p <= B | _ => True end.
