(** Specification vocabulary for C84: exact numbers of good and bad random strings. *)
From Coq Require Import List NArith ZArith Bool.
From Coq.Init Require Import Byte.
From Verif Require Import GoSem Bytes Spec.
Import ListNotations.
Local Open Scope N_scope.

(** How a call of a split function ended. *)
Definition returns (o : outcome (list (list byte))) : bool := match o with Ret _ => true | _ => false end.
Definition panics (o : outcome (list (list byte))) : bool := match o with Panic _ => true | _ => false end.
Definition hangs (o : outcome (list (list byte))) : bool := match o with Diverge => true | _ => false end.
(** It returned shares, and none of them has tag 0 (a share with tag 0 holds the secret itself). *)
Definition no_zero_tag (o : outcome (list (list byte))) : bool :=
  match o with Ret shares => if in_dec byte_eq_dec x00 (map tag shares) then false else true | _ => false end.
(** It returned shares, and one of them has tag 0. *)
Definition zero_tag (o : outcome (list (list byte))) : bool :=
  match o with Ret shares => if in_dec byte_eq_dec x00 (map tag shares) then true else false | _ => false end.

(** No two are equal. *)
Fixpoint distinct (l : list byte) : bool := match l with [] => true | x :: l => if in_dec byte_eq_dec x l then false else distinct l end.
(** Regenerate returned shares that can be handed out next to [parts]: no two new tags are equal, and no new tag is 0 or the tag of
    one of the [parts]. *)
Definition fresh_shares (parts : list (list byte)) (o : outcome (list (list byte))) : bool :=
  match o with
  | Ret new => distinct (map tag new) &&
               forallb (fun s => if in_dec byte_eq_dec (tag s) (x00 :: map tag parts) then false else true) new
  | _ => false
  end.
(** How many byte values are 0 or the tag of one of the [parts]. *)
Definition taken_tags (parts : list (list byte)) : N := N.of_nat (length (nodup byte_eq_dec (x00 :: map tag parts))).

(** a (a-1) (a-2) ...: [k] factors. *)
Fixpoint falling (a : N) (k : nat) : N := match k with O => 1 | S k => a * falling (a - 1) k end.

(** In how many ways [m] more bytes can be drawn. The byte values are in pairs; of a pair, none, one or both values are taken. [fresh] byte
    values belong to pairs of which none is taken: drawing one of them takes it. [half] belong to pairs of which one is taken: drawing any of the
    two takes the other. Drawing a value whose pair is fully taken is not possible. [spare] more values can be drawn once each. *)
Fixpoint ways (m : nat) (fresh half spare : N) : N :=
  match m with
  | O => 1
  | S m => fresh * ways m (fresh - 2) (half + 2) spare + half * ways m fresh (half - 2) spare + spare * ways m fresh half (spare - 1)
  end.

(** The first key stream byte is 0: the others must be different; or it is one of the 255 others. *)
Definition returning_keys (n : nat) : N := falling 255 (n - 1) + 255 * ways (n - 1) 254 2 0.
(** The same, where the byte 255 (tag 0) may not be taken: it is neither the first byte, nor drawn, nor taken for its partner. *)
Definition usable_keys (n : nat) : N := falling 254 (n - 1) + 254 * ways (n - 1) 252 2 1.
