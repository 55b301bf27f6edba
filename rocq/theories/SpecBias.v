(** Specification vocabulary for C90: how far CSPRNG.Perm is from a uniform shuffle. *)
From Coq Require Import List NArith ZArith Arith Bool.
From Coq.Init Require Import Byte.
From Verif Require Import GoSem Bytes Spec.
Import ListNotations.

(** How many of the 256 byte values leave the remainder [r] when divided by [n]. *)
Definition remainders (n r : nat) : nat := count (fun b => b2i b mod n =? r) all_bytes.

(** The call returned a list with the element [v] at its start; at its end. *)
Definition starts_with (v : nat) (o : outcome (list byte)) : bool := match o with Ret p => b2i (nth 0 p x00) =? v | _ => false end.
Definition ends_with (v : nat) (o : outcome (list byte)) : bool := match o with Ret p => b2i (last p x00) =? v | _ => false end.
Definition perm_panics (o : outcome (list byte)) : bool := match o with Panic _ => true | _ => false end.

(** The call returned shares and share number [i] (from 0) has tag [v]. *)
Definition share_tag (i v : nat) (o : outcome (list (list byte))) : bool :=
  match o with Ret shares => b2i (tag (nth i shares [])) =? v | _ => false end.
