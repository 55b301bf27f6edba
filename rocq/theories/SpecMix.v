(** Specification vocabulary for C85: combining genuine shares with other parts. *)
From Coq Require Import List NArith ZArith Lia Arith Bool.
From Coq.Init Require Import Byte.
From Verif Require Import GoSem Bytes Spec.
Import ListNotations.

(** A successful split [o] shows the shares numbered [js] as [w], and combining (with the function [combine_parts]) the parts [forged]
    together with the split's shares numbered [hs] gives [v]. *)
Definition mixed_gives (combine_parts : list (list byte) -> outcome (list byte)) (js : list nat) (w forged : list (list byte)) (hs : list nat) (v : list byte)
    (o : outcome (list (list byte))) : bool :=
  match o with
  | Ret shares => shares_eqb (pick [] shares js) w &&
                  match combine_parts (forged ++ pick [] shares hs) with Ret r => shares_eqb [r] [v] | _ => false end
  | _ => false
  end.

(** the tag of the share number [i] of a split whose coordinate permutation is [perm] *)
Definition tag_of_share (perm : list nat) (i : nat) : byte := i2b (nth i perm 0 + 1).

(** Other parts that may be mixed with the shares numbered [hs] of a split of an [N]-byte secret: parts of the shares' length whose tags are
    not zero and differ from each other and from those of the shares, at least two parts in total. *)
Definition mixable (N : nat) (perm : list nat) (forged : list (list byte)) (hs : list nat) : Prop :=
  (forall p, In p forged -> length p = N + 1) /\ ~ In x00 (map tag forged) /\
  NoDup (map tag forged ++ map (tag_of_share perm) hs) /\ 2 <= length forged + length hs.
