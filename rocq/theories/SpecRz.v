(** Specification vocabulary for histories of a randomizer.Randomizer. *)
From Coq Require Import List NArith ZArith Lia Arith Bool.
From Coq.Init Require Import Byte.
From Verif Require Import GoSem Bytes Spec Randomizer RandomizerNew.
Import ListNotations.

(** how many bytes of the key stream a call uses up *)
Definition uses (c : rzCall) : nat := match c with CallRead buff => length buff | CallPerm n => b2i n end.

(** where in the key stream call number [k] of a history starts *)
Definition start (r : randomizer) (calls : list rzCall) (k : nat) : nat := rz_pos r + list_sum (map uses (firstn k calls)).
