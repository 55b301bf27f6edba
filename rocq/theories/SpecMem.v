(** Specification vocabulary for the properties about memory shared between slices. [h] is the memory before the call, [h'] after it. *)
From Coq Require Import List NArith ZArith Lia Arith Bool.
From Coq.Init Require Import Byte.
From Verif Require Import GoSem Memory.
Import ListNotations.

(** The slices show the shares and nothing that existed before was changed. *)
Definition returned (h h' : heap) (slices : list gslice) (shares : list (list byte)) : Prop :=
  map (contents h') slices = shares /\ firstn (length h) h' = h.

(** Appending [v] to share [i] overwrites the first byte of share [i+1] with [v], and changes no other share; appending to the
    last share changes no share; storing a byte into a share changes no other share. *)
Definition append_clobbers (h h' : heap) (slices : list gslice) (shares : list (list byte)) : Prop :=
  returned h h' slices shares /\
  (forall i extra v, S i < length slices ->
    let (h'', longer) := append1 extra h' (nth i slices nilSlice) v in
    contents h'' longer = nth i shares [] ++ [v] /\
    contents h'' (nth (S i) slices nilSlice) = v :: skipn 1 (nth (S i) shares []) /\
    forall j, j < length slices -> j <> S i -> contents h'' (nth j slices nilSlice) = nth j shares []) /\
  (forall i extra v, S i = length slices ->
    let (h'', longer) := append1 extra h' (nth i slices nilSlice) v in
    contents h'' longer = nth i shares [] ++ [v] /\
    forall j, j < length slices -> contents h'' (nth j slices nilSlice) = nth j shares []) /\
  (forall i k v h'', i < length slices -> store h' (nth i slices nilSlice) k v = Ret h'' ->
    forall j, j < length slices -> j <> i -> contents h'' (nth j slices nilSlice) = nth j shares []).

(** Whatever is done with one of the slices (any sequence of stores and appends), the others keep their contents. *)
Definition independent (h h' : heap) (slices : list gslice) (shares : list (list byte)) : Prop :=
  returned h h' slices shares /\
  forall i j ops, i < length slices -> j < length slices -> i <> j ->
    contents (fst (use h' (nth i slices nilSlice) ops)) (nth j slices nilSlice) = nth j shares [].

(** A slice that Go can produce: its array exists, and length and capacity lie inside it. *)
Definition wf (h : heap) (s : gslice) : Prop :=
  sl_arr s < length h /\ sl_len s <= sl_cap s /\ sl_off s + sl_cap s <= length (nth (sl_arr s) h []).

(** The number whose 8-bit digits, most significant first, are the bytes: an AES-CTR counter. *)
Fixpoint big_endian (bytes : list byte) : N :=
  match bytes with
  | [] => 0
  | b :: rest => Byte.to_N b * 256 ^ N.of_nat (length rest) + big_endian rest
  end%N.
