(** Slices as references into memory: what the caller can do with the slices returned by the split functions, and with the slice
    given to NewCSPRNGWithKeyIV. The contents of the returned slices come from the models in Shamir.v, SplitP.v and Krawczyk.v;
    this file adds how they lie in memory. *)
From Coq Require Import List NArith ZArith Lia Arith Bool.
From Coq.Init Require Import Byte.
From Verif Require Import GoSem Bytes Vector Csprng Pool Shamir SplitP Libs Krawczyk.
Import ListNotations.

(** The heap: the allocated arrays; an array is known by its number. (Go semantics, for shamir/shamir.go:58-65 and krawczyk/krawczyk.go:163-172) *)
Definition heap := list (list byte).

(** A Go slice: array, offset, length, capacity. (Go semantics, for shamir/shamir.go:58-65 and krawczyk/krawczyk.go:163-172) *)
Record gslice : Type := { sl_arr : nat; sl_off : nat; sl_len : nat; sl_cap : nat }.

(** the nil slice (Go semantics, used for shamir/shamir.go:33) *)
Definition nilSlice : gslice := {| sl_arr := 0; sl_off := 0; sl_len := 0; sl_cap := 0 |}.

(** the bytes of a slice. (Go semantics, for shamir/shamir.go:58-65 and krawczyk/krawczyk.go:163-172) *)
Definition contents (h : heap) (s : gslice) : list byte := firstn (sl_len s) (skipn (sl_off s) (nth (sl_arr s) h [])).

(** allocate an array; the slice covers all of it (Go [make]). (Go semantics, for shamir/shamir.go:58-65 and krawczyk/krawczyk.go:163-172) *)
Definition alloc (h : heap) (data : list byte) : heap * gslice :=
  (h ++ [data], {| sl_arr := length h; sl_off := 0; sl_len := length data; sl_cap := length data |}).

(** Go semantics, for shamir/shamir.go:58-65 and krawczyk/krawczyk.go:163-172 *)
Definition set {A : Type} (l : list A) (i : nat) (v : A) : list A := firstn i l ++ v :: skipn (S i) l.

(** store to byte [k] of array [a]. (Go semantics, for shamir/shamir.go:58-65 and krawczyk/krawczyk.go:163-172) *)
Definition poke (h : heap) (a k : nat) (v : byte) : heap := set h a (set (nth a h []) k v).

(** [s[i] = v]. (Go semantics, for shamir/shamir.go:58-65 and krawczyk/krawczyk.go:163-172) *)
Definition store (h : heap) (s : gslice) (i : nat) (v : byte) : outcome heap :=
  if i <? sl_len s then Ret (poke h (sl_arr s) (sl_off s + i) v) else Panic PIndex.

(** [append(s, v)]: in place when there is spare capacity, otherwise a copy ([extra] further bytes of capacity). (Go semantics, for shamir/shamir.go:58-65 and krawczyk/krawczyk.go:163-172) *)
Definition append1 (extra : nat) (h : heap) (s : gslice) (v : byte) : heap * gslice :=
  if sl_len s <? sl_cap s
  then (poke h (sl_arr s) (sl_off s + sl_len s) v,
        {| sl_arr := sl_arr s; sl_off := sl_off s; sl_len := S (sl_len s); sl_cap := sl_cap s |})
  else (h ++ [contents h s ++ v :: zeros extra],
        {| sl_arr := length h; sl_off := 0; sl_len := S (sl_len s); sl_cap := S (sl_len s) + extra |}).

(** [s[i:j]]: the bounds are checked against the capacity. (Go semantics, for shamir/shamir.go:58-65 and krawczyk/krawczyk.go:163-172) *)
Definition reslice (s : gslice) (i j : nat) : outcome gslice :=
  if (i <=? j) && (j <=? sl_cap s)
  then Ret {| sl_arr := sl_arr s; sl_off := sl_off s + i; sl_len := j - i; sl_cap := sl_cap s - i |} else Panic PSlice.

(** [s[i:j:k]]. (Go semantics, for shamir/shamir.go:58-65 and krawczyk/krawczyk.go:163-172) *)
Definition reslice3 (s : gslice) (i j k : nat) : outcome gslice :=
  if (i <=? j) && (j <=? k) && (k <=? sl_cap s)
  then Ret {| sl_arr := sl_arr s; sl_off := sl_off s + i; sl_len := j - i; sl_cap := k - i |} else Panic PSlice.

(** shamir/shamir.go:58-65, 135-142, 190-197: [buff := make([]byte, (len(secret)+1)*parts)]; share idx is [buff[s:e]].
    The array is shown with its final contents. *)
Definition flatMem (h : heap) (N : nat) (shares : list (list byte)) : outcome (heap * list gslice) :=
  let (h1, buff) := alloc h (concat shares) in
  do out <- foreach (seq 0 (length shares))
    (fun idx out =>
       let s := (N + 1) * idx in
       let e := s + N + 1 in
       do w <- reslice buff s e;
       Ret (out ++ [w])) [];
  Ret (h1, out).

(** shamir/shamir.go:266-270, 314-318: [out[idx] = make([]byte, len(secret)+1)] *)
Definition rowsMem (h : heap) (shares : list (list byte)) : outcome (heap * list gslice) :=
  foreach shares (fun share '(h, out) => let (h1, s) := alloc h share in Ret (h1, out ++ [s])) (h, []).

(** krawczyk/krawczyk.go:163-173 [newByteMatrix]: rows [a[lo:hi:hi]] of one array, with final contents *)
Definition matrixMem (h : heap) (c : nat) (shares : list (list byte)) : outcome (heap * list gslice) :=
  let (h1, a) := alloc h (concat shares) in
  do '(_, _, out) <- foreach (seq 0 (length shares))
    (fun _ '(lo, hi, out) =>
       do w <- reslice3 a lo hi hi;
       Ret (hi, hi + c, out ++ [w])) (0, c, []);
  Ret (h1, out).

(** The split functions, returning slices in memory. (shamir/shamir.go:30-104) *)
Definition SplitMem ar growcap perm stream polB trB evBufs (h : heap) secret parts threshold : outcome (heap * list gslice) :=
  do shares <- Split ar growcap perm stream polB trB evBufs secret parts threshold; flatMem h (length secret) shares.
(** shamir/shamir.go:162-236 *)
Definition SplitWithRandomizerMem fuel ar growcap ks polB trB evBufs (h : heap) secret parts threshold : outcome (heap * list gslice) :=
  do shares <- SplitWithRandomizer fuel ar growcap ks polB trB evBufs secret parts threshold; flatMem h (length secret) shares.
(** shamir/shamir.go:107-160 *)
Definition SplitWithRandomizerOldMem ar growcap ks evBufs (h : heap) secret parts threshold : outcome (heap * list gslice) :=
  do shares <- SplitWithRandomizerOld ar growcap ks evBufs secret parts threshold; flatMem h (length secret) shares.
(** shamir/shamir.go:238-288 *)
Definition SplitGenericMem perm stream (h : heap) secret parts threshold : outcome (heap * list gslice) :=
  do shares <- SplitGeneric perm stream secret parts threshold; rowsMem h shares.
(** shamir/shamir.go:290-364 *)
Inductive SplitPMem perm stream (h : heap) secret parts threshold : list nat -> outcome (heap * list gslice) -> Prop :=
| SPM sched o : SplitP perm stream secret parts threshold sched o ->
    SplitPMem perm stream h secret parts threshold sched (do shares <- o; rowsMem h shares).
(** krawczyk/krawczyk.go:21-89 *)
Definition krSplitMem E zp ar growcap krand perm stream polB trB evBufs (h : heap) secret parts threshold : outcome (heap * list gslice) :=
  do shares <- krSplit E zp ar growcap krand perm stream polB trB evBufs secret parts threshold;
  matrixMem h (length (nth 0 shares [])) shares.
(** krawczyk/krawczyk.go:92-161 *)
Definition krSplitWithRandomizerMem fuel E zp ar growcap ks polB trB evBufs (h : heap) secret parts threshold : outcome (heap * list gslice) :=
  do shares <- krSplitWithRandomizer fuel E zp ar growcap ks polB trB evBufs secret parts threshold;
  matrixMem h (length (nth 0 shares [])) shares.

(** What a caller may do with one slice: stores within its length, and appends. A store out of range has no effect
    (the program panics). (the caller's code, on the slices returned at shamir/shamir.go:103) *)
Inductive useOp : Type := UStore (i : nat) (v : byte) | UAppend (extra : nat) (v : byte).
(** one such use of a slice returned at shamir/shamir.go:103 *)
Definition useStep (hs : heap * gslice) (o : useOp) : heap * gslice :=
  let (h, s) := hs in
  match o with
  | UStore i v => match store h s i v with Ret h' => (h', s) | _ => (h, s) end
  | UAppend extra v => append1 extra h s v
  end.
(** several such uses, shamir/shamir.go:103 *)
Definition use (h : heap) (s : gslice) (ops : list useOp) : heap * gslice := fold_left useStep ops (h, s).

(** ** csprng: csprng/csprng.go:9-12, 25-33. The AES key schedule is a private copy of the key; the IV is a slice. *)
Record csprngMem : Type := { c_key : list byte; c_iv : gslice }.

(** csprng/csprng.go:25-28 *)
Definition NewCSPRNGWithKeyIV (h : heap) (keyIv : gslice) : outcome csprngMem :=
  do k <- reslice keyIv 0 16;
  do iv <- reslice keyIv 16 (sl_len keyIv);
  Ret {| c_key := contents h k; c_iv := iv |}.

(** csprng/csprng.go:30-33 [Read], for a buffer that does not overlap the IV: the new contents of the buffer. The library
    panics unless the IV has 16 bytes. *)
Definition csprngRead (E : blockCipher) (h : heap) (r : csprngMem) (buff : list byte) : outcome (list byte) :=
  if sl_len (c_iv r) =? 16
  then Ret (Read (ctrStream E (c_key r) (contents h (c_iv r))) buff)
  else Panic PLength.
