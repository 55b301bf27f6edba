(** Model of utils/bufferpool.go and of the use of [bytes.Buffer] made in the repository. *)
From Coq Require Import List NArith ZArith Lia Arith Bool.
From Coq.Init Require Import Byte.
From Verif Require Import GoSem Bytes.
Import ListNotations.

(** A [*bytes.Buffer] is represented by its backing array (all [cap] cells); a new [bytes.Buffer{}] has none. (utils/bufferpool.go:8-38, shamir/shamir.go:71-75) *)
Definition bbuf := list byte.

(** [bb.Reset(); bb.Grow(n)] (standard library bytes/buffer.go): the backing array is kept, with its old
    contents, when its capacity is at least [n]; otherwise a new zeroed array is allocated. How much is allocated
    depends on the Go version: [growcap oldcap n]. (utils/bufferpool.go:8-38, shamir/shamir.go:71-75) *)
Definition resetGrow (growcap : nat -> nat -> nat) (b : bbuf) (n : nat) : bbuf :=
  if n <=? length b then b else zeros (growcap (length b) n).

(** What is assumed of the allocation policy: at least the requested size. (utils/bufferpool.go:8-38, shamir/shamir.go:71-75) *)
Definition grow_ok (growcap : nat -> nat -> nat) : Prop := forall c n, c < n -> n <= growcap c n.

(** [bytes.Buffer.grow] of Go 1.17 (the version of go.mod): 64 bytes for small first allocations, 2*cap+n otherwise. (utils/bufferpool.go:8-38, shamir/shamir.go:71-75) *)
Definition growcap117 (c n : nat) : nat := if (c =? 0) && (n <=? 64) then 64 else 2 * c + n.

(** A pool: the channel contents, oldest first, and the channel capacity.
    utils/bufferpool.go:8-19 [NewBytesBufferPool]: [size <= 0] means NumCPU*1024. *)
Definition poolSize (numCPU size : Z) : Z := if (size <=? 0)%Z then (numCPU * 1024)%Z else size.

(** utils/bufferpool.go:21-28 [Get]: non-blocking receive, or a new buffer. Generic in the type of buffers. *)
Definition poolGet {B : Type} (ch : list B) (fresh : B) : B * list B :=
  match ch with
  | b :: r => (b, r)
  | [] => (fresh, [])
  end.

(** utils/bufferpool.go:30-38 [Put]: non-blocking send; a full pool drops the buffer. *)
Definition poolPut {B : Type} (size : nat) (ch : list B) (b : B) : list B :=
  if length ch <? size then ch ++ [b] else ch.
