(** The matrix form of the Reed-Solomon code, as github.com/klauspost/reedsolomon computes it: matrices over GF(2^8), the Vandermonde
    matrix, products and inverses. Independent of the model of the library in Libs.v. *)
From Coq Require Import List NArith ZArith Lia Arith Bool.
From Coq.Init Require Import Byte.
From Verif Require Import GoSem Bytes Spec.
Import ListNotations.

(** a matrix is the list of its rows; [entry A i j] is the element in row [i], column [j] *)
Definition matrix := list (list byte).
Definition entry (A : matrix) (i j : nat) : byte := nth j (nth i A []) x00.
Definition is_matrix (r c : nat) (A : matrix) : Prop := length A = r /\ forall i, i < r -> length (nth i A []) = c.

(** the matrix with [r] rows and [c] columns whose elements are [f i j] *)
Definition build (r c : nat) (f : nat -> nat -> byte) : matrix := map (fun i => map (f i) (seq 0 c)) (seq 0 r).

(** product of an (r x n) and an (n x c) matrix *)
Definition mat_mul (r n c : nat) (A B : matrix) : matrix :=
  build r c (fun i j => gsum (map (fun k => gmul (entry A i k) (entry B k j)) (seq 0 n))).

Definition identity (n : nat) : matrix := build n n (fun i j => if i =? j then x01 else x00).

(** [B] is the inverse of the (n x n) matrix [A] *)
Definition inverse (n : nat) (A B : matrix) : Prop :=
  is_matrix n n B /\ mat_mul n n n A B = identity n /\ mat_mul n n n B A = identity n.

(** V[r][c] = r^c *)
Definition vandermonde (r c : nat) : matrix := build r c (fun i j => gpow (i2b i) j).

(** the coding matrix for [d] data shards out of [n]: the Vandermonde matrix times the inverse [Ti] of its top square *)
Definition coding_matrix (d n : nat) (Ti : matrix) : matrix := mat_mul n d d (vandermonde n d) Ti.

(** the rows of [A] with the numbers [is] *)
Definition rows_at (A : matrix) (is : list nat) : matrix := map (fun i => nth i A []) is.
