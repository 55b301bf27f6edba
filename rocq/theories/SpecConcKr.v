(** Specification vocabulary for C79: the attacker of C71, who decides which goroutine draws next from the random source, now also with
    calls of krawczyk.Split. *)
From Coq Require Import List NArith ZArith Lia Arith Bool Permutation.
From Coq.Init Require Import Byte.
From Verif Require Import GoSem Bytes Spec SpecKr Vector Pool Polynomial Shamir SplitP Libs Krawczyk ConcRand SpecConcRand.
Import ListNotations.

(** a request for shares of one of two secrets, made with the shamir functions or with krawczyk.Split ([q_by] is then without meaning) *)
Inductive kr_request : Type := KShamir (q : request) | KKrawczyk (q : request).

(** The secrets are equally long and acceptable, and fewer shares than the threshold are shown unless the two secrets are the same. *)
Definition fair_kr_request (zp : bool) (r : kr_request) : Prop :=
  match r with
  | KShamir q => fair_request q
  | KKrawczyk q =>
      kr_valid_args zp (q_left q) (q_parts q) (q_threshold q) /\ length (q_left q) = length (q_right q) /\
      (coalition (Z.to_nat (q_parts q)) (Z.to_nat (q_threshold q)) (q_show q) \/ q_left q = q_right q)
  end.

(** a bound for the number of bytes that one read of the call takes *)
Definition largest_read (r : kr_request) : nat :=
  match r with
  | KShamir q => Z.to_nat (q_threshold q) * length (q_left q)
  | KKrawczyk q => Z.to_nat (q_threshold q) * 20
  end.

(** The attacker starts a goroutine that serves a request, or lets goroutine number [i] do its next operation on the source. *)
Inductive kr_action : Type := KBegin (r : kr_request) | KAdvance (i : nat).

(** the goroutine serving a request, in the world where the left (or right) secrets are split *)
Definition kr_serve (E : blockCipher) (zp : bool) (ar : arch) (growcap : nat -> nat -> nat) (left : bool) (r : kr_request) : rprog (option (list (list byte))) :=
  match r with
  | KShamir q => serve ar growcap left q
  | KKrawczyk q =>
      rKrSplit E zp ar growcap (if left then q_left q else q_right q) (q_parts q) (q_threshold q)
        (fun o => RDone (Ret (match o with Ret shares => Some (pick [] shares (q_show q)) | _ => None end)))
  end.

(** What it sees is as in C71: the words drawn, the sizes of the reads, the shares it asked for of goroutines that are finished. *)
Definition kr_act (E : blockCipher) (zp : bool) (ar : arch) (growcap : nat -> nat -> nat) (left : bool) (a : kr_action) (w : world) : seen * world :=
  match a with
  | KBegin r => (SBegun, {| w_threads := w_threads w ++ [kr_serve E zp ar growcap left r]; w_words := w_words w; w_tape := w_tape w |})
  | KAdvance i => act ar growcap left (Advance i) w
  end.

(** [n] actions, each chosen depending on everything seen so far (latest first) *)
Fixpoint kr_game (E : blockCipher) (zp : bool) (ar : arch) (growcap : nat -> nat -> nat) (left : bool) (att : list seen -> kr_action) (n : nat) (w : world)
         (h : list seen) : list seen :=
  match n with
  | O => h
  | S m => let (s, w') := kr_act E zp ar growcap left (att h) w in kr_game E zp ar growcap left att m w' (s :: h)
  end.
