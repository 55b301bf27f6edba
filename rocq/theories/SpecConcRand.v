(** Specification vocabulary for concurrent use of the random source (C71). *)
From Coq Require Import List NArith ZArith Lia Arith Bool Permutation.
From Coq.Init Require Import Byte.
From Verif Require Import GoSem Bytes Spec SpecKr Vector Csprng Pool Polynomial Shamir SplitP Libs Krawczyk MathRand ConcRand.
Import ListNotations.

(** [o] is an outcome that the call [c] has when it is alone, for some permutation of 0..254 and some random bytes. *)
Definition ordinary (b : setup) (c : rcall) (o : outcome (list (list byte))) : Prop :=
  match c with
  | XSplit secret parts threshold => exists perm stream, Permutation perm (seq 0 255) /\
      o = Split (e_arch b) (e_grow b) perm stream [] [] (fun _ => []) secret parts threshold
  | XSplitGeneric secret parts threshold => exists perm stream, Permutation perm (seq 0 255) /\
      o = SplitGeneric perm stream secret parts threshold
  | XSplitP sched secret parts threshold =>
      match checkArgs secret parts threshold with
      | Some e => o = Fail e
      | None => exists perm stream, Permutation perm (seq 0 255) /\
          match SplitPRun perm stream secret parts threshold sched with Some o' => o = o' | None => o = Diverge end
      end
  | XKrSplit secret parts threshold => exists krand perm stream, Permutation perm (seq 0 255) /\
      o = krSplit (e_cipher b) (e_zp b) (e_arch b) (e_grow b) krand perm stream [] [] (fun _ => []) secret parts threshold
  | XRegenerate shares num => exists fuel stream u, o = Regenerate fuel stream u shares num /\ o <> Diverge
  | XNewCSPRNG => exists keyIv, o = Ret [keyIv] /\ length keyIv = 32
  end.

(** The calls of a client that got the outcomes [results], each with its outcome; [done] are those before. *)
Fixpoint calls_of (next : outcomes -> option rcall) (done results : outcomes) : option (list (rcall * outcome (list (list byte)))) :=
  match results with
  | [] => Some []
  | o :: r => match next done with
    | None => None
    | Some c => match calls_of next (done ++ [o]) r with Some l => Some ((c, o) :: l) | None => None end
    end
  end.

(** The client made all its [n] calls, or had no further call to make, or the last call neither returned nor failed. *)
Definition client_complete (n : nat) (next : outcomes -> option rcall) (results : outcomes) : Prop :=
  length results = n \/ next results = None \/
  exists r o, results = r ++ [o] /\ (forall v, o <> Ret v) /\ (forall e, o <> Fail e).

(** ** An attacker that controls the interleaving *)

(** which function is called; SplitP with the schedule of its goroutines *)
Inductive splitter : Type := BySplit | ByGeneric | ByP (sched : list nat).

(** A request: split one of these two secrets, show the shares with these indices. *)
Record request : Type :=
  { q_by : splitter; q_left : list byte; q_right : list byte; q_parts : Z; q_threshold : Z; q_show : list nat }.

(** A fair request: the secrets are equally long, and fewer shares than the threshold are shown unless the two secrets are the same. *)
Definition fair_request (q : request) : Prop :=
  valid_args (q_left q) (q_parts q) (q_threshold q) /\ length (q_left q) = length (q_right q) /\
  (coalition (Z.to_nat (q_parts q)) (Z.to_nat (q_threshold q)) (q_show q) \/ q_left q = q_right q) /\
  (N.of_nat (length (q_left q)) <= 4294967296 - 1024)%N.

(** What the attacker does next: start a goroutine that serves a request, or let goroutine number [i] do its next operation on the source. *)
Inductive action : Type := Begin (q : request) | Advance (i : nat).

(** What it then sees: the word that was drawn (so all permutations are public), or that [n] bytes were read, or the shares it asked for. *)
Inductive seen : Type := SBegun | SWord (x : N) | SRead (n : nat) | SShares (v : option (list (list byte))) | SNothing.

(** the goroutine serving a request, in the world where the left (or right) secrets are split *)
Definition serve (ar : arch) (growcap : nat -> nat -> nat) (left : bool) (q : request) : rprog (option (list (list byte))) :=
  let secret := if left then q_left q else q_right q in
  let show := fun o => RDone (Ret (match o with Ret shares => Some (pick [] shares (q_show q)) | _ => None end)) in
  match q_by q with
  | BySplit => rSplit ar growcap secret (q_parts q) (q_threshold q) show
  | ByGeneric => rSplitGeneric secret (q_parts q) (q_threshold q) show
  | ByP sched => rSplitP sched secret (q_parts q) (q_threshold q) show
  end.

(** An ideal source: the words are given (and public), the bytes come from a tape. *)
Record world : Type := { w_threads : list (rprog (option (list (list byte)))); w_words : nat -> N; w_tape : list byte }.

Definition setThread (w : world) (i : nat) (p : rprog (option (list (list byte)))) : list (rprog (option (list (list byte)))) :=
  firstn i (w_threads w) ++ p :: skipn (S i) (w_threads w).

Definition act (ar : arch) (growcap : nat -> nat -> nat) (left : bool) (a : action) (w : world) : seen * world :=
  match a with
  | Begin q => (SBegun, {| w_threads := w_threads w ++ [serve ar growcap left q]; w_words := w_words w; w_tape := w_tape w |})
  | Advance i =>
    match nth_error (w_threads w) i with
    | None => (SNothing, w)
    | Some (RDone (Ret v)) => (SShares v, w)
    | Some (RDone _) => (SNothing, w)
    | Some (RInt63 k) =>
        (SWord (w_words w 0), {| w_threads := setThread w i (k (w_words w 0)); w_words := (fun j => w_words w (S j)); w_tape := w_tape w |})
    | Some (RRead n k) =>
        (SRead n, {| w_threads := setThread w i (k (firstn n (w_tape w))); w_words := w_words w; w_tape := skipn n (w_tape w) |})
    | Some (RSeed _ k) => (SNothing, {| w_threads := setThread w i k; w_words := w_words w; w_tape := w_tape w |})
    end
  end.

(** [n] actions, each chosen depending on everything seen so far (latest first) *)
Fixpoint game (ar : arch) (growcap : nat -> nat -> nat) (left : bool) (att : list seen -> action) (n : nat) (w : world) (h : list seen) : list seen :=
  match n with
  | O => h
  | S m => let (s, w') := act ar growcap left (att h) w in game ar growcap left att m w' (s :: h)
  end.

(** nothing started yet *)
Definition fresh_world (words : nat -> N) (tape : list byte) : world := {| w_threads := []; w_words := words; w_tape := tape |}.
