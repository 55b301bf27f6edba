(** Model of worker/worker.go, and of sequences of calls that share the buffer pool of shamir/shamir.go. *)
From Coq Require Import List NArith ZArith Lia Arith Bool String.
From Coq.Init Require Import Byte.
From Verif Require Import GoSem Bytes Spec SpecKr Vector Csprng Pool Shamir Libs Krawczyk.
Import ListNotations.

(** worker/worker.go:10-11 *)
Definition AlgShamir : string := "shamir".
(** worker/worker.go:11 *)
Definition AlgSSMS : string := "krawczyk".

(** csprng/csprng.go:18-23 [NewCSPRNG] and worker/worker.go:18-22 [NewWorker]: [mr] is what [rand.Read(keyIv)] delivers; the
    result is the key stream of the generator. *)
Definition NewCSPRNG (E : blockCipher) (mr : nat -> byte) : nat -> byte :=
  let keyIv := take_stream mr 32 in ctrStream E (firstn 16 keyIv) (skipn 16 keyIv).
(** [NewWorker] worker/worker.go:18-22 *)
Definition NewWorker (E : blockCipher) (mr : nat -> byte) : nat -> byte := NewCSPRNG E mr.

(** worker/worker.go:24-32 [Worker.Split]; the worker is represented by the key stream of its generator *)
Definition WorkerSplit (fuel : nat) (E : blockCipher) (zp : bool) (ar : arch) (growcap : nat -> nat -> nat) (w : nat -> byte)
           (polB trB : bbuf) (evBufs : nat -> bbuf) (algorithm : string) (input : list byte) (n k : Z)
  : outcome (list (list byte)) :=
  if negb (algorithm =? AlgShamir)%string && negb (algorithm =? AlgSSMS)%string then Fail EInvalidAlgorithm
  else if (algorithm =? AlgShamir)%string then SplitWithRandomizer fuel ar growcap w polB trB evBufs input n k
  else krSplitWithRandomizer fuel E zp ar growcap w polB trB evBufs input n k.

(** worker/worker.go:34-42 [Worker.Combine]; to shamir.Combine a nil share is an empty one *)
Definition WorkerCombine (E : blockCipher) (zp : bool) (rd : nat -> nat) (algorithm : string)
           (secretSharedData : list (option (list byte))) (n k : Z) : outcome (list byte) :=
  if negb (algorithm =? AlgShamir)%string && negb (algorithm =? AlgSSMS)%string then Fail EInvalidAlgorithm
  else if (algorithm =? AlgShamir)%string
  then Combine (map (fun s => match s with Some s => s | None => [] end) secretSharedData)
  else krCombine E zp rd secretSharedData n k.

(** ** Calls that share the pool [bPool] of shamir/shamir.go:19-23.
    [Split] (lines 71-72, 88-89) and [SplitWithRandomizer] (lines 203-204, 220-221) get a buffer for the polynomials and one for
    their transpose, and put both back on return, last deferred first. Argument errors, panics and endless loops occur before
    the first [Get] (lines 31-46, 163-181), so they leave the pool alone. *)
Inductive call : Type :=
  | CallSplit (perm : list nat) (stream : nat -> byte) (evBufs : nat -> bbuf) (secret : list byte) (parts threshold : Z)
  | CallSplitWithRandomizer (fuel : nat) (ks : nat -> byte) (evBufs : nat -> bbuf) (secret : list byte) (parts threshold : Z).

(** Gets at shamir/shamir.go:71 and 88, deferred Puts (72, 89) in reverse order; also after a panic or an error (Go's defer) *)
Definition withPool (size : nat) (pool : list bbuf) (body : bbuf -> bbuf -> outcome (list (list byte) * bbuf * bbuf))
  : outcome (list (list byte)) * list bbuf :=
  let (polB, p1) := poolGet pool [] in
  let (trB, p2) := poolGet p1 [] in
  match body polB trB with
  | Ret (out, polB', trB') => (Ret out, poolPut size (poolPut size p2 trB') polB')
  | Fail e => (Fail e, pool)
  | Panic p => (Panic p, pool)
  | UB => (UB, pool)
  | Diverge => (Diverge, pool)
  end.

(** a call with the pool it finds: shamir/shamir.go:30-104, shamir/shamir.go:162-236 *)
Definition runCall (ar : arch) (growcap : nat -> nat -> nat) (size : nat) (pool : list bbuf) (c : call)
  : outcome (list (list byte)) * list bbuf :=
  match c with
  | CallSplit perm stream evBufs secret parts threshold =>
      withPool size pool (fun polB trB => SplitBufs ar growcap perm stream polB trB evBufs secret parts threshold)
  | CallSplitWithRandomizer fuel ks evBufs secret parts threshold =>
      withPool size pool (fun polB trB => SplitWithRandomizerBufs fuel ar growcap ks polB trB evBufs secret parts threshold)
  end.

(** the pool after a sequence of calls, starting with the empty pool of [init] (shamir/shamir.go:21-23) *)
Definition poolAfter (ar : arch) (growcap : nat -> nat -> nat) (size : nat) (calls : list call) : list bbuf :=
  fold_left (fun pool c => snd (runCall ar growcap size pool c)) calls [].
