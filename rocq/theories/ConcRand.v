(** Model of the calls of shamir and krawczyk as users of the one random source of the process: the package-level functions of math/rand
    (Go 1.17) lock the source for each word that [rand.Perm] draws and once for a whole [rand.Read], so the draws of concurrent calls
    interleave between any two of these operations. Everything else these calls do concerns memory of their own, or the buffer pools, whose
    contents do not influence the results (ConcAll.v, C70): here only the draws are steps. *)
From Coq Require Import List NArith ZArith Lia Arith Bool.
From Coq.Init Require Import Byte.
From Verif Require Import GoSem Bytes Vector Csprng Pool Polynomial Shamir SplitP Libs Krawczyk MathRand.
Import ListNotations.

(** Code as the sequence of its operations on the random source: [Int63] of the locked source (math/rand/rand.go [lockedSource.Int63]),
    [rand.Read] of [n] bytes ([lockedSource.read]), [rand.Seed]. A program may go on drawing forever. (Go semantics, for shamir/shamir.go:49,
    shamir/polynomial.go:21) *)
CoInductive rprog (A : Type) : Type :=
  | RDone (o : outcome A)
  | RInt63 (k : N -> rprog A)
  | RRead (n : nat) (k : list byte -> rprog A)
  | RSeed (seed : Z) (k : rprog A).
Arguments RDone {A} _.
Arguments RInt63 {A} _.
Arguments RRead {A} _ _.
Arguments RSeed {A} _ _.

(** math/rand/rand.go [Rand.Int31n]: the loop [for v > max { v = r.Int31() }], then [k]. (drawn at shamir/shamir.go:49) *)
CoFixpoint rReject {A} (max : N) (k : N -> rprog A) : rprog A :=
  RInt63 (fun x => if (max <? x / 2 ^ 32)%N then rReject max k else k (x / 2 ^ 32)%N).

(** math/rand/rand.go [Rand.Int31n]. (drawn at shamir/shamir.go:49) *)
Definition rIntn {A} (n : N) (k : N -> rprog A) : rprog A :=
  if (N.land n (n - 1) =? 0)%N then RInt63 (fun x => k (N.land (x / 2 ^ 32) (n - 1))%N)
  else rReject (2 ^ 31 - 1 - 2 ^ 31 mod n)%N (fun v => k (v mod n)%N).

(** [k] with what [o] returns; another outcome goes to [fin]. (Go semantics, for shamir/shamir.go:49-103) *)
Definition rlift {A B C} (o : outcome A) (fin : outcome C -> rprog B) (k : A -> rprog B) : rprog B :=
  match o with Ret a => k a | Fail e => fin (Fail e) | Panic p => fin (Panic p) | UB => fin UB | Diverge => fin Diverge end.

(** math/rand/rand.go [Rand.Perm]: the rest of the loop, for the indices [is]. (called at shamir/shamir.go:49, shamir/shamir.go:257,
    shamir/shamir.go:309) *)
Fixpoint rPermFrom {A} (fin : outcome (list (list byte)) -> rprog A) (is : list nat) (m : list nat) (k : list nat -> rprog A) : rprog A :=
  match is with
  | [] => k m
  | i :: rest =>
    rIntn (N.of_nat (i + 1)) (fun j =>
      rlift (do mj <- idx m (N.to_nat j); do m <- upd m i mj; upd m (N.to_nat j) i) fin (fun m => rPermFrom fin rest m k))
  end.
(** [rand.Perm(n)]. (called at shamir/shamir.go:49) *)
Definition rPerm {A} fin (n : nat) (k : list nat -> rprog A) : rprog A := rPermFrom fin (seq 0 n) (repeat 0 n) k.

(** the bytes a [rand.Read] delivered, as the stream the functions of Shamir.v read. (Go semantics, for shamir/polynomial.go:21) *)
Definition got (bytes : list byte) : nat -> byte := fun i => nth i bytes x00.

(** no buffer from the pools: their contents do not matter (C44). (shamir/shamir.go:71-94) *)
Definition noBufs : nat -> bbuf := fun _ => [].

(** shamir/shamir.go:30-104 [Split]; [fin] is what happens with the outcome *)
Definition rSplit {A} (ar : arch) (growcap : nat -> nat -> nat) (secret : list byte) (parts threshold : Z)
           (fin : outcome (list (list byte)) -> rprog A) : rprog A :=
  match checkArgs secret parts threshold with
  | Some e => fin (Fail e)
  | None =>
    rPerm fin 255 (fun perm =>
    RRead (Z.to_nat threshold * length secret) (fun bytes =>
    fin (Split ar growcap perm (got bytes) [] [] noBufs secret parts threshold)))
  end.

(** shamir/shamir.go:238-288 [SplitGeneric] *)
Definition rSplitGeneric {A} (secret : list byte) (parts threshold : Z) (fin : outcome (list (list byte)) -> rprog A) : rprog A :=
  match checkArgs secret parts threshold with
  | Some e => fin (Fail e)
  | None =>
    rPerm fin 255 (fun perm =>
    RRead ((Z.to_nat threshold - 1) * length secret) (fun bytes =>
    fin (SplitGeneric perm (got bytes) secret parts threshold)))
  end.

(** [n] times [rand.Read] of [d] bytes. (shamir/polynomial.go:208, called at shamir/shamir.go:340) *)
Fixpoint rReads {A} (n d : nat) (bytes : list byte) (k : list byte -> rprog A) : rprog A :=
  match n with O => k bytes | S m => RRead d (fun l => rReads m d (bytes ++ l) k) end.

(** shamir/shamir.go:290-364 [SplitP], for the schedule [sched] of its goroutines (SplitP.v). Each goroutine draws [threshold-1] bytes for each
    secret byte it works on; the draws are done here in the order in which they occur in [sched]. Simplification: secrets of up to 2^32 - 1024
    bytes. A [sched] that does not bring the call to its end counts as an endless call. *)
Definition rSplitP {A} (sched : list nat) (secret : list byte) (parts threshold : Z) (fin : outcome (list (list byte)) -> rprog A) : rprog A :=
  match checkArgs secret parts threshold with
  | Some e => fin (Fail e)
  | None =>
    rPerm fin 255 (fun perm =>
    rReads (length secret) (Z.to_nat threshold - 1) [] (fun bytes =>
    fin (match SplitPRun perm (got bytes) secret parts threshold sched with Some o => o | None => Diverge end)))
  end.

(** krawczyk/krawczyk.go:21-89 [Split], as [krSplitWith] of Krawczyk.v: the checks, the key, and the call of shamir.Split *)
Definition rKrSplit {A} (E : blockCipher) (zp : bool) (ar : arch) (growcap : nat -> nat -> nat) (secret : list byte) (parts threshold : Z)
           (fin : outcome (list (list byte)) -> rprog A) : rprog A :=
  match krCheck (length secret) parts threshold with
  | Some e => fin (Fail e)
  | None =>
    RRead LenKey (fun key =>
    rlift (encrypt E secret key) fin (fun encryptedSecret =>
    match rsNew zp threshold (parts - threshold) with
    | Some e => fin (Fail e)
    | None =>
      let d := Z.to_nat threshold in
      let total := Z.to_nat parts in
      rlift (do encodedSecret <- rsSplit d total encryptedSecret;
             do encodedSecret <- rsEncode d total encodedSecret;
             foreach (seq 0 (length encodedSecret))
               (fun i enc => do s <- idx enc i; upd enc i (s ++ [i2b i])) encodedSecret) fin (fun encodedSecret =>
      let lenSecret := (N.of_nat (length encryptedSecret) mod 4294967296)%N in
      rSplit ar growcap (key ++ leBytes LenLen lenSecret) parts threshold (fun o =>
      rlift o fin (fun ssKeyLenPair => fin (krAssemble total ssKeyLenPair encodedSecret))))
    end))
  end.

(** shamir/shamir.go:465-469: while [nx] is taken, [byte(rand.Uint32())]; math/rand/rand.go [Rand.Uint32] is [Int63() >> 31] *)
CoFixpoint rRedraw {A} (nx : byte) (checkMap : list byte) (k : byte -> rprog A) : rprog A :=
  if mem nx checkMap then RInt63 (fun x => rRedraw (n2b (x / 2 ^ 31)) checkMap k) else k nx.
(** shamir/shamir.go:463-471 *)
Fixpoint rDedup {A} (checkMap newXs : list byte) (k : rprog A) : rprog A :=
  match newXs with
  | [] => k
  | nx :: rest => rRedraw nx checkMap (fun nx => rDedup (nx :: checkMap) rest k)
  end.
(** shamir/shamir.go:424-488 [Regenerate] *)
Definition rRegenerate {A} (parts : list (list byte)) (numNewShares : Z) (fin : outcome (list (list byte)) -> rprog A) : rprog A :=
  match checkParts parts with
  | Some e => fin (Fail e)
  | None =>
    let firstPartLen := length (nth 0 parts []) in
    rlift (make_len numNewShares) fin (fun num =>
    rlift (collectTags firstPartLen [] parts) fin (fun x_samples =>
    RRead num (fun newXs =>
    rDedup x_samples newXs (
    fin (foreach (seq 0 num)
      (fun k newShares =>
         do nx <- idx newXs k;
         do sh <- upd (zeros firstPartLen) (firstPartLen - 1) nx;
         do sh <- interpolateAll (firstPartLen - 1) parts x_samples nx sh;
         upd newShares k sh) (repeat [] num))))))
  end.

(** csprng/csprng.go:18-23 [NewCSPRNG], worker/worker.go:18-22 [NewWorker]: the 32 bytes of key and IV *)
Definition rNewCSPRNG {A} (fin : outcome (list (list byte)) -> rprog A) : rprog A := RRead 32 (fun keyIv => fin (Ret [keyIv])).

(** the calls that use the source: shamir/shamir.go:30, shamir/shamir.go:238, shamir/shamir.go:290, shamir/shamir.go:424,
    krawczyk/krawczyk.go:21, csprng/csprng.go:18 *)
Inductive rcall : Type :=
  | XSplit (secret : list byte) (parts threshold : Z)
  | XSplitGeneric (secret : list byte) (parts threshold : Z)
  | XSplitP (sched : list nat) (secret : list byte) (parts threshold : Z)
  | XKrSplit (secret : list byte) (parts threshold : Z)
  | XRegenerate (shares : list (list byte)) (numNewShares : Z)
  | XNewCSPRNG.

(** architecture, buffer growth, block cipher, Reed-Solomon with zero parity shards. (galois/vector_amd64.go:10-20, krawczyk/aes.go:10-26) *)
Record setup : Type := { e_arch : arch; e_grow : nat -> nat -> nat; e_cipher : blockCipher; e_zp : bool }.

(** the code of each call: shamir/shamir.go:30-488, krawczyk/krawczyk.go:21-89, csprng/csprng.go:18-23 *)
Definition rCall {A} (b : setup) (c : rcall) (fin : outcome (list (list byte)) -> rprog A) : rprog A :=
  match c with
  | XSplit secret parts threshold => rSplit (e_arch b) (e_grow b) secret parts threshold fin
  | XSplitGeneric secret parts threshold => rSplitGeneric secret parts threshold fin
  | XSplitP sched secret parts threshold => rSplitP sched secret parts threshold fin
  | XKrSplit secret parts threshold => rKrSplit (e_cipher b) (e_zp b) (e_arch b) (e_grow b) secret parts threshold fin
  | XRegenerate shares num => rRegenerate shares num fin
  | XNewCSPRNG => rNewCSPRNG fin
  end.

(** what callers have got so far, latest last. (shamir/shamir.go:30) *)
Definition outcomes : Type := list (outcome (list (list byte))).

(** A goroutine that makes at most [n] calls, each of which may depend on what the earlier ones returned. A panic or an endless loop ends it.
    (a client of shamir/shamir.go:30-488, krawczyk/krawczyk.go:21-89) *)
Fixpoint rClient (b : setup) (n : nat) (next : outcomes -> option rcall) (results : outcomes) : rprog outcomes :=
  match n with
  | O => RDone (Ret results)
  | S m =>
    match next results with
    | None => RDone (Ret results)
    | Some c => rCall b c (fun o =>
        match o with
        | Ret _ | Fail _ => rClient b m next (results ++ [o])
        | _ => RDone (Ret (results ++ [o]))
        end)
    end
  end.

(** ** The machine: the source of math/rand and the goroutines *)

(** The process: (math/rand, as used at shamir/shamir.go:49 and csprng/csprng.go:15) *)
Record rstate (A : Type) : Type := { z_rng : rng; z_threads : list (rprog A) }.
Arguments z_rng {A} _.
Arguments z_threads {A} _.

(** One operation of a goroutine, under the lock of the source; [cooked] is the table of math/rand/rng.go that seeding uses.
    (math/rand/rand.go [lockedSource], as used at shamir/shamir.go:49 and shamir/polynomial.go:21) *)
Definition rop {A} (cooked : list N) (p : rprog A) (r : rng) : option (rprog A * rng) :=
  match p with
  | RDone _ => None
  | RInt63 k => let (x, r') := rngInt63 r in Some (k x, r')
  | RRead n k => let (l, r') := rngRead n r in Some (k l, r')
  | RSeed seed k => Some (k, rngSeed cooked seed)
  end.

(** Any goroutine that is not finished may do its next operation. (Go semantics, for shamir/shamir.go:30-488) *)
Inductive rrun {A} (cooked : list N) : rstate A -> list nat -> rstate A -> Prop :=
  | rr_nil s : rrun cooked s [] s
  | rr_step r ts i p p' r' sched s' : nth_error ts i = Some p -> rop cooked p r = Some (p', r') ->
      rrun cooked {| z_rng := r'; z_threads := firstn i ts ++ p' :: skipn (S i) ts |} sched s' ->
      rrun cooked {| z_rng := r; z_threads := ts |} (i :: sched) s'.
