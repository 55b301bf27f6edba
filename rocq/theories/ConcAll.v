(** Concurrent use of the whole library: the goroutines of Concurrency.v, now calling any of shamir.Split, SplitWithRandomizer,
    SplitWithRandomizerOld, SplitGeneric, Combine, Regenerate and krawczyk.Split, SplitWithRandomizer, Combine. Only the pool buffers are
    shared between calls; what a call allocates is its own (simplification: the slices passed as arguments are not shared either). SplitP,
    which starts goroutines of its own, is in SplitP.v. *)
From Coq Require Import List NArith ZArith Lia Arith Bool.
From Coq.Init Require Import Byte.
From Verif Require Import GoSem Bytes Galois Vector Csprng Pool Polynomial Shamir Libs Krawczyk Concurrency.
Import ListNotations.

(** shamir/polynomial.go:137-153 [evaluatePolynomialsAt], as Polynomial.v, with the result buffer taken from the shared pool. As in
    [evaluateP] of Concurrency.v, the portable vector functions work in place and the others return newly allocated slices. *)
Definition evaluateAtP (ar : arch) (growcap : nat -> nat -> nat) (coefficients : list (list byte)) (x : byte) (out : list byte) : prog (list byte) :=
  pdo c0 <- PDone (idx coefficients 0);
  let N := length c0 in
  let degree := length coefficients - 1 in
  PGet polynomialBufferPool (fun rb =>
  pdo _ <- resetGrowP growcap rb N;
  pdo _ <- bytesP rb N;
  pdo top <- PDone (idx coefficients degree);
  pdo _ <- storeN rb 0 (firstn N top);
  pdo loc <- pforeach (rev (seq 0 degree))
    (fun i loc =>
       pdo ci <- PDone (idx coefficients i);
       pdo result <- (match loc with Some r => pret r | None => loadN rb 0 N end);
       pdo m <- PDone (MulConstVector ar x result);
       pdo r <- PDone (AddVector ar ci m);
       match ar with
       | ArchGeneric => pdo _ <- storeN rb 0 m; pdo _ <- storeN rb 0 r; pret None
       | _ => pret (Some r)
       end) None;
  pdo result <- (match loc with Some r => pret r | None => loadN rb 0 N end);
  pdo w <- PDone (slice out 0 N);
  PPut polynomialBufferPool rb
  (pret (splice out 0 (gocopy w result)))).

(** shamir/shamir.go:107-160 [SplitWithRandomizerOld] *)
Definition SplitWithRandomizerOldProg (ar : arch) (growcap : nat -> nat -> nat) (ks : nat -> byte)
           (secret : list byte) (parts threshold : Z) : prog (list (list byte)) :=
  match checkArgs secret parts threshold with
  | Some e => PDone (Fail e)
  | None =>
    pdo xs <- PDone (Perm ks xff);
    let N := length secret in
    let n := Z.to_nat parts in
    pdo buff <- PDone (layoutFlat N n xs);
    pdo polynomials <- PDone (makePolynomialsWithRandomizer secret (Z.to_nat (threshold - 1)) ks);
    pdo coefficients <- PDone (transpose polynomials);
    pdo buff <- pforeach (seq 0 n)
      (fun i buff =>
         let s := (N + 1) * i in
         pdo w <- PDone (slice buff s (s + N + 1));
         pdo x <- PDone (tagOf xs i);
         pdo w' <- evaluateAtP ar growcap coefficients x w;
         pret (splice buff s w')) buff;
    PDone (windows N n buff)
  end.

(** krawczyk/krawczyk.go:22-88 and 93-160, as Krawczyk.v [krSplitWith]: everything local but the call of the shamir package *)
Definition krSplitWithProg (E : blockCipher) (zp : bool) (key : list byte)
           (share : list byte -> Z -> Z -> prog (list (list byte)))
           (secret : list byte) (parts threshold : Z) : prog (list (list byte)) :=
  match krCheck (length secret) parts threshold with
  | Some e => PDone (Fail e)
  | None =>
    pdo encryptedSecret <- PDone (encrypt E secret key);
    match rsNew zp threshold (parts - threshold) with
    | Some e => PDone (Fail e)
    | None =>
      let d := Z.to_nat threshold in
      let total := Z.to_nat parts in
      pdo encodedSecret <- PDone (rsSplit d total encryptedSecret);
      pdo encodedSecret <- PDone (rsEncode d total encodedSecret);
      pdo encodedSecret <- PDone (foreach (seq 0 (length encodedSecret))
        (fun i enc => do s <- idx enc i; upd enc i (s ++ [i2b i])) encodedSecret);
      let lenSecret := (N.of_nat (length encryptedSecret) mod 4294967296)%N in
      let keyLenPair := key ++ leBytes LenLen lenSecret in
      pdo ssKeyLenPair <- share keyLenPair parts threshold;
      PDone (krAssemble total ssKeyLenPair encodedSecret)
    end
  end.

(** a call of the library with its arguments and the random bytes it draws. (shamir/shamir.go:30-470, krawczyk/krawczyk.go:21-256) *)
Inductive apicall : Type :=
  | ASplit (perm : list nat) (stream : nat -> byte) (secret : list byte) (parts threshold : Z)
  | ASplitWithRandomizer (fuel : nat) (ks : nat -> byte) (secret : list byte) (parts threshold : Z)
  | ASplitWithRandomizerOld (ks : nat -> byte) (secret : list byte) (parts threshold : Z)
  | ASplitGeneric (perm : list nat) (stream : nat -> byte) (secret : list byte) (parts threshold : Z)
  | ACombine (shares : list (list byte))
  | ARegenerate (fuel : nat) (stream u : nat -> byte) (shares : list (list byte)) (numNewShares : Z)
  | AKrSplit (krand : nat -> byte) (perm : list nat) (stream : nat -> byte) (secret : list byte) (parts threshold : Z)
  | AKrSplitWithRandomizer (fuel : nat) (ks : nat -> byte) (secret : list byte) (parts threshold : Z)
  | AKrCombine (shares : list kshare) (parts threshold : Z).

(** what a call returns besides errors. (shamir/shamir.go:30-470, krawczyk/krawczyk.go:21-256) *)
Inductive result : Type := RShares (shares : list (list byte)) | RSecret (secret : list byte).

(** apply [f] to the value returned. (Go semantics, for krawczyk/krawczyk.go:74) *)
Definition omap {A B : Type} (f : A -> B) (o : outcome A) : outcome B := do a <- o; Ret (f a).
(** the same for code, for krawczyk/krawczyk.go:74 *)
Definition pmap {A B : Type} (f : A -> B) (p : prog A) : prog B := pdo a <- p; pret (f a).

(** The build and the libraries: architecture, buffer growth, block cipher, Reed-Solomon with zero parity shards, chunks of the OFB reader. (galois/vector_amd64.go:10-20, krawczyk/aes.go:10-44) *)
Record build : Type := { b_arch : arch; b_grow : nat -> nat -> nat; b_cipher : blockCipher; b_zp : bool; b_rd : nat -> nat }.

(** shamir/shamir.go, krawczyk/krawczyk.go: the code of each call (functions as cited at the definitions used). (shamir/shamir.go:30-470, krawczyk/krawczyk.go:21-256) *)
Definition apiProg (b : build) (c : apicall) : prog result :=
  match c with
  | ASplit perm stream secret parts threshold => pmap RShares (SplitProg (b_arch b) (b_grow b) perm stream secret parts threshold)
  | ASplitWithRandomizer fuel ks secret parts threshold => pmap RShares (SplitWithRandomizerProg fuel (b_arch b) (b_grow b) ks secret parts threshold)
  | ASplitWithRandomizerOld ks secret parts threshold => pmap RShares (SplitWithRandomizerOldProg (b_arch b) (b_grow b) ks secret parts threshold)
  | ASplitGeneric perm stream secret parts threshold => PDone (omap RShares (SplitGeneric perm stream secret parts threshold))
  | ACombine shares => PDone (omap RSecret (Combine shares))
  | ARegenerate fuel stream u shares n => PDone (omap RShares (Regenerate fuel stream u shares n))
  | AKrSplit krand perm stream secret parts threshold =>
      pmap RShares (krSplitWithProg (b_cipher b) (b_zp b) (take_stream krand LenKey) (SplitProg (b_arch b) (b_grow b) perm stream) secret parts threshold)
  | AKrSplitWithRandomizer fuel ks secret parts threshold =>
      pmap RShares (krSplitWithProg (b_cipher b) (b_zp b) (Read ks (zeros LenKey)) (SplitWithRandomizerProg fuel (b_arch b) (b_grow b) ks) secret parts threshold)
  | AKrCombine shares parts threshold => PDone (omap RSecret (krCombineCap (b_cipher b) (b_zp b) (b_rd b) shares parts threshold))
  end.

(** A goroutine that makes one call after the other; a later call may depend on what the earlier ones returned ([next] gets the outcomes so
    far, [None] ends the goroutine). At most [n] calls. A panic or an endless loop ends it. (shamir/shamir.go:30-470, krawczyk/krawczyk.go:21-256) *)
Fixpoint client (b : build) (n : nat) (next : list (outcome result) -> option apicall) (results : list (outcome result))
  : prog (list (outcome result)) :=
  match n with
  | O => pret results
  | S k => match next results with
    | None => pret results
    | Some c => pseq (apiProg b c) (fun o =>
        match o with
        | Ret _ | Fail _ => client b k next (results ++ [o])
        | _ => PDone (pfail o)
        end)
    end
  end.
