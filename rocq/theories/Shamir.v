(** Model of shamir/shamir.go, except SplitP (see SplitP.v).
    [parts], [threshold], [numNewShares] are Go ints, represented by [Z]. Randomness is passed in:
    [perm] is the result of [rand.Perm(255)], [stream] is what [rand.Read] delivers, [ks] is the key stream of
    a [*csprng.CSPRNG]. Pool buffers are passed in with the contents they happen to have.
    Simplification: slice lengths are unbounded naturals (no overflow of [(len(secret)+1)*parts]; see IntWidth.v and C68). *)
From Coq Require Import List NArith ZArith Lia Arith Bool.
From Coq.Init Require Import Byte.
From Verif Require Import GoSem Bytes Galois Vector Csprng Pool Polynomial.
Import ListNotations.

(** The sanity checks, identical in shamir/shamir.go:31-46, 108-123, 163-178, 239-254, 291-306. *)
Definition checkArgs (secret : list byte) (parts threshold : Z) : option err :=
  if (parts <? threshold)%Z then Some EPartsLtThreshold
  else if (255 <? parts)%Z then Some EPartsTooMany
  else if (threshold <? 2)%Z then Some EThresholdSmall
  else if (255 <? threshold)%Z then Some EThresholdBig
  else if length secret =? 0 then Some EEmptySecret
  else None.

(** [uint8(xCoordinates[i]) + 1]; [xs] holds the coordinates already converted to uint8. (shamir/shamir.go:64) *)
Definition tagOf (xs : list byte) (i : nat) : outcome byte :=
  do x <- idx xs i; Ret (badd x x01).

(** shamir/shamir.go:58-65, 135-142, 190-197: allocate one array for all shares and set the tag bytes.
    The result is the array; share [i] is its window [(N+1)*i : (N+1)*i+N+1]. *)
Definition layoutFlat (N parts : nat) (xs : list byte) : outcome (list byte) :=
  foreach (seq 0 parts)
    (fun i buff =>
       let s := (N + 1) * i in
       do w <- slice buff s (s + N + 1);
       do t <- tagOf xs i;
       do w' <- upd w N t;
       Ret (splice buff s w')) (zeros ((N + 1) * parts)).

(** shamir/shamir.go:266-270, 314-318: one separate slice per share, with the tag byte set. *)
Definition layoutRows (N parts : nat) (xs : list byte) : outcome (list (list byte)) :=
  foreach (seq 0 parts)
    (fun i out =>
       do t <- tagOf xs i;
       do w <- upd (zeros (N + 1)) N t;
       upd out i w) (repeat [] parts).

(** the windows of the common array, as the returned [][]byte. (shamir/shamir.go:58-65) *)
Definition windows (N parts : nat) (buff : list byte) : outcome (list (list byte)) :=
  foreach (seq 0 parts)
    (fun i out =>
       let s := (N + 1) * i in
       do w <- slice buff s (s + N + 1);
       Ret (out ++ [w])) [].

(** shamir/shamir.go:97-100, 229-232: evaluate all polynomials at each tag, writing to [out[i][0:N]].
    [evBufs i] is the buffer that the i-th evaluation gets from its pool. *)
Definition evalLoop (ar : arch) (growcap : nat -> nat -> nat) (evBufs : nat -> bbuf) (coefficientBuff : list byte)
           (N parts : nat) (xs : list byte) (buff : list byte) : outcome (list byte) :=
  foreach (seq 0 parts)
    (fun i buff =>
       let s := (N + 1) * i in
       do w <- slice buff s (s + N + 1);
       do x <- tagOf xs i;
       do o <- slice w 0 N;
       do o' <- evaluatePolynomialsAtWithCoefficientsBuffer ar growcap (evBufs i) coefficientBuff N x o;
       Ret (splice buff s (splice w 0 o'))) buff.

(** shamir/shamir.go:30-104 [Split]. Returns the shares and the two bPool buffers as they are put back
    (polynomial buffer, transpose buffer). *)
Definition SplitBufs (ar : arch) (growcap : nat -> nat -> nat) (perm : list nat) (stream : nat -> byte)
           (polB trB : bbuf) (evBufs : nat -> bbuf)
           (secret : list byte) (parts threshold : Z) : outcome (list (list byte) * bbuf * bbuf) :=
  match checkArgs secret parts threshold with
  | Some e => Fail e
  | None =>
    let xs := map i2b perm in
    let N := length secret in
    let n := Z.to_nat parts in
    do buff <- layoutFlat N n xs;
    let degree := Z.to_nat (threshold - 1) in
    let polB := resetGrow growcap polB ((degree + 1) * N) in
    do polBuff <- slice polB 0 ((degree + 1) * N);
    do polynomials <- makePolynomialsWithBuff secret degree polBuff stream;
    let polB := splice polB 0 polynomials in
    let trB := resetGrow growcap trB (length polynomials) in
    do coefficientBuff <- slice trB 0 (length polynomials);
    do coefficientBuff <- transposeMatrixBuffer coefficientBuff polynomials (degree + 1);
    let trB := splice trB 0 coefficientBuff in
    do buff <- evalLoop ar growcap evBufs coefficientBuff N n xs buff;
    do out <- windows N n buff;
    Ret (out, polB, trB)
  end.

(** shamir/shamir.go:30-104 [Split]: the returned value *)
Definition Split ar growcap perm stream polB trB evBufs secret parts threshold : outcome (list (list byte)) :=
  do '(out, _, _) <- SplitBufs ar growcap perm stream polB trB evBufs secret parts threshold; Ret out.

(** shamir/shamir.go:107-160 [SplitWithRandomizerOld] *)
Definition SplitWithRandomizerOld (ar : arch) (growcap : nat -> nat -> nat) (ks : nat -> byte)
           (evBufs : nat -> bbuf) (secret : list byte) (parts threshold : Z) : outcome (list (list byte)) :=
  match checkArgs secret parts threshold with
  | Some e => Fail e
  | None =>
    do xs <- Perm ks xff;
    let N := length secret in
    let n := Z.to_nat parts in
    do buff <- layoutFlat N n xs;
    do polynomials <- makePolynomialsWithRandomizer secret (Z.to_nat (threshold - 1)) ks;
    do coefficients <- transpose polynomials;
    do buff <- foreach (seq 0 n)
      (fun i buff =>
         let s := (N + 1) * i in
         do w <- slice buff s (s + N + 1);
         do x <- tagOf xs i;
         do w' <- evaluatePolynomialsAt ar growcap (evBufs i) coefficients x w;
         Ret (splice buff s w')) buff;
    windows N n buff
  end.

(** shamir/shamir.go:162-236 [SplitWithRandomizer], with the pool buffers as in [SplitBufs].
    [fuel] bounds the loop of [GetUniqueBytes]. *)
Definition SplitWithRandomizerBufs (fuel : nat) (ar : arch) (growcap : nat -> nat -> nat) (ks : nat -> byte)
           (polB trB : bbuf) (evBufs : nat -> bbuf)
           (secret : list byte) (parts threshold : Z) : outcome (list (list byte) * bbuf * bbuf) :=
  match checkArgs secret parts threshold with
  | Some e => Fail e
  | None =>
    do xs <- GetUniqueBytes fuel ks (z2b parts);
    let N := length secret in
    let n := Z.to_nat parts in
    do buff <- layoutFlat N n xs;
    let degree := Z.to_nat (threshold - 1) in
    let polB := resetGrow growcap polB ((degree + 1) * N) in
    do polBuff <- slice polB 0 ((degree + 1) * N);
    do polynomials <- makePolynomialsWithBuffAndRandomizer secret degree polBuff ks;
    let polB := splice polB 0 polynomials in
    let trB := resetGrow growcap trB (length polynomials) in
    do coefficientBuff <- slice trB 0 (length polynomials);
    do coefficientBuff <- transposeMatrixBuffer coefficientBuff polynomials (degree + 1);
    let trB := splice trB 0 coefficientBuff in
    do buff <- evalLoop ar growcap evBufs coefficientBuff N n xs buff;
    do out <- windows N n buff;
    Ret (out, polB, trB)
  end.

(** shamir/shamir.go:162-236: the result only (the buffers as in [SplitWithRandomizerBufs]) *)
Definition SplitWithRandomizer fuel ar growcap ks polB trB evBufs secret parts threshold : outcome (list (list byte)) :=
  do '(out, _, _) <- SplitWithRandomizerBufs fuel ar growcap ks polB trB evBufs secret parts threshold; Ret out.

(** shamir/shamir.go:238-288 [SplitGeneric] *)
Definition SplitGeneric (perm : list nat) (stream : nat -> byte) (secret : list byte) (parts threshold : Z)
  : outcome (list (list byte)) :=
  match checkArgs secret parts threshold with
  | Some e => Fail e
  | None =>
    let xs := map i2b perm in
    let N := length secret in
    let n := Z.to_nat parts in
    do out <- layoutRows N n xs;
    do polynomials <- makePolynomials secret (Z.to_nat (threshold - 1)) stream;
    do coefficients <- transpose polynomials;
    foreach (seq 0 n)
      (fun i out =>
         do x <- tagOf xs i;
         do w <- idx out i;
         do w' <- genericEvaluatePolynomialsAt coefficients x w;
         upd out i w') out
  end.

(** shamir/shamir.go:369-384 and 425-440: the checks common to [Combine] and [Regenerate]. *)
Definition checkParts (parts : list (list byte)) : option err :=
  if length parts <? 2 then Some ETooFewParts
  else
    let firstPartLen := length (nth 0 parts []) in
    if firstPartLen <? 2 then Some EPartsTooShort
    else if forallb (fun p => length p =? firstPartLen) (skipn 1 parts) then None
    else Some EPartsLength.

(** shamir/shamir.go:394-402: collect the tags, refusing duplicates. Returns x_samples. *)
Fixpoint collectTags (firstPartLen : nat) (checkMap : list byte) (parts : list (list byte)) : outcome (list byte) :=
  match parts with
  | [] => Ret []
  | part :: rest =>
    do samp <- idx part (firstPartLen - 1);
    if mem samp checkMap then Fail EDuplicatePart
    else do r <- collectTags firstPartLen (samp :: checkMap) rest; Ret (samp :: r)
  end.

(** the loops [for i, part := range parts { y_samples[i] = part[idx] }] (shamir/shamir.go:407-409, 480-482) *)
Fixpoint column (j : nat) (parts : list (list byte)) : outcome (list byte) :=
  match parts with
  | [] => Ret []
  | part :: rest => do y <- idx part j; do r <- column j rest; Ret (y :: r)
  end.

(** interpolate bytes 0..n-1 at [x] (shamir/shamir.go:405-416 with x = 0, and 479-484) *)
Definition interpolateAll (n : nat) (parts : list (list byte)) (x_samples : list byte) (x : byte) (out : list byte)
  : outcome (list byte) :=
  foreach (seq 0 n)
    (fun j out =>
       do ys <- column j parts;
       do v <- interpolatePolynomial x_samples ys x;
       upd out j v) out.

(** shamir/shamir.go:368-418 [Combine] *)
Definition Combine (parts : list (list byte)) : outcome (list byte) :=
  match checkParts parts with
  | Some e => Fail e
  | None =>
    let firstPartLen := length (nth 0 parts []) in
    do x_samples <- collectTags firstPartLen [] parts;
    interpolateAll (firstPartLen - 1) parts x_samples x00 (zeros (firstPartLen - 1))
  end.

(** shamir/shamir.go:465-469: the inner loop: while [nx] is taken, draw another byte.
    [u k] is the k-th value of [byte(rand.Uint32())]. *)
Fixpoint redraw (fuel : nat) (u : nat -> byte) (k : nat) (nx : byte) (checkMap : list byte) : outcome (byte * nat) :=
  if mem nx checkMap then
    match fuel with
    | O => Diverge
    | S f => redraw f u (S k) (u k) checkMap
    end
  else Ret (nx, k).

(** shamir/shamir.go:463-471: the duplicate check over [newXs]. It assigns to the loop variable only;
    [newXs] itself is not changed, so only termination matters. *)
Definition dedupLoop (fuel : nat) (u : nat -> byte) (checkMap newXs : list byte) : outcome (list byte * nat) :=
  foreach newXs
    (fun nx '(checkMap, k) =>
       do '(nx', k') <- redraw fuel u k nx checkMap;
       Ret (nx' :: checkMap, k')) (checkMap, 0).

(** shamir/shamir.go:424-488 [Regenerate]. *)
Definition Regenerate (fuel : nat) (stream u : nat -> byte) (parts : list (list byte)) (numNewShares : Z)
  : outcome (list (list byte)) :=
  match checkParts parts with
  | Some e => Fail e
  | None =>
    let firstPartLen := length (nth 0 parts []) in
    do num <- make_len numNewShares;
    do x_samples <- collectTags firstPartLen [] parts;
    let newXs := take_stream stream num in
    do _ <- dedupLoop fuel u x_samples newXs;
    foreach (seq 0 num)
      (fun k newShares =>
         do nx <- idx newXs k;
         do sh <- upd (zeros firstPartLen) (firstPartLen - 1) nx;
         do sh <- interpolateAll (firstPartLen - 1) parts x_samples nx sh;
         upd newShares k sh) (repeat [] num)
  end.
