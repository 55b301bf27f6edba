(** The split functions of shamir/shamir.go again, with Go's [int] as it is: a [W]-bit two's complement number whose sums
    and products wrap around silently ([W] is 32 or 64), and with an allocator that refuses more than [maxAlloc] bytes.
    Shamir.v and Polynomial.v compute the same sizes and indices with unbounded numbers. Loop counters that run over the
    elements of an existing slice cannot wrap and stay natural numbers. *)
From Coq Require Import List NArith ZArith Lia Arith Bool.
From Coq.Init Require Import Byte.
From Verif Require Import GoSem Bytes Galois Vector Csprng Pool Polynomial Shamir SpecWidth.
Import ListNotations.

Section Width.
  Variables (W maxAlloc : Z).

  (** the value of an [int] expression whose mathematical value is [z] (Go specification, "Integer overflow") *)
  Definition int (z : Z) : Z := ((z + 2 ^ (W - 1)) mod 2 ^ W - 2 ^ (W - 1))%Z.

  Definition len {A : Type} (l : list A) : Z := Z.of_nat (length l).

  (** [l[i]], [l[i] = v] and [l[s:e]] with [int] indices *)
  Definition zidx {A : Type} (l : list A) (i : Z) : outcome A :=
    if (i <? 0)%Z then Panic PIndex else idx l (Z.to_nat i).
  Definition zupd {A : Type} (l : list A) (i : Z) (v : A) : outcome (list A) :=
    if (i <? 0)%Z then Panic PIndex else upd l (Z.to_nat i) v.
  Definition zslice {A : Type} (l : list A) (s e : Z) : outcome (list A) :=
    if ((s <? 0) || (e <? 0))%Z then Panic PSlice else slice l (Z.to_nat s) (Z.to_nat e).

  (** [make([]byte, n)]: panics on a negative length and on one that cannot be allocated *)
  Definition zmake (n : Z) : outcome (list byte) :=
    if ((n <? 0) || (maxAlloc <? n))%Z then Panic PMakeLen else Ret (zeros (Z.to_nat n)).

  (** [bb.Reset(); bb.Grow(n)]: [Grow] panics on a negative count, and with [bytes.ErrTooLarge] when the new capacity is
      not an [int] or cannot be allocated (all written [PMakeLen]). *)
  Definition resetGrowW (growcap : nat -> nat -> nat) (b : bbuf) (n : Z) : outcome bbuf :=
    if (n <? 0)%Z then Panic PMakeLen
    else if (Z.to_nat n <=? length b) then Ret b
    else let c := growcap (length b) (Z.to_nat n) in
      if ((maxInt W <? Z.of_nat c) || (maxAlloc <? Z.of_nat c))%Z then Panic PMakeLen else Ret (zeros c).

  (** shamir/shamir.go:57-65, 134-142, 189-197 *)
  Definition layoutFlatW (N parts : Z) (xs : list byte) : outcome (list byte) :=
    do buff <- zmake (int (int (N + 1) * parts));
    foreach (seq 0 (Z.to_nat parts))
      (fun i buff =>
         let s := int (int (N + 1) * Z.of_nat i) in
         let e := int (int (s + N) + 1) in
         do w <- zslice buff s e;
         do t <- tagOf xs i;
         do w' <- zupd w N t;
         Ret (splice buff (Z.to_nat s) w')) buff.

  (** shamir/shamir.go:266-270 *)
  Definition layoutRowsW (N : Z) (parts : nat) (xs : list byte) : outcome (list (list byte)) :=
    foreach (seq 0 parts)
      (fun i out =>
         do t <- tagOf xs i;
         do z <- zmake (int (N + 1));
         do w <- zupd z N t;
         upd out i w) (repeat [] parts).

  (** the returned slices, i.e. the windows that were stored in [out[idx]] (shamir/shamir.go:59-62) *)
  Definition windowsW (N : Z) (parts : nat) (buff : list byte) : outcome (list (list byte)) :=
    foreach (seq 0 parts)
      (fun i out =>
         let s := int (int (N + 1) * Z.of_nat i) in
         do w <- zslice buff s (int (int (s + N) + 1));
         Ret (out ++ [w])) [].

  (** shamir/polynomial.go:23-31, 45-53 *)
  Definition setInterceptsW (intercepts : list byte) (degree : Z) (buffer : list byte) : outcome (list byte) :=
    foreach (seq 0 (length intercepts))
      (fun p buffer =>
         let s := int (int (degree + 1) * Z.of_nat p) in
         let e := int (int (s + degree) + 1) in
         do polynomialP <- zslice buffer s e;
         do ip <- idx intercepts p;
         do polynomialP' <- upd polynomialP 0 ip;
         Ret (splice buffer (Z.to_nat s) polynomialP')) buffer.

  (** shamir/polynomial.go:110-122 *)
  Definition transposeMatrixBufferW (dest source : list byte) (rowLen : Z) : outcome (list byte) :=
    if (rowLen =? 0)%Z then Panic PDivZero else
    let colLen := int (Z.quot (len source) rowLen) in
    do '(dest, _, _) <- foreach (seq 0 (length source))
      (fun i '(dest, curSourceRow, curSourceCol) =>
         do v <- zidx source (int (int (rowLen * curSourceRow) + curSourceCol));
         do dest <- upd dest i v;
         let curSourceRow := int (curSourceRow + 1) in
         if (curSourceRow =? colLen)%Z then Ret (dest, 0%Z, int (curSourceCol + 1))
         else Ret (dest, curSourceRow, curSourceCol)) (dest, 0%Z, 0%Z);
    Ret dest.

  (** the values of [i] in [for i := degree - 1; i >= 0; i--] *)
  Definition downFrom (degree : Z) : list Z := map Z.of_nat (rev (seq 0 (Z.to_nat degree))).

  (** shamir/polynomial.go:155-174 *)
  Definition evaluateBufferW (ar : arch) (growcap : nat -> nat -> nat) (bb : bbuf)
             (coefficientsBuff : list byte) (rowLen : Z) (x : byte) (out : list byte) : outcome (list byte) :=
    if (rowLen =? 0)%Z then Panic PDivZero else
    let degree := int (int (Z.quot (len coefficientsBuff) rowLen) - 1) in
    do resultBuff <- resetGrowW growcap bb rowLen;
    do result <- zslice resultBuff 0 rowLen;
    let s := int (degree * rowLen) in
    do top <- zslice coefficientsBuff s (int (s + rowLen));
    let result := gocopy result top in
    do result <- foreach (downFrom degree)
      (fun i result =>
         let s := int (i * rowLen) in
         do ci <- zslice coefficientsBuff s (int (s + rowLen));
         do m <- MulConstVector ar x result;
         AddVector ar ci m) result;
    do w <- zslice out 0 rowLen;
    Ret (splice out 0 (gocopy w result)).

  (** shamir/shamir.go:97-100, 229-232 *)
  Definition evalLoopW (ar : arch) (growcap : nat -> nat -> nat) (evBufs : nat -> bbuf) (coefficientBuff : list byte)
             (N : Z) (parts : nat) (xs : list byte) (buff : list byte) : outcome (list byte) :=
    foreach (seq 0 parts)
      (fun i buff =>
         let s := int (int (N + 1) * Z.of_nat i) in
         do w <- zslice buff s (int (int (s + N) + 1));
         do x <- tagOf xs i;
         do o <- zslice w 0 N;
         do o' <- evaluateBufferW ar growcap (evBufs i) coefficientBuff N x o;
         Ret (splice buff (Z.to_nat s) (splice w 0 o'))) buff.

  (** shamir/shamir.go:67-103 and 199-235: after the coordinates [xs] are chosen; [fill] is the call that fills the
      coefficient buffer with random bytes ([rand.Read] or [randomizer.Read]). *)
  Definition splitBodyW (ar : arch) (growcap : nat -> nat -> nat) (fill : list byte -> list byte) (xs : list byte)
             (polB trB : bbuf) (evBufs : nat -> bbuf) (secret : list byte) (parts threshold : Z)
    : outcome (list (list byte)) :=
    let N := len secret in
    do buff <- layoutFlatW N parts xs;
    let degree := int (threshold - 1) in
    let size := int (int (degree + 1) * N) in
    do polB <- resetGrowW growcap polB size;
    do polBuff <- zslice polB 0 size;
    do polynomials <- setInterceptsW secret degree (fill polBuff);
    do trB <- resetGrowW growcap trB (len polynomials);
    do coefficientBuff <- zslice trB 0 (len polynomials);
    do coefficientBuff <- transposeMatrixBufferW coefficientBuff polynomials (int (degree + 1));
    do buff <- evalLoopW ar growcap evBufs coefficientBuff N (Z.to_nat parts) xs buff;
    windowsW N (Z.to_nat parts) buff.

  (** shamir/shamir.go:30-104 [Split] *)
  Definition SplitW (ar : arch) (growcap : nat -> nat -> nat) (perm : list nat) (stream : nat -> byte)
             (polB trB : bbuf) (evBufs : nat -> bbuf) (secret : list byte) (parts threshold : Z)
    : outcome (list (list byte)) :=
    match checkArgs secret parts threshold with
    | Some e => Fail e
    | None =>
      splitBodyW ar growcap (fun b => take_stream stream (length b)) (map i2b perm) polB trB evBufs secret parts threshold
    end.

  (** shamir/shamir.go:162-236 [SplitWithRandomizer] *)
  Definition SplitWithRandomizerW (fuel : nat) (ar : arch) (growcap : nat -> nat -> nat) (ks : nat -> byte)
             (polB trB : bbuf) (evBufs : nat -> bbuf) (secret : list byte) (parts threshold : Z)
    : outcome (list (list byte)) :=
    match checkArgs secret parts threshold with
    | Some e => Fail e
    | None =>
      do xs <- GetUniqueBytes fuel ks (z2b parts);
      splitBodyW ar growcap (Read ks) xs polB trB evBufs secret parts threshold
    end.

  (** shamir/polynomial.go:124-133 [newMatrix]: the rows are windows of one array [a], of full capacity [hi - lo] *)
  Definition newMatrixW (r c : Z) : outcome (list (list byte)) :=
    do a <- zmake (int (r * c));
    do '(m, _, _) <- foreach (seq 0 (Z.to_nat r))
      (fun _ '(m, lo, hi) =>
         do row <- zslice a lo hi;
         Ret (m ++ [row], hi, int (hi + c))) ([], 0%Z, c);
    Ret m.

  (** shamir/polynomial.go:57-75 [makePolynomials] *)
  Definition makePolynomialsW (intercepts : list byte) (degree : Z) (stream : nat -> byte) : outcome (list (list byte)) :=
    let N := len intercepts in
    do polynomials <- newMatrixW N (int (degree + 1));
    do coefficients <- zmake (int (degree * N));
    let coefficients := take_stream stream (length coefficients) in
    do '(polynomials, _) <- foreach (seq 0 (length intercepts))
      (fun p '(polynomials, startIdx) =>
         do ip <- idx intercepts p;
         do polynomials <- upd2 polynomials p 0 ip;
         do r <- idx polynomials p;
         do dst <- slice r 1 (length r);
         do src <- zslice coefficients startIdx (int (startIdx + degree));
         do polynomials <- upd polynomials p (splice r 1 (gocopy dst src));
         Ret (polynomials, int (startIdx + degree))) (polynomials, 0%Z);
    Ret polynomials.

  (** shamir/polynomial.go:77-96 [makePolynomialsWithRandomizer] *)
  Definition makePolynomialsWithRandomizerW (intercepts : list byte) (degree : Z) (ks : nat -> byte)
    : outcome (list (list byte)) :=
    let N := len intercepts in
    do coefficients <- zmake (int (int (degree + 1) * N));
    do coefficients <- setInterceptsW intercepts degree (Read ks coefficients);
    foreach (seq 0 (length intercepts))
      (fun p polynomials =>
         let s := int (int (degree + 1) * Z.of_nat p) in
         do r <- zslice coefficients s (int (int (s + degree) + 1));
         Ret (polynomials ++ [r])) [].

  (** shamir/polynomial.go:98-108 [transpose] *)
  Definition transposeW (m : list (list byte)) : outcome (list (list byte)) :=
    do m0 <- idx m 0;
    do result <- newMatrixW (len m0) (len m);
    foreach (seq 0 (length m0))
      (fun i result =>
         foreach (seq 0 (length m))
           (fun j result =>
              do rj <- idx m j;
              do v <- idx rj i;
              upd2 result i j v) result) result.

  (** shamir/polynomial.go:135-153 [evaluatePolynomialsAt] *)
  Definition evaluatePolynomialsAtW (ar : arch) (growcap : nat -> nat -> nat) (bb : bbuf)
             (coefficients : list (list byte)) (x : byte) (out : list byte) : outcome (list byte) :=
    do c0 <- idx coefficients 0;
    let N := len c0 in
    let degree := int (len coefficients - 1) in
    do resultBuff <- resetGrowW growcap bb N;
    do result <- zslice resultBuff 0 N;
    do top <- zidx coefficients degree;
    let result := gocopy result top in
    do result <- foreach (downFrom degree)
      (fun i result =>
         do ci <- zidx coefficients i;
         do m <- MulConstVector ar x result;
         AddVector ar ci m) result;
    do w <- zslice out 0 N;
    Ret (splice out 0 (gocopy w result)).

  (** shamir/shamir.go:107-160 [SplitWithRandomizerOld] *)
  Definition SplitWithRandomizerOldW (ar : arch) (growcap : nat -> nat -> nat) (ks : nat -> byte)
             (evBufs : nat -> bbuf) (secret : list byte) (parts threshold : Z) : outcome (list (list byte)) :=
    match checkArgs secret parts threshold with
    | Some e => Fail e
    | None =>
      do xs <- Perm ks xff;
      let N := len secret in
      let n := Z.to_nat parts in
      do buff <- layoutFlatW N parts xs;
      do polynomials <- makePolynomialsWithRandomizerW secret (int (threshold - 1)) ks;
      do coefficients <- transposeW polynomials;
      do buff <- foreach (seq 0 n)
        (fun i buff =>
           let s := int (int (N + 1) * Z.of_nat i) in
           do w <- zslice buff s (int (int (s + N) + 1));
           do x <- tagOf xs i;
           do w' <- evaluatePolynomialsAtW ar growcap (evBufs i) coefficients x w;
           Ret (splice buff (Z.to_nat s) w')) buff;
      windowsW N n buff
    end.

  (** shamir/polynomial.go:178-189 [genericEvaluatePolynomialsAt] *)
  Definition genericEvaluatePolynomialsAtW (coefficients : list (list byte)) (x : byte) (out : list byte)
    : outcome (list byte) :=
    do c0 <- idx coefficients 0;
    let N := len c0 in
    let degree := int (len coefficients - 1) in
    do result <- zmake N;
    do top <- zidx coefficients degree;
    let result := gocopy result top in
    do result <- foreach (downFrom degree)
      (fun i result =>
         do ci <- zidx coefficients i;
         do m <- MulConstVectorGeneric x result;
         AddVectorGeneric ci m) result;
    do w <- zslice out 0 N;
    Ret (splice out 0 (gocopy w result)).

  (** shamir/shamir.go:238-288 [SplitGeneric] *)
  Definition SplitGenericW (perm : list nat) (stream : nat -> byte) (secret : list byte) (parts threshold : Z)
    : outcome (list (list byte)) :=
    match checkArgs secret parts threshold with
    | Some e => Fail e
    | None =>
      let xs := map i2b perm in
      let n := Z.to_nat parts in
      do out <- layoutRowsW (len secret) n xs;
      do polynomials <- makePolynomialsW secret (int (threshold - 1)) stream;
      do coefficients <- transposeW polynomials;
      foreach (seq 0 n)
        (fun i out =>
           do x <- tagOf xs i;
           do w <- idx out i;
           do w' <- genericEvaluatePolynomialsAtW coefficients x w;
           upd out i w') out
    end.
End Width.
