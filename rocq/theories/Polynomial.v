(** Model of shamir/polynomial.go. Byte slices are lists; a function that writes through a slice
    returns its new contents. Buffers taken from the pool are arguments (their contents are whatever earlier
    users left), see Pool.v. *)
From Coq Require Import List NArith ZArith Lia Arith Bool.
From Coq.Init Require Import Byte.
From Verif Require Import GoSem Bytes Galois Vector Csprng Pool ShamirTables.
Import ListNotations.

(** shamir/polynomial.go:23-31 (identical to 45-53): write the intercepts into the flat buffer. *)
Definition setIntercepts (intercepts : list byte) (degree : nat) (buffer : list byte) : outcome (list byte) :=
  foreach (seq 0 (length intercepts))
    (fun p buffer =>
       let s := (degree + 1) * p in
       let e := s + degree + 1 in
       do polynomialP <- slice buffer s e;
       do ip <- idx intercepts p;
       do polynomialP' <- upd polynomialP 0 ip;
       Ret (splice buffer s polynomialP')) buffer.

(** shamir/polynomial.go:17-34 [makePolynomialsWithBuff]; [stream] is what [rand.Read] delivers. *)
Definition makePolynomialsWithBuff (intercepts : list byte) (degree : nat) (buffer : list byte)
           (stream : nat -> byte) : outcome (list byte) :=
  let buffer := take_stream stream (length buffer) in
  setIntercepts intercepts degree buffer.

(** shamir/polynomial.go:36-55 [makePolynomialsWithBuffAndRandomizer] *)
Definition makePolynomialsWithBuffAndRandomizer (intercepts : list byte) (degree : nat) (buffer : list byte)
           (ks : nat -> byte) : outcome (list byte) :=
  let buffer := Read ks buffer in
  setIntercepts intercepts degree buffer.

(** shamir/polynomial.go:124-133 [newMatrix]: [r] disjoint zeroed rows (windows of one array with capacity
    cut to their length, so they behave as independent slices; Memory.v models the aliasing). *)
Definition newMatrix (r c : nat) : list (list byte) := repeat (zeros c) r.

(** matrix cell access: [m[i][j] = v]. (shamir/polynomial.go:98-108) *)
Definition upd2 (m : list (list byte)) (i j : nat) (v : byte) : outcome (list (list byte)) :=
  do r <- idx m i;
  do r' <- upd r j v;
  upd m i r'.

(** shamir/polynomial.go:57-75 [makePolynomials] *)
Definition makePolynomials (intercepts : list byte) (degree : nat) (stream : nat -> byte)
  : outcome (list (list byte)) :=
  let N := length intercepts in
  let polynomials := newMatrix N (degree + 1) in
  let coefficients := take_stream stream (degree * N) in
  do '(polynomials, _) <- foreach (seq 0 N)
    (fun p '(polynomials, startIdx) =>
       do ip <- idx intercepts p;
       do polynomials <- upd2 polynomials p 0 ip;
       do r <- idx polynomials p;
       do dst <- slice r 1 (length r);
       do src <- slice coefficients startIdx (startIdx + degree);
       do polynomials <- upd polynomials p (splice r 1 (gocopy dst src));
       Ret (polynomials, startIdx + degree)) (polynomials, 0);
  Ret polynomials.

(** shamir/polynomial.go:77-96 [makePolynomialsWithRandomizer]: the rows are windows of [coefficients],
    intercepts are written through the windows. *)
Definition makePolynomialsWithRandomizer (intercepts : list byte) (degree : nat) (ks : nat -> byte)
  : outcome (list (list byte)) :=
  let N := length intercepts in
  let coefficients := Read ks (zeros ((degree + 1) * N)) in
  do coefficients <- setIntercepts intercepts degree coefficients;
  foreach (seq 0 N)
    (fun p polynomials =>
       let s := (degree + 1) * p in
       do r <- slice coefficients s (s + degree + 1);
       Ret (polynomials ++ [r])) [].

(** shamir/polynomial.go:98-108 [transpose] *)
Definition transpose (m : list (list byte)) : outcome (list (list byte)) :=
  do m0 <- idx m 0;
  let xl := length m0 in
  let yl := length m in
  foreach (seq 0 xl)
    (fun i result =>
       foreach (seq 0 yl)
         (fun j result =>
            do rj <- idx m j;
            do v <- idx rj i;
            upd2 result i j v) result) (newMatrix xl yl).

(** shamir/polynomial.go:110-122 [transposeMatrixBuffer]: the new contents of [dest]. State of the loop:
    (dest, curSourceRow, curSourceCol). *)
Definition transposeMatrixBuffer (dest source : list byte) (rowLen : nat) : outcome (list byte) :=
  if rowLen =? 0 then Panic PDivZero else
  let colLen := length source / rowLen in
  do '(dest, _, _) <- foreach (seq 0 (length source))
    (fun i '(dest, curSourceRow, curSourceCol) =>
       do v <- idx source (rowLen * curSourceRow + curSourceCol);
       do dest <- upd dest i v;
       let curSourceRow := curSourceRow + 1 in
       if curSourceRow =? colLen then Ret (dest, 0, curSourceCol + 1)
       else Ret (dest, curSourceRow, curSourceCol)) (dest, 0, 0);
  Ret dest.

(** shamir/polynomial.go:135-153 [evaluatePolynomialsAt]. [bb] is the buffer obtained from
    [polynomialBufferPool.Get()], with arbitrary contents. The new contents of [out] are returned; what is left
    in [bb] is not tracked (callers treat the buffers of that pool as arbitrary). *)
Definition evaluatePolynomialsAt (ar : arch) (growcap : nat -> nat -> nat) (bb : bbuf)
           (coefficients : list (list byte)) (x : byte) (out : list byte) : outcome (list byte) :=
  do c0 <- idx coefficients 0;
  let N := length c0 in
  let degree := length coefficients - 1 in
  do result <- slice (resetGrow growcap bb N) 0 N;
  do top <- idx coefficients degree;
  let result := gocopy result top in
  do result <- foreach (rev (seq 0 degree))
    (fun i result =>
       do ci <- idx coefficients i;
       do m <- MulConstVector ar x result;
       AddVector ar ci m) result;
  do w <- slice out 0 N;
  Ret (splice out 0 (gocopy w result)).

(** shamir/polynomial.go:155-174 [evaluatePolynomialsAtWithCoefficientsBuffer]. When the buffer holds less
    than one row, [degree] is negative and the slice expression panics. *)
Definition evaluatePolynomialsAtWithCoefficientsBuffer (ar : arch) (growcap : nat -> nat -> nat) (bb : bbuf)
           (coefficientsBuff : list byte) (rowLen : nat) (x : byte) (out : list byte) : outcome (list byte) :=
  if rowLen =? 0 then Panic PDivZero else
  do result <- slice (resetGrow growcap bb rowLen) 0 rowLen;
  if length coefficientsBuff / rowLen =? 0 then Panic PSlice else
  let degree := length coefficientsBuff / rowLen - 1 in
  do top <- slice coefficientsBuff (degree * rowLen) (degree * rowLen + rowLen);
  let result := gocopy result top in
  do result <- foreach (rev (seq 0 degree))
    (fun i result =>
       do ci <- slice coefficientsBuff (i * rowLen) (i * rowLen + rowLen);
       do m <- MulConstVector ar x result;
       AddVector ar ci m) result;
  do w <- slice out 0 rowLen;
  Ret (splice out 0 (gocopy w result)).

(** shamir/polynomial.go:178-189 [genericEvaluatePolynomialsAt] *)
Definition genericEvaluatePolynomialsAt (coefficients : list (list byte)) (x : byte) (out : list byte)
  : outcome (list byte) :=
  do c0 <- idx coefficients 0;
  let N := length c0 in
  let degree := length coefficients - 1 in
  let result := zeros N in
  do top <- idx coefficients degree;
  let result := gocopy result top in
  do result <- foreach (rev (seq 0 degree))
    (fun i result =>
       do ci <- idx coefficients i;
       do m <- MulConstVectorGeneric x result;
       AddVectorGeneric ci m) result;
  do w <- slice out 0 N;
  Ret (splice out 0 (gocopy w result)).

(** shamir/polynomial.go:198-213 [makePolynomial]: [degree] is a byte, [degree+1] wraps around;
    [stream] is what [rand.Read] delivers. *)
Definition makePolynomial (intercept degree : byte) (stream : nat -> byte) : outcome (list byte) :=
  let coefficients := zeros (b2i (badd degree x01)) in
  do coefficients <- upd coefficients 0 intercept;
  do rest <- slice coefficients 1 (length coefficients);
  Ret (splice coefficients 1 (take_stream stream (length rest))).

(** shamir/polynomial.go:217-219 [add] *)
Definition add (a b : byte) : byte := bxor a b.

(** shamir/polynomial.go:222-238 [div]; the constant-time selection is an [if].
    The difference of the logarithms is never below -255, so [% 255] is applied to a natural number. *)
Definition div (a b : byte) : outcome byte :=
  if beq b x00 then Panic PDivide
  else
    do log_a <- idx logTable (b2i a);
    do log_b <- idx logTable (b2i b);
    let diff := Z.rem (b2z log_a - b2z log_b + 255) 255 in
    if (diff <? 0)%Z then Panic PIndex else
    do ret <- idx expTable (Z.to_nat diff);
    Ret (if beq a x00 then x00 else ret).

(** shamir/polynomial.go:241-254 [mult] *)
Definition mult (a b : byte) : outcome byte :=
  do log_a <- idx logTable (b2i a);
  do log_b <- idx logTable (b2i b);
  let sum := (b2i log_a + b2i log_b) mod 255 in
  do ret <- idx expTable sum;
  let ret := if beq a x00 then x00 else ret in
  let ret := if beq b x00 then x00 else ret in
  Ret ret.

(** shamir/polynomial.go:257-271 [polynomial.evaluate] *)
Definition evaluate (p : list byte) (x : byte) : outcome byte :=
  if beq x x00 then idx p 0
  else
    let degree := length p - 1 in
    do top <- (if length p =? 0 then Panic PIndex else idx p degree);
    foreach (rev (seq 0 degree))
      (fun i out =>
         do coeff <- idx p i;
         Ret (GalAdd (GalMultiply out x) coeff)) top.

(** shamir/polynomial.go:275-293 [interpolatePolynomial] *)
Definition interpolatePolynomial (x_samples y_samples : list byte) (x : byte) : outcome byte :=
  let limit := length x_samples in
  foreach (seq 0 limit)
    (fun i result =>
       do basis <- foreach (seq 0 limit)
         (fun j basis =>
            if i =? j then Ret basis
            else
              do xj <- idx x_samples j;
              do xi <- idx x_samples i;
              let num := add x xj in
              let denom := add xi xj in
              do term <- div num denom;
              mult basis term) x01;
       do yi <- idx y_samples i;
       do group <- mult yi basis;
       Ret (add result group)) x00.
