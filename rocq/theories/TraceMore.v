(** The remaining functions of shamir once more with records of table reads and branches, as Trace.v does for Split and Combine: SplitGeneric,
    SplitWithRandomizer, SplitWithRandomizerOld, SplitP and Regenerate. Each definition is the one of Polynomial.v, Shamir.v or SplitP.v with
    records added; TraceMoreFacts.v proves that without the records they are the same functions. The tests of share tags for repetitions, which do not
    read bytes of the secret, and the drawing of random numbers are not recorded. *)
From Coq Require Import List NArith ZArith Lia Arith Bool.
From Coq.Init Require Import Byte.
From Verif Require Import GoSem Bytes Galois GaloisTables ShamirTables Vector Csprng Pool Polynomial Shamir SplitP Trace.
Import ListNotations.
Local Open Scope go_scope.

(** shamir/polynomial.go:135-153 *)
Definition tevaluateRows (ar : arch) (growcap : nat -> nat -> nat) (bb : bbuf)
           (coefficients : list (list byte)) (x : byte) (out : list byte) : T (list byte) :=
  tdo c0 <- tlift (idx coefficients 0);
  let N := length c0 in
  let degree := length coefficients - 1 in
  tdo result <- tlift (slice (resetGrow growcap bb N) 0 N);
  tdo top <- tlift (idx coefficients degree);
  let result := gocopy result top in
  tdo result <- tforeach (rev (seq 0 degree))
    (fun i result =>
       tdo ci <- tlift (idx coefficients i);
       tdo m <- tMulConstVector ar x result;
       tlift (AddVector ar ci m)) result;
  tdo w <- tlift (slice out 0 N);
  tret (splice out 0 (gocopy w result)).

(** shamir/polynomial.go:178-189 *)
Definition tgenericEvaluate (coefficients : list (list byte)) (x : byte) (out : list byte) : T (list byte) :=
  tdo c0 <- tlift (idx coefficients 0);
  let N := length c0 in
  let degree := length coefficients - 1 in
  let result := zeros N in
  tdo top <- tlift (idx coefficients degree);
  let result := gocopy result top in
  tdo result <- tforeach (rev (seq 0 degree))
    (fun i result =>
       tdo ci <- tlift (idx coefficients i);
       tdo m <- tMulConstVectorGeneric x result;
       tlift (AddVectorGeneric ci m)) result;
  tdo w <- tlift (slice out 0 N);
  tret (splice out 0 (gocopy w result)).

(** shamir/polynomial.go:257-271: branches on [x == 0], then one multiplication per coefficient *)
Definition tevaluate (p : list byte) (x : byte) : T byte :=
  tdo _ <- emit [Branch (beq x x00)];
  if beq x x00 then tlift (idx p 0)
  else
    let degree := length p - 1 in
    tdo top <- tlift (if length p =? 0 then Panic PIndex else idx p degree);
    tforeach (rev (seq 0 degree))
      (fun i out =>
         tdo coeff <- tlift (idx p i);
         tdo _ <- emit [MulT out x];
         tret (GalAdd (GalMultiply out x) coeff)) top.

(** shamir/shamir.go:107-160 [SplitWithRandomizerOld] *)
Definition tSplitWithRandomizerOld (ar : arch) (growcap : nat -> nat -> nat) (ks : nat -> byte)
           (evBufs : nat -> bbuf) (secret : list byte) (parts threshold : Z) : T (list (list byte)) :=
  match checkArgs secret parts threshold with
  | Some e => tlift (Fail e)
  | None =>
    tdo xs <- tlift (Perm ks xff);
    let N := length secret in
    let n := Z.to_nat parts in
    tdo buff <- tlift (layoutFlat N n xs);
    tdo polynomials <- tlift (makePolynomialsWithRandomizer secret (Z.to_nat (threshold - 1)) ks);
    tdo coefficients <- tlift (transpose polynomials);
    tdo buff <- tforeach (seq 0 n)
      (fun i buff =>
         let s := (N + 1) * i in
         tdo w <- tlift (slice buff s (s + N + 1));
         tdo x <- tlift (tagOf xs i);
         tdo w' <- tevaluateRows ar growcap (evBufs i) coefficients x w;
         tret (splice buff s w')) buff;
    tlift (windows N n buff)
  end.

(** shamir/shamir.go:162-236 [SplitWithRandomizer] *)
Definition tSplitWithRandomizer (fuel : nat) (ar : arch) (growcap : nat -> nat -> nat) (ks : nat -> byte)
           (polB trB : bbuf) (evBufs : nat -> bbuf) (secret : list byte) (parts threshold : Z) : T (list (list byte)) :=
  match checkArgs secret parts threshold with
  | Some e => tlift (Fail e)
  | None =>
    tdo xs <- tlift (GetUniqueBytes fuel ks (z2b parts));
    let N := length secret in
    let n := Z.to_nat parts in
    tdo buff <- tlift (layoutFlat N n xs);
    let degree := Z.to_nat (threshold - 1) in
    let polB := resetGrow growcap polB ((degree + 1) * N) in
    tdo polBuff <- tlift (slice polB 0 ((degree + 1) * N));
    tdo polynomials <- tlift (makePolynomialsWithBuffAndRandomizer secret degree polBuff ks);
    let trB := resetGrow growcap trB (length polynomials) in
    tdo coefficientBuff <- tlift (slice trB 0 (length polynomials));
    tdo coefficientBuff <- tlift (transposeMatrixBuffer coefficientBuff polynomials (degree + 1));
    tdo buff <- tevalLoop ar growcap evBufs coefficientBuff N n xs buff;
    tlift (windows N n buff)
  end.

(** shamir/shamir.go:238-288 [SplitGeneric] *)
Definition tSplitGeneric (perm : list nat) (stream : nat -> byte) (secret : list byte) (parts threshold : Z) : T (list (list byte)) :=
  match checkArgs secret parts threshold with
  | Some e => tlift (Fail e)
  | None =>
    let xs := map i2b perm in
    let N := length secret in
    let n := Z.to_nat parts in
    tdo out <- tlift (layoutRows N n xs);
    tdo polynomials <- tlift (makePolynomials secret (Z.to_nat (threshold - 1)) stream);
    tdo coefficients <- tlift (transpose polynomials);
    tforeach (seq 0 n)
      (fun i out =>
         tdo x <- tlift (tagOf xs i);
         tdo w <- tlift (idx out i);
         tdo w' <- tgenericEvaluate coefficients x w;
         tlift (upd out i w')) out
  end.

(** shamir/shamir.go:424-488 [Regenerate] *)
Definition tRegenerate (fuel : nat) (stream u : nat -> byte) (parts : list (list byte)) (numNewShares : Z) : T (list (list byte)) :=
  match checkParts parts with
  | Some e => tlift (Fail e)
  | None =>
    let firstPartLen := length (nth 0 parts []) in
    tdo num <- tlift (make_len numNewShares);
    tdo x_samples <- tlift (collectTags firstPartLen [] parts);
    let newXs := take_stream stream num in
    tdo _ <- tlift (dedupLoop fuel u x_samples newXs);
    tforeach (seq 0 num)
      (fun k newShares =>
         tdo nx <- tlift (idx newXs k);
         tdo sh <- tlift (upd (zeros firstPartLen) (firstPartLen - 1) nx);
         tdo sh <- tinterpolateAll (firstPartLen - 1) parts x_samples nx sh;
         tlift (upd newShares k sh)) (repeat [] num)
  end.

(** The records of one transition of SplitP: only a goroutine that evaluates its current polynomial at the next tag has any. (shamir/shamir.go:343-351) *)
Definition pstepRecords (parts : nat) (xs : list byte) (thread : nat) (s : pstate) : list event :=
  match thread with
  | O => []
  | S k =>
    match nth_error (p_workers s) k with
    | Some w =>
      if w_done w then [] else
      match w_cur w with
      | Some (p, i) => if i <? parts then snd (tdo x <- tlift (tagOf xs i); tevaluate p x) else []
      | None => []
      end
    | None => []
    end
  end.

(** The records of SplitP under a schedule, with the number of the thread that left them (0 is the caller).
    (shamir/shamir.go:290-364) *)
Fixpoint schedRecords (secret : list byte) (parts : nat) (degree : byte) (xs : list byte) (stream : nat -> byte)
         (sched : list nat) (s : pstate) : list (nat * list event) :=
  match sched with
  | [] => []
  | th :: rest =>
    (th, pstepRecords parts xs th s) ::
    match pstep secret parts degree xs stream th s with
    | Next s1 => schedRecords secret parts degree xs stream rest s1
    | _ => []
    end
  end.

(** shamir/shamir.go:290-364 [SplitP] under the schedule [sched]: what the other threads and the caller leave in the records, step by step *)
Definition SplitPRecords (perm : list nat) (stream : nat -> byte) (secret : list byte) (parts threshold : Z) (sched : list nat) : list (nat * list event) :=
  match checkArgs secret parts threshold with
  | Some e => []
  | None =>
    match layoutRows (length secret) (Z.to_nat parts) (map i2b perm) with
    | Ret out => schedRecords secret (Z.to_nat parts) (z2b (threshold - 1)) (map i2b perm) stream sched (pinit out)
    | _ => []
    end
  end.
