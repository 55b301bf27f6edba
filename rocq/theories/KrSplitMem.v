(** krawczyk.Split and krawczyk.SplitWithRandomizer, and shamir.SplitWithRandomizerOld, run on memory. *)
From Coq Require Import List NArith ZArith Lia Arith Bool.
From Coq.Init Require Import Byte.
From Verif Require Import GoSem Bytes Vector Csprng Pool Polynomial Shamir Libs Krawczyk Memory MemCalls.
Import ListNotations.

(** a new array holding [data]. (krawczyk/krawczyk.go:39) *)
Definition mnew (data : list byte) : M gslice := fun m => let (h, s) := alloc (m_heap m) data in (setHeap m h, Ret s).

(** [append(s, data...)]: in place when the capacity allows, otherwise a copy with [extra] bytes of spare capacity. (krawczyk/krawczyk.go:63-73) *)
Definition mappend (extra : nat) (s : gslice) (data : list byte) : M gslice := fun m =>
  if sl_len s + length data <=? sl_cap s
  then (setHeap m (set (m_heap m) (sl_arr s) (splice (nth (sl_arr s) (m_heap m) []) (sl_off s + sl_len s) data)),
        Ret {| sl_arr := sl_arr s; sl_off := sl_off s; sl_len := sl_len s + length data; sl_cap := sl_cap s |})
  else let (h, t) := alloc (m_heap m) (mcontents m s ++ data ++ zeros extra) in
       (setHeap m h, Ret {| sl_arr := sl_arr t; sl_off := 0; sl_len := sl_len s + length data; sl_cap := sl_cap t |}).

(** krawczyk/krawczyk.go:163-172 [newByteMatrix] *)
Definition mNewByteMatrix (r c : nat) : M (list gslice) :=
  mdo a <- mmake (r * c);
  mdo '(_, _, out) <- mforeach (seq 0 r)
    (fun _ '(lo, hi, out) =>
       mdo w <- mlift (reslice3 a lo hi hi);
       mret (hi, hi + c, out ++ [w])) (0, c, []);
  mret out.

(** krawczyk/krawczyk.go:79-86 and 151-158 *)
Definition mKrAssemble (parts : nat) (ssKeyLenPair encodedSecret : list gslice) : M (list gslice) :=
  mdo e0 <- mlift (idx encodedSecret 0);
  mdo m0 <- mlift (idx ssKeyLenPair 0);
  let lenEncodedSecret := sl_len e0 in
  let lenEncodedMetadata := sl_len m0 in
  mdo results <- mNewByteMatrix parts (lenEncodedSecret + lenEncodedMetadata);
  mdo _ <- mforeach (seq 0 parts)
    (fun i _ =>
       mdo r <- mlift (idx results i);
       mdo w <- mslice r 0 lenEncodedMetadata;
       mdo ms <- mlift (idx ssKeyLenPair i);
       mdo _ <- mcopy w ms;
       mdo w <- mslice r lenEncodedMetadata (sl_len r);
       mdo e <- mlift (idx encodedSecret i);
       mcopy w e) tt;
  mret results.

(** krawczyk/krawczyk.go:22-88 and 93-160 (cf. Krawczyk.v [krSplitWith]); [keyBytes] is what line 40/111 reads into the key, [share] the
    shamir function of line 74/146. Simplifications: the ciphertext (a bytes.Buffer of krawczyk/aes.go:10-26) is a new array, and each
    shard returned by the Reed-Solomon library is a new array without spare capacity (were it a window of the ciphertext whose capacity
    extends over the next shard, the [append] of lines 63-65 would destroy the next shard, and no test in /repo would pass). *)
Definition mKrSplitWith (E : blockCipher) (zp : bool) (extra : nat) (keyBytes : list byte) (share : gslice -> Z -> Z -> M (list gslice))
           (secret : gslice) (parts threshold : Z) : M (list gslice) :=
  match krCheck (sl_len secret) parts threshold with
  | Some e => mlift (Fail e)
  | None =>
    mdo key <- mmake LenKey;
    mdo _ <- mwrite key keyBytes;
    mdo encryptedSecret <- (fun m => match encrypt E (mcontents m secret) (mcontents m key) with
                                     | Ret c => mnew c m
                                     | o => (m, do _ <- o; Diverge)
                                     end);
    match rsNew zp threshold (parts - threshold) with
    | Some e => mlift (Fail e)
    | None =>
      let d := Z.to_nat threshold in
      let total := Z.to_nat parts in
      mdo shards <- (fun m => (m, do s <- rsSplit d total (mcontents m encryptedSecret); rsEncode d total s));
      mdo encodedSecret <- mforeach shards (fun s out => mdo w <- mnew s; mret (out ++ [w])) [];
      mdo encodedSecret <- mforeach (seq 0 (length encodedSecret))
        (fun i out => mdo s <- mlift (idx encodedSecret i); mdo s' <- mappend extra s [i2b i]; mret (out ++ [s'])) [];
      let lenSecret := (N.of_nat (sl_len encryptedSecret) mod 4294967296)%N in
      mdo keyLenPair <- mappend extra key (leBytes LenLen lenSecret);
      mdo ssKeyLenPair <- share keyLenPair parts threshold;
      mKrAssemble total ssKeyLenPair encodedSecret
    end
  end.

(** krawczyk/krawczyk.go:21-89 [Split] *)
Definition mKrSplit (E : blockCipher) (zp : bool) (extra size : nat) ar growcap (krand : nat -> byte) (perm : list nat) (stream : nat -> byte)
           (secret : gslice) (parts threshold : Z) : M (list gslice) :=
  mKrSplitWith E zp extra (take_stream krand LenKey) (mSplit size ar growcap perm stream) secret parts threshold.

(** krawczyk/krawczyk.go:92-161 [SplitWithRandomizer] *)
Definition mKrSplitWithRandomizer (fuel : nat) (E : blockCipher) (zp : bool) (extra size : nat) ar growcap (ks : nat -> byte)
           (secret : gslice) (parts threshold : Z) : M (list gslice) :=
  mKrSplitWith E zp extra (Read ks (zeros LenKey)) (mSplitWithRandomizer size fuel ar growcap ks) secret parts threshold.

(** shamir/polynomial.go:77-96 [makePolynomialsWithRandomizer]: the polynomials are windows of one new array *)
Definition mMakePolynomialsWithRandomizer (ks : nat -> byte) (intercepts : gslice) (degree : nat) : M (list gslice) :=
  let N := sl_len intercepts in
  mdo coefficients <- mmake ((degree + 1) * N);
  mdo _ <- (fun m => mwrite coefficients (Read ks (mcontents m coefficients)) m);
  mforeach (seq 0 N)
    (fun p polynomials =>
       let s := (degree + 1) * p in
       let e := s + degree + 1 in
       mdo w <- mslice coefficients s e;
       mdo ip <- mload intercepts p;
       mdo _ <- mstore w 0 ip;
       mret (polynomials ++ [w])) [].

(** shamir/polynomial.go:124-133 [newMatrix] *)
Definition mNewMatrix := mNewByteMatrix.

(** shamir/polynomial.go:98-108 [transpose] *)
Definition mTranspose (sl : list gslice) : M (list gslice) :=
  mdo s0 <- mlift (idx sl 0);
  let xl := sl_len s0 in
  let yl := length sl in
  mdo result <- mNewMatrix xl yl;
  mdo _ <- mforeach (seq 0 xl)
    (fun i _ =>
       mforeach (seq 0 yl)
         (fun j _ =>
            mdo src <- mlift (idx sl j);
            mdo v <- mload src i;
            mdo row <- mlift (idx result i);
            mstore row j v) tt) tt;
  mret result.

(** shamir/polynomial.go:135-153 [evaluatePolynomialsAt] *)
Definition mEvaluatePolynomialsAt (size : nat) (ar : arch) (growcap : nat -> nat -> nat) (coefficients : list gslice) (x : byte) (out : gslice) : M unit :=
  mdo c0 <- mlift (idx coefficients 0);
  let N := sl_len c0 in
  let degree := length coefficients - 1 in
  mdo rb <- mgetE;
  mdo rb <- mresetGrow growcap rb N;
  mdo result <- mslice rb 0 N;
  mdo top <- mlift (idx coefficients degree);
  mdo _ <- mcopy result top;
  mdo result <- mforeach (rev (seq 0 degree))
    (fun i result =>
       mdo ci <- mlift (idx coefficients i);
       mdo r <- mMulConstVector ar x result;
       mAddVector ar ci r) result;
  mdo w <- mslice out 0 N;
  mdo _ <- mcopy w result;
  mputE size rb.

(** shamir/shamir.go:107-160 [SplitWithRandomizerOld] *)
Definition mSplitWithRandomizerOld (size : nat) ar growcap (ks : nat -> byte) (secret : gslice) (parts threshold : Z) : M (list gslice) := fun m =>
  match checkArgs (mcontents m secret) parts threshold with
  | Some e => (m, Fail e)
  | None =>
    (mdo xs <- mlift (Perm ks xff);
     let N := sl_len secret in
     let n := Z.to_nat parts in
     mdo out <- mLayoutFlat N n xs;
     mdo polynomials <- mMakePolynomialsWithRandomizer ks secret (Z.to_nat (threshold - 1));
     mdo coefficients <- mTranspose polynomials;
     mdo _ <- mforeach (seq 0 n)
       (fun i _ =>
          mdo x <- mlift (tagOf xs i);
          mdo o <- mlift (idx out i);
          mEvaluatePolynomialsAt size ar growcap coefficients x o) tt;
     mret out) m
  end.
