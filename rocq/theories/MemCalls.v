(** The calls of package shamir run step by step on memory: arguments, results and pool buffers are slices of arrays on one heap, and the
    two buffer pools are part of the state. Where Shamir.v computes with the contents of slices, the functions here load and store
    through the slices themselves, so that a store into the wrong slice would be visible.
    Simplifications: coordinates, samples, maps and the matrices of SplitGeneric are private to the call and kept as values;
    a vector operation (galois) reads its operands and then writes its result (its operands do not overlap here). *)
From Coq Require Import List NArith ZArith Lia Arith Bool.
From Coq.Init Require Import Byte.
From Verif Require Import GoSem Bytes Galois Vector Csprng Pool Polynomial Shamir Memory.
Import ListNotations.

(** heap, shamir/shamir.go:19-23 [bPool], shamir/polynomial.go:11-15 [polynomialBufferPool] *)
Record memory : Type := { m_heap : heap; m_bpool : list gslice; m_epool : list gslice }.

(** code that works on memory. (Go semantics, for shamir/shamir.go:58-103 and shamir/shamir.go:368-421) *)
Definition M (A : Type) : Type := memory -> memory * outcome A.
(** Go semantics, for shamir/shamir.go:58-103 and shamir/shamir.go:368-421 *)
Definition mret {A} (a : A) : M A := fun m => (m, Ret a).
(** Go semantics, for shamir/shamir.go:58-103 and shamir/shamir.go:368-421 *)
Definition mlift {A} (o : outcome A) : M A := fun m => (m, o).
(** Go semantics, for shamir/shamir.go:58-103 and shamir/shamir.go:368-421 *)
Definition mbind {A B} (f : M A) (k : A -> M B) : M B := fun m =>
  match f m with
  | (m', Ret a) => k a m'
  | (m', Fail e) => (m', Fail e)
  | (m', Panic p) => (m', Panic p)
  | (m', UB) => (m', UB)
  | (m', Diverge) => (m', Diverge)
  end.
Notation "'mdo' x <- f ; k" := (mbind f (fun x => k))
  (at level 200, x name, f at level 100, k at level 200, right associativity) : go_scope.
Notation "'mdo' ' x <- f ; k" := (mbind f (fun x => k))
  (at level 200, x strict pattern, f at level 100, k at level 200, right associativity) : go_scope.
(** Go semantics, for shamir/shamir.go:58-103 and shamir/shamir.go:368-421 *)
Fixpoint mforeach {X S : Type} (l : list X) (f : X -> S -> M S) (s : S) : M S :=
  match l with
  | [] => mret s
  | x :: r => mdo s' <- f x s; mforeach r f s'
  end.

(** Go semantics, for shamir/shamir.go:58-103 and shamir/shamir.go:368-421 *)
Definition setHeap (m : memory) (h : heap) : memory := {| m_heap := h; m_bpool := m_bpool m; m_epool := m_epool m |}.

(** the bytes of a slice. (Go semantics, for shamir/shamir.go:58-103 and shamir/shamir.go:368-421) *)
Definition mcontents (m : memory) (s : gslice) : list byte := contents (m_heap m) s.

(** [s[i]]. (Go semantics, for shamir/shamir.go:58-103 and shamir/shamir.go:368-421) *)
Definition mload (s : gslice) (i : nat) : M byte := fun m =>
  if i <? sl_len s then (m, Ret (nth (sl_off s + i) (nth (sl_arr s) (m_heap m) []) x00)) else (m, Panic PIndex).
(** [s[i] = v]. (Go semantics, for shamir/shamir.go:58-103 and shamir/shamir.go:368-421) *)
Definition mstore (s : gslice) (i : nat) (v : byte) : M unit := fun m =>
  if i <? sl_len s then (setHeap m (poke (m_heap m) (sl_arr s) (sl_off s + i) v), Ret tt) else (m, Panic PIndex).
(** overwrite the bytes of a slice from its start. (Go semantics, for shamir/shamir.go:58-103 and shamir/shamir.go:368-421) *)
Definition mwrite (s : gslice) (l : list byte) : M unit := fun m =>
  (setHeap m (set (m_heap m) (sl_arr s) (splice (nth (sl_arr s) (m_heap m) []) (sl_off s) l)), Ret tt).
(** [copy(dst, src)]. (Go semantics, for shamir/shamir.go:58-103 and shamir/shamir.go:368-421) *)
Definition mcopy (dst src : gslice) : M unit := fun m =>
  mwrite dst (gocopy (mcontents m dst) (mcontents m src)) m.
(** [make([]byte, n)]. (Go semantics, for shamir/shamir.go:58-103 and shamir/shamir.go:368-421) *)
Definition mmake (n : nat) : M gslice := fun m =>
  let (h, s) := alloc (m_heap m) (zeros n) in (setHeap m h, Ret s).
(** [s[i:j]]. (Go semantics, for shamir/shamir.go:58-103 and shamir/shamir.go:368-421) *)
Definition mslice (s : gslice) (i j : nat) : M gslice := mlift (reslice s i j).

(** utils/bufferpool.go:21-28, 30-38 on the two pools; a new [bytes.Buffer] has no array *)
Definition mgetB : M gslice := fun m =>
  let (b, ch) := poolGet (m_bpool m) nilSlice in ({| m_heap := m_heap m; m_bpool := ch; m_epool := m_epool m |}, Ret b).
(** [Put] utils/bufferpool.go:30-38 for shamir/shamir.go:72 *)
Definition mputB (size : nat) (b : gslice) : M unit := fun m =>
  ({| m_heap := m_heap m; m_bpool := poolPut size (m_bpool m) b; m_epool := m_epool m |}, Ret tt).
(** [Get] utils/bufferpool.go:21-28 for the pool of shamir/polynomial.go:11-15 *)
Definition mgetE : M gslice := fun m =>
  let (b, ch) := poolGet (m_epool m) nilSlice in ({| m_heap := m_heap m; m_bpool := m_bpool m; m_epool := ch |}, Ret b).
(** [Put] utils/bufferpool.go:30-38 for the pool of shamir/polynomial.go:11-15 *)
Definition mputE (size : nat) (b : gslice) : M unit := fun m =>
  ({| m_heap := m_heap m; m_bpool := m_bpool m; m_epool := poolPut size (m_epool m) b |}, Ret tt).

(** [b.Reset(); b.Grow(n)] (Pool.v [resetGrow]): the buffer with its array. (shamir/shamir.go:73-74) *)
Definition mresetGrow (growcap : nat -> nat -> nat) (b : gslice) (n : nat) : M gslice := fun m =>
  if n <=? sl_cap b then (m, Ret b)
  else let (h, s) := alloc (m_heap m) (zeros (growcap (sl_cap b) n)) in (setHeap m h, Ret s).

(** galois/vector_noasm.go:29-34 works in place, galois/vector_amd64.go:68-104 and galois/vector_arm64.go:17-37 return a new slice *)
Definition mMulConstVector (ar : arch) (c : byte) (a : gslice) : M gslice := fun m =>
  match MulConstVector ar c (mcontents m a) with
  | Ret r =>
    match ar with
    | ArchGeneric => (mdo _ <- mwrite a r; mret a) m
    | _ => let (h, s) := alloc (m_heap m) r in (setHeap m h, Ret s)
    end
  | o => (m, do _ <- o; Diverge)
  end.
(** galois/vector_noasm.go:10-25, galois/vector_amd64.go:107-129, galois/vector_arm64.go:40-53: the second operand is overwritten and returned *)
Definition mAddVector (ar : arch) (a b : gslice) : M gslice := fun m =>
  match AddVector ar (mcontents m a) (mcontents m b) with
  | Ret r => (mdo _ <- mwrite b r; mret b) m
  | o => (m, do _ <- o; Diverge)
  end.

(** shamir/polynomial.go:23-31, 45-53 *)
Definition mSetIntercepts (intercepts : gslice) (degree : nat) (buffer : gslice) : M unit :=
  mforeach (seq 0 (sl_len intercepts))
    (fun p _ =>
       let s := (degree + 1) * p in
       let e := s + degree + 1 in
       mdo polynomialP <- mslice buffer s e;
       mdo ip <- mload intercepts p;
       mstore polynomialP 0 ip) tt.
(** shamir/polynomial.go:17-34 [makePolynomialsWithBuff] *)
Definition mMakePolynomialsWithBuff (stream : nat -> byte) (intercepts : gslice) (degree : nat) (buffer : gslice) : M unit :=
  mdo _ <- mwrite buffer (take_stream stream (sl_len buffer));
  mSetIntercepts intercepts degree buffer.
(** shamir/polynomial.go:36-55 [makePolynomialsWithBuffAndRandomizer], csprng/csprng.go:30-33 [Read] *)
Definition mMakePolynomialsWithBuffAndRandomizer (ks : nat -> byte) (intercepts : gslice) (degree : nat) (buffer : gslice) : M unit :=
  mdo _ <- (fun m => mwrite buffer (Read ks (mcontents m buffer)) m);
  mSetIntercepts intercepts degree buffer.

(** shamir/polynomial.go:110-122 [transposeMatrixBuffer] *)
Definition mTransposeMatrixBuffer (dest source : gslice) (rowLen : nat) : M unit :=
  if rowLen =? 0 then mlift (Panic PDivZero) else
  let colLen := sl_len source / rowLen in
  mdo _ <- mforeach (seq 0 (sl_len source))
    (fun i '(curSourceRow, curSourceCol) =>
       mdo v <- mload source (rowLen * curSourceRow + curSourceCol);
       mdo _ <- mstore dest i v;
       let curSourceRow := curSourceRow + 1 in
       if curSourceRow =? colLen then mret (0, curSourceCol + 1)
       else mret (curSourceRow, curSourceCol)) (0, 0);
  mret tt.

(** shamir/polynomial.go:155-174 [evaluatePolynomialsAtWithCoefficientsBuffer] *)
Definition mEvaluate (size : nat) (ar : arch) (growcap : nat -> nat -> nat) (coefficientsBuff : gslice) (rowLen : nat) (x : byte) (out : gslice) : M unit :=
  if rowLen =? 0 then mlift (Panic PDivZero) else
  mdo rb <- mgetE;
  mdo rb <- mresetGrow growcap rb rowLen;
  mdo result <- mslice rb 0 rowLen;
  if sl_len coefficientsBuff / rowLen =? 0 then mlift (Panic PSlice) else
  let degree := sl_len coefficientsBuff / rowLen - 1 in
  mdo top <- mslice coefficientsBuff (degree * rowLen) (degree * rowLen + rowLen);
  mdo _ <- mcopy result top;
  mdo result <- mforeach (rev (seq 0 degree))
    (fun i result =>
       mdo ci <- mslice coefficientsBuff (i * rowLen) (i * rowLen + rowLen);
       mdo r <- mMulConstVector ar x result;
       mAddVector ar ci r) result;
  mdo w <- mslice out 0 rowLen;
  mdo _ <- mcopy w result;
  mputE size rb.

(** shamir/shamir.go:57-65, 134-142, 189-197: the output array, its windows and the tag bytes *)
Definition mLayoutFlat (N parts : nat) (xs : list byte) : M (list gslice) :=
  mdo buff <- mmake ((N + 1) * parts);
  mforeach (seq 0 parts)
    (fun i out =>
       let s := (N + 1) * i in
       let e := s + N + 1 in
       mdo w <- mslice buff s e;
       mdo t <- mlift (tagOf xs i);
       mdo _ <- mstore w N t;
       mret (out ++ [w])) [].

(** shamir/shamir.go:97-100, 229-232 *)
Definition mEvalLoop (size : nat) (ar : arch) (growcap : nat -> nat -> nat) (coefficientBuff : gslice)
           (N parts : nat) (xs : list byte) (out : list gslice) : M unit :=
  mforeach (seq 0 parts)
    (fun i _ =>
       mdo x <- mlift (tagOf xs i);
       mdo w <- mlift (idx out i);
       mdo o <- mslice w 0 N;
       mEvaluate size ar growcap coefficientBuff N x o) tt.

(** shamir/shamir.go:57-103, 189-235: [mk] fills the polynomial buffer *)
Definition mSplitRest (size : nat) (ar : arch) (growcap : nat -> nat -> nat) (mk : gslice -> nat -> gslice -> M unit) (xs : list byte)
           (secret : gslice) (parts threshold : Z) : M (list gslice) :=
  let N := sl_len secret in
  let n := Z.to_nat parts in
  mdo out <- mLayoutFlat N n xs;
  let degree := Z.to_nat (threshold - 1) in
  mdo polB <- mgetB;
  mdo polB <- mresetGrow growcap polB ((degree + 1) * N);
  mdo polBuff <- mslice polB 0 ((degree + 1) * N);
  mdo _ <- mk secret degree polBuff;
  mdo trB <- mgetB;
  mdo trB <- mresetGrow growcap trB (sl_len polBuff);
  mdo coefficientBuff <- mslice trB 0 (sl_len polBuff);
  mdo _ <- mTransposeMatrixBuffer coefficientBuff polBuff (degree + 1);
  mdo _ <- mEvalLoop size ar growcap coefficientBuff N n xs out;
  mdo _ <- mputB size trB;
  mdo _ <- mputB size polB;
  mret out.

(** shamir/shamir.go:30-104 [Split] *)
Definition mSplit (size : nat) ar growcap (perm : list nat) (stream : nat -> byte) (secret : gslice) (parts threshold : Z) : M (list gslice) := fun m =>
  match checkArgs (mcontents m secret) parts threshold with
  | Some e => (m, Fail e)
  | None => mSplitRest size ar growcap (mMakePolynomialsWithBuff stream) (map i2b perm) secret parts threshold m
  end.

(** shamir/shamir.go:162-236 [SplitWithRandomizer] *)
Definition mSplitWithRandomizer (size : nat) (fuel : nat) ar growcap (ks : nat -> byte) (secret : gslice) (parts threshold : Z) : M (list gslice) := fun m =>
  match checkArgs (mcontents m secret) parts threshold with
  | Some e => (m, Fail e)
  | None =>
    (mdo xs <- mlift (GetUniqueBytes fuel ks (z2b parts));
     mSplitRest size ar growcap (mMakePolynomialsWithBuffAndRandomizer ks) xs secret parts threshold) m
  end.

(** shamir/shamir.go:238-288 [SplitGeneric]: one array per share; the polynomials are read off the secret once *)
Definition mSplitGeneric (perm : list nat) (stream : nat -> byte) (secret : gslice) (parts threshold : Z) : M (list gslice) := fun m =>
  match checkArgs (mcontents m secret) parts threshold with
  | Some e => (m, Fail e)
  | None =>
    let xs := map i2b perm in
    let N := sl_len secret in
    let n := Z.to_nat parts in
    (mdo out <- mforeach (seq 0 n)
       (fun i out =>
          mdo w <- mmake (N + 1);
          mdo t <- mlift (tagOf xs i);
          mdo _ <- mstore w N t;
          mret (out ++ [w])) [];
     mdo coefficients <- (fun m => (m, do polynomials <- makePolynomials (mcontents m secret) (Z.to_nat (threshold - 1)) stream; transpose polynomials));
     mdo _ <- mforeach (seq 0 n)
       (fun i _ =>
          mdo x <- mlift (tagOf xs i);
          mdo w <- mlift (idx out i);
          fun m => match genericEvaluatePolynomialsAt coefficients x (mcontents m w) with
                   | Ret w' => mwrite w w' m
                   | o => (m, do _ <- o; Diverge)
                   end) tt;
     mret out) m
  end.

(** shamir/shamir.go:394-402 *)
Fixpoint mCollectTags (firstPartLen : nat) (checkMap : list byte) (parts : list gslice) : M (list byte) :=
  match parts with
  | [] => mret []
  | part :: rest =>
    mdo samp <- mload part (firstPartLen - 1);
    if mem samp checkMap then mlift (Fail EDuplicatePart)
    else mdo r <- mCollectTags firstPartLen (samp :: checkMap) rest; mret (samp :: r)
  end.
(** shamir/shamir.go:407-409, 480-482 *)
Fixpoint mColumn (j : nat) (parts : list gslice) : M (list byte) :=
  match parts with
  | [] => mret []
  | part :: rest => mdo y <- mload part j; mdo r <- mColumn j rest; mret (y :: r)
  end.
(** shamir/shamir.go:405-416, 479-484 *)
Definition mInterpolateAll (n : nat) (parts : list gslice) (x_samples : list byte) (x : byte) (out : gslice) : M unit :=
  mforeach (seq 0 n)
    (fun j _ =>
       mdo ys <- mColumn j parts;
       mdo v <- mlift (interpolatePolynomial x_samples ys x);
       mstore out j v) tt.

(** shamir/shamir.go:368-418 [Combine] *)
Definition mCombine (parts : list gslice) : M gslice := fun m =>
  match checkParts (map (mcontents m) parts) with
  | Some e => (m, Fail e)
  | None =>
    let firstPartLen := sl_len (nth 0 parts nilSlice) in
    (mdo secret <- mmake (firstPartLen - 1);
     mdo x_samples <- mCollectTags firstPartLen [] parts;
     mdo _ <- mInterpolateAll (firstPartLen - 1) parts x_samples x00 secret;
     mret secret) m
  end.

(** shamir/shamir.go:424-488 [Regenerate] *)
Definition mRegenerate (fuel : nat) (stream u : nat -> byte) (parts : list gslice) (numNewShares : Z) : M (list gslice) := fun m =>
  match checkParts (map (mcontents m) parts) with
  | Some e => (m, Fail e)
  | None =>
    let firstPartLen := sl_len (nth 0 parts nilSlice) in
    (mdo num <- mlift (make_len numNewShares);
     mdo x_samples <- mCollectTags firstPartLen [] parts;
     let newXs := take_stream stream num in
     mdo _ <- mlift (dedupLoop fuel u x_samples newXs);
     mforeach (seq 0 num)
       (fun k newShares =>
          mdo sh <- mmake firstPartLen;
          mdo nx <- mlift (idx newXs k);
          mdo _ <- mstore sh (firstPartLen - 1) nx;
          mdo _ <- mInterpolateAll (firstPartLen - 1) parts x_samples nx sh;
          mret (newShares ++ [sh])) []) m
  end.
