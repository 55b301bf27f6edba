(** The code of Split and Combine once more, this time recording which table entries it reads and which branches it takes depending on bytes
    of the data. Every definition here is the one of Vector.v, Polynomial.v or Shamir.v (which cites the source) with records added; the lemmas
    [.._erase] of TraceFacts.v say that without the records they are the same functions. Memory accesses of the vectors themselves are at
    positions fixed by the lengths and are not recorded; those of the assembler routines are recorded by the machine [xtrace]/[atrace] below. *)
From Coq Require Import List NArith ZArith Lia Arith Bool.
From Coq.Init Require Import Byte.
From Verif Require Import GoSem Bytes Galois GaloisTables ShamirTables Vector Csprng Pool Polynomial Shamir Asm.
Import ListNotations.

(** [MulT a b]: read of galois [mulTable[a][b]] (galois/tables.go); [LogT a], [ExpT i]: reads of the tables of shamir/tables.go;
    [Branch b]: a conditional jump on a byte of the data, and its outcome. (tables read at galois/galois.go:16-20 and shamir/polynomial.go:222-255) *)
Inductive event : Type := MulT (a b : byte) | LogT (a : byte) | ExpT (i : nat) | Branch (b : bool).

(** Go semantics with a log, for shamir/shamir.go:30-104 *)
Definition T (A : Type) : Type := outcome A * list event.
(** Go semantics with a log, for shamir/shamir.go:30-104 *)
Definition tret {A} (a : A) : T A := (Ret a, []).
(** Go semantics with a log, for shamir/shamir.go:30-104 *)
Definition tlift {A} (o : outcome A) : T A := (o, []).
(** Go semantics with a log, for shamir/shamir.go:30-104 *)
Definition emit (l : list event) : T unit := (Ret tt, l).
(** Go semantics with a log, for shamir/shamir.go:30-104 *)
Definition tbind {A B} (f : T A) (k : A -> T B) : T B :=
  let r := match fst f with
           | Ret a => k a
           | Fail e => (Fail e, []) | Panic p => (Panic p, []) | UB => (UB, []) | Diverge => (Diverge, [])
           end in
  (fst r, snd f ++ snd r).
Notation "'tdo' x <- m ; k" := (tbind m (fun x => k))
  (at level 200, x name, m at level 100, k at level 200, right associativity) : go_scope.
Notation "'tdo' ' x <- m ; k" := (tbind m (fun x => k))
  (at level 200, x strict pattern, m at level 100, k at level 200, right associativity) : go_scope.
(** Go semantics with a log, for shamir/shamir.go:30-104 *)
Fixpoint tforeach {X S : Type} (l : list X) (f : X -> S -> T S) (s : S) : T S :=
  match l with
  | [] => tret s
  | x :: r => tdo s' <- f x s; tforeach r f s'
  end.

(** ** galois *)

(** galois/vector_noasm.go:29-34; [GalMultiply(val, c)] is [mulTable[val][c]] (galois/galois.go:16-18) *)
Definition tMulConstVectorGeneric (c : byte) (a : list byte) : T (list byte) :=
  tforeach (seq 0 (length a))
    (fun i a => tdo val <- tlift (idx a i); tdo _ <- emit [MulT val c]; tlift (upd a i (GalMultiply val c))) a.

(** galois/vector_amd64.go:97-101: [mt := mulTable[c][:256]; out[i] = mt[in[i]]] *)
Definition tmulTail (c : byte) (inp out : list byte) : T (list byte) :=
  tdo o <- tlift (slice out 0 (length inp));
  tdo o' <- tforeach (seq 0 (length inp))
             (fun i o => tdo v <- tlift (idx inp i); tdo _ <- emit [MulT c v]; tlift (upd o i (GalMultiply c v))) o;
  tret (o' ++ skipn (length inp) out).

(** galois/vector_amd64.go:67-104. The assembler routines read their 16-entry tables with a vector instruction. *)
Definition tMulConstVector_amd64 (useAVX2 useSSSE3 : bool) (c : byte) (inp : list byte) : T (list byte) :=
  let out := zeros (length inp) in
  tdo _ <- emit [Branch (beq c x01)];
  if beq c x01 then tret (gocopy out inp)
  else
    let low := nth (b2i c) mulTableLow [] in
    let high := nth (b2i c) mulTableHigh [] in
    if useAVX2 then
      tdo '(pre1, inp1, out1) <-
        tlift (if 128 <=? length inp then
           do o <- galMulAVX2_64 low high inp out;
           let done := length inp / 64 * 64 in
           do i' <- slice inp done (length inp);
           do o' <- slice o done (length o);
           Ret (firstn done o, i', o')
         else Ret ([], inp, out));
      tdo '(pre2, inp2, out2) <-
        tlift (if 32 <? length inp1 then
           do o <- galMulAVX2 low high inp1 out1;
           let done := length inp1 / 32 * 32 in
           do i' <- slice inp1 done (length inp1);
           do o' <- slice o done (length o);
           Ret (firstn done o, i', o')
         else Ret ([], inp1, out1));
      tdo tl <- tmulTail c inp2 out2;
      tret (pre1 ++ pre2 ++ tl)
    else if useSSSE3 then
      tdo o <- tlift (galMulSSSE3 low high inp out);
      let done := length inp / 16 * 16 in
      if done <? length o then
        tdo i' <- tlift (slice inp done (length inp));
        tdo o' <- tlift (slice o done (length o));
        tdo tl <- tmulTail c i' o';
        tret (firstn done o ++ tl)
      else tmulTail c inp o
    else tmulTail c inp out.

(** galois/vector_arm64.go:17-37 *)
Definition tMulConstVector_arm64 (c : byte) (inp : list byte) : T (list byte) :=
  let out := zeros (length inp) in
  tdo _ <- emit [Branch (beq c x01)];
  if beq c x01 then tret (gocopy out inp)
  else
    tdo o <- tlift (galMulNEON (nth (b2i c) mulTableLow []) (nth (b2i c) mulTableHigh []) inp out);
    let done := length inp / 32 * 32 in
    tforeach (seq done (length inp - done))
      (fun i o => tdo v <- tlift (idx inp i); tdo _ <- emit [MulT c v]; tlift (upd o i (GalMultiply c v))) o.

(** as [MulConstVector] of Vector.v. (galois/vector.go:16-18, galois/vector_amd64.go:68-105, galois/vector_arm64.go:17-37) *)
Definition tMulConstVector (ar : arch) (c : byte) (a : list byte) : T (list byte) :=
  match ar with
  | ArchGeneric => tMulConstVectorGeneric c a
  | ArchAmd64 _ ssse3 avx2 => tMulConstVector_amd64 avx2 ssse3 c a
  | ArchArm64 => tMulConstVector_arm64 c a
  end.

(** ** shamir/polynomial.go *)

(** shamir/polynomial.go:155-174. AddVector only XORs. *)
Definition tevaluateFlat (ar : arch) (growcap : nat -> nat -> nat) (bb : bbuf)
           (coefficientsBuff : list byte) (rowLen : nat) (x : byte) (out : list byte) : T (list byte) :=
  if rowLen =? 0 then tlift (Panic PDivZero) else
  tdo result <- tlift (slice (resetGrow growcap bb rowLen) 0 rowLen);
  if length coefficientsBuff / rowLen =? 0 then tlift (Panic PSlice) else
  let degree := length coefficientsBuff / rowLen - 1 in
  tdo top <- tlift (slice coefficientsBuff (degree * rowLen) (degree * rowLen + rowLen));
  let result := gocopy result top in
  tdo result <- tforeach (rev (seq 0 degree))
    (fun i result =>
       tdo ci <- tlift (slice coefficientsBuff (i * rowLen) (i * rowLen + rowLen));
       tdo m <- tMulConstVector ar x result;
       tlift (AddVector ar ci m)) result;
  tdo w <- tlift (slice out 0 rowLen);
  tret (splice out 0 (gocopy w result)).

(** shamir/polynomial.go:222-238: branches on [b == 0] only; [ConstantTimeSelect] does not branch *)
Definition tdiv (a b : byte) : T byte :=
  tdo _ <- emit [Branch (beq b x00)];
  if beq b x00 then tlift (Panic PDivide)
  else
    tdo log_a <- tlift (idx logTable (b2i a));
    tdo log_b <- tlift (idx logTable (b2i b));
    let diff := Z.rem (b2z log_a - b2z log_b + 255) 255 in
    tdo _ <- emit [LogT a; LogT b; ExpT (Z.to_nat diff)];
    if (diff <? 0)%Z then tlift (Panic PIndex) else
    tdo ret <- tlift (idx expTable (Z.to_nat diff));
    tret (if beq a x00 then x00 else ret).

(** shamir/polynomial.go:241-254 *)
Definition tmult (a b : byte) : T byte :=
  tdo log_a <- tlift (idx logTable (b2i a));
  tdo log_b <- tlift (idx logTable (b2i b));
  let sum := (b2i log_a + b2i log_b) mod 255 in
  tdo _ <- emit [LogT a; LogT b; ExpT sum];
  tdo ret <- tlift (idx expTable sum);
  let ret := if beq a x00 then x00 else ret in
  let ret := if beq b x00 then x00 else ret in
  tret ret.

(** shamir/polynomial.go:275-293 *)
Definition tinterpolatePolynomial (x_samples y_samples : list byte) (x : byte) : T byte :=
  let limit := length x_samples in
  tforeach (seq 0 limit)
    (fun i result =>
       tdo basis <- tforeach (seq 0 limit)
         (fun j basis =>
            if i =? j then tret basis
            else
              tdo xj <- tlift (idx x_samples j);
              tdo xi <- tlift (idx x_samples i);
              let num := add x xj in
              let denom := add xi xj in
              tdo term <- tdiv num denom;
              tmult basis term) x01;
       tdo yi <- tlift (idx y_samples i);
       tdo group <- tmult yi basis;
       tret (add result group)) x00.

(** ** shamir/shamir.go *)

(** shamir/shamir.go:97-100 *)
Definition tevalLoop (ar : arch) (growcap : nat -> nat -> nat) (evBufs : nat -> bbuf) (coefficientBuff : list byte)
           (N parts : nat) (xs : list byte) (buff : list byte) : T (list byte) :=
  tforeach (seq 0 parts)
    (fun i buff =>
       let s := (N + 1) * i in
       tdo w <- tlift (slice buff s (s + N + 1));
       tdo x <- tlift (tagOf xs i);
       tdo o <- tlift (slice w 0 N);
       tdo o' <- tevaluateFlat ar growcap (evBufs i) coefficientBuff N x o;
       tret (splice buff s (splice w 0 o'))) buff.

(** shamir/shamir.go:30-104 [Split] *)
Definition tSplit (ar : arch) (growcap : nat -> nat -> nat) (perm : list nat) (stream : nat -> byte)
           (polB trB : bbuf) (evBufs : nat -> bbuf) (secret : list byte) (parts threshold : Z) : T (list (list byte)) :=
  match checkArgs secret parts threshold with
  | Some e => tlift (Fail e)
  | None =>
    let xs := map i2b perm in
    let N := length secret in
    let n := Z.to_nat parts in
    tdo buff <- tlift (layoutFlat N n xs);
    let degree := Z.to_nat (threshold - 1) in
    let polB := resetGrow growcap polB ((degree + 1) * N) in
    tdo polBuff <- tlift (slice polB 0 ((degree + 1) * N));
    tdo polynomials <- tlift (makePolynomialsWithBuff secret degree polBuff stream);
    let trB := resetGrow growcap trB (length polynomials) in
    tdo coefficientBuff <- tlift (slice trB 0 (length polynomials));
    tdo coefficientBuff <- tlift (transposeMatrixBuffer coefficientBuff polynomials (degree + 1));
    tdo buff <- tevalLoop ar growcap evBufs coefficientBuff N n xs buff;
    tlift (windows N n buff)
  end.

(** shamir/shamir.go:405-416 *)
Definition tinterpolateAll (n : nat) (parts : list (list byte)) (x_samples : list byte) (x : byte) (out : list byte) : T (list byte) :=
  tforeach (seq 0 n)
    (fun j out =>
       tdo ys <- tlift (column j parts);
       tdo v <- tinterpolatePolynomial x_samples ys x;
       tlift (upd out j v)) out.

(** shamir/shamir.go:368-418 [Combine] *)
Definition tCombine (parts : list (list byte)) : T (list byte) :=
  match checkParts parts with
  | Some e => tlift (Fail e)
  | None =>
    let firstPartLen := length (nth 0 parts []) in
    tdo x_samples <- tlift (collectTags firstPartLen [] parts);
    tinterpolateAll (firstPartLen - 1) parts x_samples x00 (zeros (firstPartLen - 1))
  end.

(** ** the assembler routines: the program counter and the memory access of each instruction executed *)

(** address, number of bytes, and whether it is a store. (processor semantics, for galois/vector_amd64.s:11-370) *)
Definition xaccess (i : xinstr) (g : gp -> N) : option (N * nat * bool) :=
  match i with
  | MOVOUld off b _ | MOVOAld off b _ => Some (word (g b + off), 16%nat, false)
  | MOVOUst _ off b | MOVOAst _ off b => Some (word (g b + off), 16%nat, true)
  | VMOVDQUld off b _ => Some (word (g b + off), 32%nat, false)
  | VMOVDQUst _ off b => Some (word (g b + off), 32%nat, true)
  | _ => None
  end.
(** the first [n] instructions executed from state [s], as far as there are so many before the [RET] or a fault. (processor semantics, for galois/vector_amd64.s:11-370) *)
Fixpoint xtrace (p : list xinstr) (args : N -> N) (n : nat) (s : xstate) : list (nat * option (N * nat * bool)) :=
  match n with
  | O => []
  | S k =>
    match nth_error p (xpc s) with
    | None => []
    | Some i => (xpc s, xaccess i (xg s)) :: match xstep p args s with Some s1 => xtrace p args k s1 | None => [] end
    end
  end.

(** address, number of bytes, and whether it is a store; processor semantics, for galois/vector_arm64.s:29-126 *)
Definition aaccess (i : ainstr) (g : ar -> N) : option (N * nat * bool) :=
  match i with
  | VLD1 b _ => Some (g b, 16%nat, false)
  | VLD1x2 b _ _ | VLD1Px2 b _ _ => Some (g b, 32%nat, false)
  | VST1Px2 _ _ b => Some (g b, 32%nat, true)
  | _ => None
  end.
(** as [xtrace], for galois/vector_arm64.s:29-126 *)
Fixpoint atrace (p : list ainstr) (args : N -> N) (n : nat) (s : astate) : list (nat * option (N * nat * bool)) :=
  match n with
  | O => []
  | S k =>
    match nth_error p (apc s) with
    | None => []
    | Some i => (apc s, aaccess i (ag s)) :: match astep p args s with Some s1 => atrace p args k s1 | None => [] end
    end
  end.
