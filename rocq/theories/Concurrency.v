(** Concurrent use of the library: goroutines whose calls share the buffer pools of shamir/shamir.go:19-23 and
    shamir/polynomial.go:11-15. The pools and the buffers are shared memory; the scheduler interleaves single pool
    operations and single byte accesses in any order (Go channels are atomic; byte accesses are taken as sequentially
    consistent, which is justified by the race freedom proved in ConcFacts.v). *)
From Coq Require Import List NArith ZArith Lia Arith Bool.
From Coq.Init Require Import Byte.
From Verif Require Import GoSem Bytes Galois Vector Csprng Pool Polynomial Shamir.
Import ListNotations.

(** Code run by one goroutine, as the sequence of its operations on shared memory. A [*bytes.Buffer] is a number. (Go semantics, for shamir/shamir.go:71-99) *)
Inductive prog (A : Type) : Type :=
  | PDone (o : outcome A)                                (* finished with this outcome *)
  | PGet (pool : nat) (k : nat -> prog A)                (* utils/bufferpool.go:21-28 *)
  | PPut (pool : nat) (b : nat) (k : prog A)             (* utils/bufferpool.go:30-38 *)
  | PCap (b : nat) (k : nat -> prog A)                   (* capacity of the buffer's array *)
  | PAlloc (b : nat) (n : nat) (k : prog A)              (* the buffer gets a new zeroed array of n bytes *)
  | PLoad (b i : nat) (k : byte -> prog A)               (* read byte i of the buffer's array *)
  | PStore (b i : nat) (v : byte) (k : prog A).          (* write byte i *)
Arguments PDone {A} _.
Arguments PGet {A} _ _.
Arguments PPut {A} _ _ _.
Arguments PCap {A} _ _.
Arguments PAlloc {A} _ _ _.
Arguments PLoad {A} _ _ _.
Arguments PStore {A} _ _ _ _.

(** [m], then [f] applied to its outcome. (Go semantics, for shamir/shamir.go:71-99) *)
Fixpoint pseq {A B : Type} (m : prog A) (f : outcome A -> prog B) : prog B :=
  match m with
  | PDone o => f o
  | PGet pl k => PGet pl (fun b => pseq (k b) f)
  | PPut pl b k => PPut pl b (pseq k f)
  | PCap b k => PCap b (fun n => pseq (k n) f)
  | PAlloc b n k => PAlloc b n (pseq k f)
  | PLoad b i k => PLoad b i (fun v => pseq (k v) f)
  | PStore b i v k => PStore b i v (pseq k f)
  end.
(** error, panic or divergence passed on (Go semantics, for shamir/shamir.go:71-99) *)
Definition pfail {A B : Type} (o : outcome A) : outcome B := do _ <- o; Diverge.
(** Go semantics, for shamir/shamir.go:71-99 *)
Definition pbind {A B : Type} (m : prog A) (f : A -> prog B) : prog B :=
  pseq m (fun o => match o with Ret a => f a | _ => PDone (pfail o) end).
Notation "'pdo' x <- m ; k" := (pbind m (fun x => k))
  (at level 200, x name, m at level 100, k at level 200, right associativity) : go_scope.
Notation "'pdo' ' x <- m ; k" := (pbind m (fun x => k))
  (at level 200, x strict pattern, m at level 100, k at level 200, right associativity) : go_scope.
(** Go semantics, for shamir/shamir.go:71-99 *)
Definition pret {A : Type} (a : A) : prog A := PDone (Ret a).
(** Go semantics, for shamir/shamir.go:71-99 *)
Fixpoint pforeach {X S : Type} (l : list X) (f : X -> S -> prog S) (s : S) : prog S :=
  match l with
  | [] => pret s
  | x :: r => pdo s' <- f x s; pforeach r f s'
  end.

(** ** The machine. (Go semantics, for shamir/shamir.go:71-99) *)
Record gstate (A : Type) : Type := {
  g_bufs : list (list byte);          (* the array of every buffer ever created *)
  g_pools : list (list nat);          (* contents of the pools' channels, oldest first *)
  g_threads : list (prog A) }.
Arguments g_bufs {A} _.
Arguments g_pools {A} _.
Arguments g_threads {A} _.

(** Go semantics, for shamir/shamir.go:71-99 *)
Definition setNth {A : Type} (l : list A) (i : nat) (v : A) : list A :=
  if i <? length l then firstn i l ++ v :: skipn (S i) l else l.

(** What happened in a step, as seen at the pools. (Go semantics, for shamir/shamir.go:71-99) *)
Inductive event : Type :=
  | EvHit (pool b : nat)      (* Get took [b] from the pool *)
  | EvMiss (pool b : nat)     (* Get created [b] *)
  | EvPut (pool b : nat)      (* Put stored [b] *)
  | EvDrop (pool b : nat)     (* Put found the pool full *)
  | EvLocal.

Section Machine.
  Context {A : Type}.
  Variable size : nat.     (* capacity of the channels *)

  (** one step of goroutine [th] *)
  Definition gstep (s : gstate A) (th : nat) : option (gstate A * event) :=
    match nth_error (g_threads s) th with
    | None => None
    | Some p =>
      let go bufs pools p' ev := Some ({| g_bufs := bufs; g_pools := pools; g_threads := setNth (g_threads s) th p' |}, ev) in
      match p with
      | PDone _ => None
      | PGet pl k =>
        match nth pl (g_pools s) [] with
        | b :: _ => let (b, ch) := poolGet (nth pl (g_pools s) []) 0 in go (g_bufs s) (setNth (g_pools s) pl ch) (k b) (EvHit pl b)
        | [] => let b := length (g_bufs s) in go (g_bufs s ++ [[]]) (g_pools s) (k b) (EvMiss pl b)
        end
      | PPut pl b k =>
        go (g_bufs s) (setNth (g_pools s) pl (poolPut size (nth pl (g_pools s) []) b)) k
           (if length (nth pl (g_pools s) []) <? size then EvPut pl b else EvDrop pl b)
      | PCap b k => go (g_bufs s) (g_pools s) (k (length (nth b (g_bufs s) []))) EvLocal
      | PAlloc b n k => go (setNth (g_bufs s) b (zeros n)) (g_pools s) k EvLocal
      | PLoad b i k =>
        match nth_error (nth b (g_bufs s) []) i with
        | Some v => go (g_bufs s) (g_pools s) (k v) EvLocal
        | None => go (g_bufs s) (g_pools s) (PDone (Panic PIndex)) EvLocal
        end
      | PStore b i v k =>
        if i <? length (nth b (g_bufs s) [])
        then go (setNth (g_bufs s) b (setNth (nth b (g_bufs s) []) i v)) (g_pools s) k EvLocal
        else go (g_bufs s) (g_pools s) (PDone (Panic PIndex)) EvLocal
      end
    end.

  (** executions: at each step any goroutine that has not finished *)
  Inductive gexec : gstate A -> list (nat * event) -> gstate A -> Prop :=
  | ge_nil s : gexec s [] s
  | ge_snoc s tr s1 th ev s2 : gexec s tr s1 -> gstep s1 th = Some (s2, ev) -> gexec s (tr ++ [(th, ev)]) s2.
End Machine.

(** the program starts with empty pools (two of them: number 0 is [bPool], number 1 is [polynomialBufferPool]). (shamir/shamir.go:21-23 and shamir/polynomial.go:13-15) *)
Definition ginit {A : Type} (npools : nat) (threads : list (prog A)) : gstate A :=
  {| g_bufs := []; g_pools := repeat [] npools; g_threads := threads |}.

(** ** Split and SplitWithRandomizer as such code. (shamir/shamir.go:19-23) *)
Definition bPool : nat := 0.
(** shamir/polynomial.go:11-15 *)
Definition polynomialBufferPool : nat := 1.

(** [b.Reset(); b.Grow(n)] as in Pool.v [resetGrow]. (shamir/shamir.go:73-74) *)
Definition resetGrowP (growcap : nat -> nat -> nat) (b n : nat) : prog unit :=
  PCap b (fun c => if n <=? c then pret tt else PAlloc b (growcap c n) (pret tt)).
(** [b.Bytes()[0:n]]: bounds against the capacity. (shamir/shamir.go:75) *)
Definition bytesP (b n : nat) : prog unit :=
  PCap b (fun c => if n <=? c then pret tt else PDone (Panic PSlice)).

(** byte [i] of the window [0:n] of a buffer. (Go semantics, for shamir/shamir.go:71-99) *)
Definition loadW (b n i : nat) : prog byte := if i <? n then PLoad b i pret else PDone (Panic PIndex).
(** Go semantics, for shamir/shamir.go:71-99 *)
Definition storeW (b n i : nat) (v : byte) : prog unit := if i <? n then PStore b i v (pret tt) else PDone (Panic PIndex).
(** [w[s:e]] of the window [0:n]: the bounds check. (Go semantics, for shamir/shamir.go:71-99) *)
Definition sliceW (n s e : nat) : prog unit := if (s <=? e) && (e <=? n) then pret tt else PDone (Panic PSlice).

(** bytes [s .. s+l-1] of a buffer. (Go semantics, for shamir/shamir.go:71-99) *)
Fixpoint loadN (b s l : nat) : prog (list byte) :=
  match l with
  | O => pret []
  | S m => PLoad b s (fun v => pdo r <- loadN b (S s) m; pret (v :: r))
  end.
(** Go semantics, for shamir/shamir.go:71-99 *)
Fixpoint storeN (b s : nat) (l : list byte) : prog unit :=
  match l with
  | [] => pret tt
  | v :: r => PStore b s v (storeN b (S s) r)
  end.

(** shamir/polynomial.go:17-34: [buffer] is the window [0:n] of [b]; as Polynomial.v [makePolynomialsWithBuff] *)
Definition setInterceptsP (intercepts : list byte) (degree b n : nat) : prog unit :=
  pforeach (seq 0 (length intercepts))
    (fun p _ =>
       let s := (degree + 1) * p in
       let e := s + degree + 1 in
       pdo _ <- sliceW n s e;
       pdo ip <- PDone (idx intercepts p);
       if 0 <? e - s then PStore b s ip (pret tt) else PDone (Panic PIndex)) tt.
(** [makePolynomialsWithBuff] shamir/polynomial.go:17-34 *)
Definition makePolynomialsWithBuffP (intercepts : list byte) (degree b n : nat) (stream : nat -> byte) : prog unit :=
  pdo _ <- storeN b 0 (take_stream stream n);
  setInterceptsP intercepts degree b n.
(** shamir/polynomial.go:36-55 with csprng/csprng.go:30-33 [Read] (in place) *)
Definition makePolynomialsWithBuffAndRandomizerP (intercepts : list byte) (degree b n : nat) (ks : nat -> byte) : prog unit :=
  pdo _ <- pforeach (seq 0 n) (fun j _ => pdo v <- loadW b n j; storeW b n j (bxor v (ks j))) tt;
  setInterceptsP intercepts degree b n.

(** shamir/polynomial.go:110-122 [transposeMatrixBuffer]: [dest] and [source] are the windows [0:n] of two buffers *)
Definition transposeMatrixBufferP (dest source n rowLen : nat) : prog unit :=
  if rowLen =? 0 then PDone (Panic PDivZero) else
  let colLen := n / rowLen in
  pdo _ <- pforeach (seq 0 n)
    (fun i '(curSourceRow, curSourceCol) =>
       pdo v <- loadW source n (rowLen * curSourceRow + curSourceCol);
       pdo _ <- storeW dest n i v;
       let curSourceRow := curSourceRow + 1 in
       if curSourceRow =? colLen then pret (0, curSourceCol + 1)
       else pret (curSourceRow, curSourceCol)) (0, 0);
  pret tt.

(** shamir/polynomial.go:155-174 [evaluatePolynomialsAtWithCoefficientsBuffer]: the coefficients are the window [0:n] of the
    buffer [cb]. [result] is first a window of the pool buffer; the portable MulConstVector and AddVector work in place, the
    others return newly allocated (private) slices. The new contents of [out] are returned. *)
Definition evaluateP (ar : arch) (growcap : nat -> nat -> nat) (cb n rowLen : nat) (x : byte) (out : list byte) : prog (list byte) :=
  if rowLen =? 0 then PDone (Panic PDivZero) else
  PGet polynomialBufferPool (fun rb =>
  pdo _ <- resetGrowP growcap rb rowLen;
  pdo _ <- bytesP rb rowLen;
  if n / rowLen =? 0 then PDone (Panic PSlice) else
  let degree := n / rowLen - 1 in
  pdo _ <- sliceW n (degree * rowLen) (degree * rowLen + rowLen);
  pdo top <- loadN cb (degree * rowLen) rowLen;
  pdo _ <- storeN rb 0 top;
  pdo loc <- pforeach (rev (seq 0 degree))
    (fun i loc =>
       pdo _ <- sliceW n (i * rowLen) (i * rowLen + rowLen);
       pdo result <- (match loc with Some r => pret r | None => loadN rb 0 rowLen end);
       pdo ci <- loadN cb (i * rowLen) rowLen;
       pdo m <- PDone (MulConstVector ar x result);
       pdo r <- PDone (AddVector ar ci m);
       match ar with
       | ArchGeneric => pdo _ <- storeN rb 0 m; pdo _ <- storeN rb 0 r; pret None
       | _ => pret (Some r)
       end) None;
  pdo result <- (match loc with Some r => pret r | None => loadN rb 0 rowLen end);
  pdo w <- PDone (slice out 0 rowLen);
  PPut polynomialBufferPool rb
  (pret (splice out 0 (gocopy w result)))).

(** shamir/shamir.go:97-100, 229-232 *)
Definition evalLoopP (ar : arch) (growcap : nat -> nat -> nat) (cb n : nat) (N parts : nat) (xs : list byte) (buff : list byte) : prog (list byte) :=
  pforeach (seq 0 parts)
    (fun i buff =>
       let s := (N + 1) * i in
       pdo w <- PDone (slice buff s (s + N + 1));
       pdo x <- PDone (tagOf xs i);
       pdo o <- PDone (slice w 0 N);
       pdo o' <- evaluateP ar growcap cb n N x o;
       pret (splice buff s (splice w 0 o'))) buff.

(** shamir/shamir.go:67-103 and 199-235: from the first [Get] on; [mk] fills the polynomial buffer *)
Definition splitRestP (ar : arch) (growcap : nat -> nat -> nat) (mk : nat -> nat -> nat -> prog unit) (xs : list byte) (buff : list byte)
           (secret : list byte) (parts threshold : Z) : prog (list (list byte)) :=
  let N := length secret in
  let n := Z.to_nat parts in
  let degree := Z.to_nat (threshold - 1) in
  let len := (degree + 1) * N in
  PGet bPool (fun polB =>
  pdo _ <- resetGrowP growcap polB len;
  pdo _ <- bytesP polB len;
  pdo _ <- mk degree polB len;
  PGet bPool (fun trB =>
  pdo _ <- resetGrowP growcap trB len;
  pdo _ <- bytesP trB len;
  pdo _ <- transposeMatrixBufferP trB polB len (degree + 1);
  pdo buff <- evalLoopP ar growcap trB len N n xs buff;
  pdo out <- PDone (windows N n buff);
  PPut bPool trB (PPut bPool polB (pret out)))).

(** shamir/shamir.go:30-104 [Split] *)
Definition SplitProg (ar : arch) (growcap : nat -> nat -> nat) (perm : list nat) (stream : nat -> byte)
           (secret : list byte) (parts threshold : Z) : prog (list (list byte)) :=
  match checkArgs secret parts threshold with
  | Some e => PDone (Fail e)
  | None =>
    pdo buff <- PDone (layoutFlat (length secret) (Z.to_nat parts) (map i2b perm));
    splitRestP ar growcap (fun degree b n => makePolynomialsWithBuffP secret degree b n stream) (map i2b perm) buff secret parts threshold
  end.

(** shamir/shamir.go:162-236 [SplitWithRandomizer] *)
Definition SplitWithRandomizerProg (fuel : nat) (ar : arch) (growcap : nat -> nat -> nat) (ks : nat -> byte)
           (secret : list byte) (parts threshold : Z) : prog (list (list byte)) :=
  match checkArgs secret parts threshold with
  | Some e => PDone (Fail e)
  | None =>
    pdo xs <- PDone (GetUniqueBytes fuel ks (z2b parts));
    pdo buff <- PDone (layoutFlat (length secret) (Z.to_nat parts) xs);
    splitRestP ar growcap (fun degree b n => makePolynomialsWithBuffAndRandomizerP secret degree b n ks) xs buff secret parts threshold
  end.

(** A goroutine that makes one call after the other and records what they return (shares or an error). A panic or an endless loop
    ends it. (calls of shamir/shamir.go:30 and shamir/shamir.go:162) *)
Inductive ccall : Type :=
  | CSplit (perm : list nat) (stream : nat -> byte) (secret : list byte) (parts threshold : Z)
  | CSplitWithRandomizer (fuel : nat) (ks : nat -> byte) (secret : list byte) (parts threshold : Z).

(** shamir/shamir.go:30-104 and shamir/shamir.go:162-236 *)
Definition callProg (ar : arch) (growcap : nat -> nat -> nat) (c : ccall) : prog (list (list byte)) :=
  match c with
  | CSplit perm stream secret parts threshold => SplitProg ar growcap perm stream secret parts threshold
  | CSplitWithRandomizer fuel ks secret parts threshold => SplitWithRandomizerProg fuel ar growcap ks secret parts threshold
  end.
(** a client of shamir/shamir.go:30 and shamir/shamir.go:162 making its calls in order *)
Fixpoint goroutine (ar : arch) (growcap : nat -> nat -> nat) (calls : list ccall) (results : list (outcome (list (list byte))))
  : prog (list (outcome (list (list byte)))) :=
  match calls with
  | [] => pret results
  | c :: r => pseq (callProg ar growcap c) (fun o =>
      match o with
      | Ret _ | Fail _ => goroutine ar growcap r (results ++ [o])
      | _ => PDone (pfail o)
      end)
  end.
