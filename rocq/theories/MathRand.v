(** Model of the generator of math/rand (standard library of Go 1.17, the version of go.mod): the global source that
    [rand.Perm], [rand.Read] and [rand.Seed] use. math/rand is not in /repo; it is called at shamir/shamir.go:49, 257, 309,
    shamir/polynomial.go:21, 63, 208, krawczyk/krawczyk.go:40, csprng/csprng.go:15, 20 and randomizer/randomizer.go:15.
    The theorems of the other files take what these calls deliver as an arbitrary permutation and an arbitrary stream; here
    it is computed from the state of the generator. *)
From Coq Require Import List NArith ZArith Lia Arith Bool.
From Coq.Init Require Import Byte.
From Verif Require Import GoSem Bytes Vector Csprng Pool Polynomial Shamir Libs Krawczyk Worker.
Import ListNotations.

(** math/rand/rng.go [rngSource] (607 words, two indices), and the two fields [readVal], [readPos] of math/rand/rand.go [Rand] that
    keep the unused bytes of the last word. Words are the unsigned readings of int64. (math/rand of Go 1.17, as called at shamir/shamir.go:49, shamir/polynomial.go:21 and csprng/csprng.go:15) *)
Record rng : Type := { r_vec : list N; r_tap : nat; r_feed : nat; r_val : N; r_pos : nat }.

(** [k--; if k < 0 { k += rngLen }]. (math/rand of Go 1.17, as called at shamir/shamir.go:49, shamir/polynomial.go:21 and csprng/csprng.go:15) *)
Definition dec607 (k : nat) : nat := match k with O => 606 | S j => j end.

(** math/rand/rng.go [rngSource.Uint64]. (math/rand of Go 1.17, as called at shamir/shamir.go:49, shamir/polynomial.go:21 and csprng/csprng.go:15) *)
Definition rngUint64 (r : rng) : N * rng :=
  let tap := dec607 (r_tap r) in
  let feed := dec607 (r_feed r) in
  let x := ((nth feed (r_vec r) 0 + nth tap (r_vec r) 0) mod 2 ^ 64)%N in
  (x, {| r_vec := firstn feed (r_vec r) ++ x :: skipn (S feed) (r_vec r); r_tap := tap; r_feed := feed;
         r_val := r_val r; r_pos := r_pos r |}).

(** math/rand/rng.go [rngSource.Int63]: the low 63 bits. (math/rand of Go 1.17, as called at shamir/shamir.go:49, shamir/polynomial.go:21 and csprng/csprng.go:15) *)
Definition rngInt63 (r : rng) : N * rng := let (x, r') := rngUint64 r in ((x mod 2 ^ 63)%N, r').

(** math/rand/rand.go [read], one iteration of its loop: a new word when no byte is left, 7 bytes per word, lowest first. (math/rand of Go 1.17, as called at shamir/shamir.go:49, shamir/polynomial.go:21 and csprng/csprng.go:15) *)
Definition rngByte (r : rng) : byte * rng :=
  let r := if r_pos r =? 0
           then let (x, r') := rngInt63 r in
                {| r_vec := r_vec r'; r_tap := r_tap r'; r_feed := r_feed r'; r_val := x; r_pos := 7 |}
           else r in
  (n2b (r_val r), {| r_vec := r_vec r; r_tap := r_tap r; r_feed := r_feed r; r_val := (r_val r / 256)%N; r_pos := r_pos r - 1 |}).

(** math/rand/rand.go [Rand.Read] for a buffer of [n] bytes. (math/rand of Go 1.17, as called at shamir/shamir.go:49, shamir/polynomial.go:21 and csprng/csprng.go:15) *)
Fixpoint rngRead (n : nat) (r : rng) : list byte * rng :=
  match n with
  | O => ([], r)
  | S m => let (b, r1) := rngByte r in let (l, r2) := rngRead m r1 in (b :: l, r2)
  end.

(** the generator after [i] bytes have been read, and byte [i] of what successive calls of [Read] deliver. (math/rand of Go 1.17, as called at shamir/shamir.go:49, shamir/polynomial.go:21 and csprng/csprng.go:15) *)
Definition rngSkip (i : nat) (r : rng) : rng := Nat.iter i (fun r => snd (rngByte r)) r.
(** math/rand of Go 1.17, as called at shamir/shamir.go:49, shamir/polynomial.go:21 and csprng/csprng.go:15 *)
Definition rngStream (r : rng) (i : nat) : byte := fst (rngByte (rngSkip i r)).

(** math/rand/rand.go [Rand.Int31]. (math/rand of Go 1.17, as called at shamir/shamir.go:49, shamir/polynomial.go:21 and csprng/csprng.go:15) *)
Definition rngInt31 (r : rng) : N * rng := let (x, r') := rngInt63 r in ((x / 2 ^ 32)%N, r').

(** math/rand/rand.go [Rand.Int31n]: the loop [for v > max { v = r.Int31() }]. (math/rand of Go 1.17, as called at shamir/shamir.go:49, shamir/polynomial.go:21 and csprng/csprng.go:15) *)
Fixpoint rngReject (fuel : nat) (max : N) (r : rng) : outcome (N * rng) :=
  let (v, r') := rngInt31 r in
  if (max <? v)%N then match fuel with O => Diverge | S f => rngReject f max r' end else Ret (v, r').
(** math/rand/rand.go [Rand.Int31n], for n > 0 ([Intn] calls it for n < 2^31). (math/rand of Go 1.17, as called at shamir/shamir.go:49, shamir/polynomial.go:21 and csprng/csprng.go:15) *)
Definition rngIntn (fuel : nat) (r : rng) (n : N) : outcome (N * rng) :=
  if (N.land n (n - 1) =? 0)%N then
    let (v, r') := rngInt31 r in Ret (N.land v (n - 1), r')
  else
    do '(v, r') <- rngReject fuel (2 ^ 31 - 1 - 2 ^ 31 mod n) r;
    Ret ((v mod n)%N, r').

(** math/rand/rand.go [Rand.Perm]. (math/rand of Go 1.17, as called at shamir/shamir.go:49, shamir/polynomial.go:21 and csprng/csprng.go:15) *)
Definition rngPerm (fuel : nat) (r : rng) (n : nat) : outcome (list nat * rng) :=
  foreach (seq 0 n)
    (fun i '(m, r) =>
       do '(j, r) <- rngIntn fuel r (N.of_nat (i + 1));
       do mj <- idx m (N.to_nat j);
       do m <- upd m i mj;
       do m <- upd m (N.to_nat j) i;
       Ret (m, r)) (repeat 0 n, r).

(** math/rand/rng.go [seedrand]: 48271 * x mod (2^31 - 1). (math/rand of Go 1.17, as called at shamir/shamir.go:49, shamir/polynomial.go:21 and csprng/csprng.go:15) *)
Definition seedrand (x : Z) : Z :=
  let hi := (x / 44488)%Z in
  let lo := (x mod 44488)%Z in
  let x := (48271 * lo - 3399 * hi)%Z in
  if (x <? 0)%Z then (x + 2147483647)%Z else x.

(** math/rand/rng.go [rngSource.Seed], the loop that fills the words from the table [rngCooked]. (math/rand of Go 1.17, as called at shamir/shamir.go:49, shamir/polynomial.go:21 and csprng/csprng.go:15) *)
Fixpoint seedWords (cooked : list N) (x : Z) : list N :=
  match cooked with
  | [] => []
  | c :: rest =>
    let x1 := seedrand x in
    let x2 := seedrand x1 in
    let x3 := seedrand x2 in
    N.lxor (N.lxor (N.lxor (Z.to_N x1 * 2 ^ 40 mod 2 ^ 64) (Z.to_N x2 * 2 ^ 20)) (Z.to_N x3)) c :: seedWords rest x3
  end%N.
(** math/rand/rng.go [rngSource.Seed]: how the seed is reduced. (math/rand of Go 1.17, as called at shamir/shamir.go:49, shamir/polynomial.go:21 and csprng/csprng.go:15) *)
Definition seedReduce (seed : Z) : Z :=
  let s := Z.rem seed 2147483647 in
  let s := (if s <? 0 then s + 2147483647 else s)%Z in
  if (s =? 0)%Z then 89482311%Z else s.
(** math/rand/rand.go [Rand.Seed]; [cooked] is the table [rngCooked] of 607 words. csprng/csprng.go:14-16 calls it with the time. *)
Definition rngSeed (cooked : list N) (seed : Z) : rng :=
  {| r_vec := seedWords cooked (Nat.iter 20 seedrand (seedReduce seed)); r_tap := 0; r_feed := 334; r_val := 0; r_pos := 0 |}.

(** ** The callers, with this generator: what they return and the generator they leave behind *)

(** shamir/shamir.go:30-104 [Split] *)
Definition SplitRand (fuel : nat) (ar : arch) (growcap : nat -> nat -> nat) (polB trB : bbuf) (evBufs : nat -> bbuf) (r : rng)
           (secret : list byte) (parts threshold : Z) : outcome (list (list byte) * rng) :=
  match checkArgs secret parts threshold with
  | Some e => Fail e
  | None =>
    do '(perm, r1) <- rngPerm fuel r 255;
    do out <- Split ar growcap perm (rngStream r1) polB trB evBufs secret parts threshold;
    Ret (out, rngSkip (Z.to_nat threshold * length secret) r1)
  end.

(** shamir/shamir.go:238-288 [SplitGeneric] *)
Definition SplitGenericRand (fuel : nat) (r : rng) (secret : list byte) (parts threshold : Z) : outcome (list (list byte) * rng) :=
  match checkArgs secret parts threshold with
  | Some e => Fail e
  | None =>
    do '(perm, r1) <- rngPerm fuel r 255;
    do out <- SplitGeneric perm (rngStream r1) secret parts threshold;
    Ret (out, rngSkip ((Z.to_nat threshold - 1) * length secret) r1)
  end.

(** krawczyk/krawczyk.go:21-89 [Split]: the checks of lines 22-36, the key of lines 38-43, then shamir.Split (line 74), which draws only
    when the arguments are valid. The generator left behind is not tracked here. *)
Definition krSplitRand (fuel : nat) (E : blockCipher) (zp : bool) (ar : arch) (growcap : nat -> nat -> nat)
           (polB trB : bbuf) (evBufs : nat -> bbuf) (r : rng) (secret : list byte) (parts threshold : Z) : outcome (list (list byte)) :=
  krSplitWith E zp (take_stream (rngStream r) LenKey)
    (fun s n t => do '(out, _) <- SplitRand fuel ar growcap polB trB evBufs (rngSkip LenKey r) s n t; Ret out) secret parts threshold.

(** csprng/csprng.go:18-23 [NewCSPRNG] and worker/worker.go:18-22 [NewWorker]: the key stream of the new generator *)
Definition NewCSPRNGRand (E : blockCipher) (r : rng) : (nat -> byte) * rng :=
  (NewCSPRNG E (rngStream r), rngSkip 32 r).
