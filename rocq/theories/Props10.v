(** Theorems: the properties of the split functions run with the generator of math/rand (C51-C53).
    Generated from Pf10.v by tools/genprops.py: every theorem is proved there as the lemma of the same name with suffix _pf. *)
From Coq Require Import List NArith ZArith Lia Arith Bool Permutation.
From Coq.Init Require Import Byte.
From Verif Require Import GoSem Bytes Spec SpecRand SpecKr Vector Csprng Pool Polynomial Shamir Libs AES Krawczyk Worker MathRand ExData Pf10.
Import ListNotations.

(** C51: in every state the generator of math/rand can be in, [rand.Perm(255)] ends (its rejection loop is unbounded) and
    returns a permutation. *)
Theorem C51_perm : forall cooked r, length cooked = 607 -> reachable cooked r ->
  exists F perm r', Permutation perm (seq 0 255) /\ reachable cooked r' /\
    forall fuel, F <= fuel -> rngPerm fuel r 255 = Ret (perm, r').
Proof. exact C51_perm_pf. Qed.
Print Assumptions C51_perm.

(** C51: so Split, run with that generator, always returns, and its shares combine; the generator it leaves behind is again
    a state in which all this holds. *)
Theorem C51_split : forall cooked r ar growcap polB trB evBufs secret parts threshold,
  length cooked = 607 -> reachable cooked r -> grow_ok growcap -> valid_args secret parts threshold ->
  exists F shares r', reachable cooked r' /\ length shares = Z.to_nat parts /\
    (forall fuel, F <= fuel -> SplitRand fuel ar growcap polB trB evBufs r secret parts threshold = Ret (shares, r')) /\
    forall is, selection (Z.to_nat parts) (Z.to_nat threshold) is -> Combine (pick [] shares is) = Ret secret.
Proof. exact C51_split_pf. Qed.
Print Assumptions C51_split.

(** C51: the same for SplitGeneric. *)
Theorem C51_splitgeneric : forall cooked r secret parts threshold,
  length cooked = 607 -> reachable cooked r -> valid_args secret parts threshold ->
  exists F shares r', reachable cooked r' /\ length shares = Z.to_nat parts /\
    (forall fuel, F <= fuel -> SplitGenericRand fuel r secret parts threshold = Ret (shares, r')) /\
    forall is, selection (Z.to_nat parts) (Z.to_nat threshold) is -> Combine (pick [] shares is) = Ret secret.
Proof. exact C51_splitgeneric_pf. Qed.
Print Assumptions C51_splitgeneric.

(** C51: the same for krawczyk.Split. *)
Theorem C51_krawczyk : forall cooked r E zp rd ar growcap polB trB evBufs secret parts threshold,
  length cooked = 607 -> reachable cooked r -> (forall i, 0 < rd i) -> grow_ok growcap -> kr_valid_args zp secret parts threshold ->
  exists F shares, length shares = Z.to_nat parts /\
    (forall fuel, F <= fuel -> krSplitRand fuel E zp ar growcap polB trB evBufs r secret parts threshold = Ret shares) /\
    forall ss is, selection (Z.to_nat parts) (Z.to_nat threshold) is -> somes ss = pick [] shares is ->
      krCombine E zp rd ss parts threshold = Ret secret.
Proof. exact C51_krawczyk_pf. Qed.
Print Assumptions C51_krawczyk.

(** a stand-in for the table of math/rand *)
Definition ex_cooked : list N := map (fun i => (N.of_nat i * N.of_nat i + 1)%N) (seq 1 607).
(** the hypotheses hold for a seeded generator: 2 of 3, shares 2 and 0 *)
Example C51_run : exists F shares r', reachable ex_cooked r' /\
  (forall fuel, F <= fuel -> SplitRand fuel ex_ar growcap117 ex_stale ex_stale ex_ev (rngSeed ex_cooked 42) ex_secret 3 2 = Ret (shares, r')) /\
  Combine (pick [] shares [2; 0]) = Ret ex_secret.
Proof.
  destruct (C51_split ex_cooked (rngSeed ex_cooked 42) ex_ar growcap117 ex_stale ex_stale ex_ev ex_secret 3 2) as (F & shares & r' & R & _ & E & C).
  - unfold ex_cooked. rewrite map_length. apply seq_length.
  - constructor.
  - exact ex_grow.
  - repeat split; try discriminate.
  - exists F, shares, r'. split; [exact R|]. split; [exact E|]. apply C. split; [repeat constructor; cbn; lia|]. split; [|cbn; lia].
    intros i [<-|[<-|[]]]; cbn; lia.
Qed.

(** C52: the byte stream of [rand.Read] obeys a public linear recurrence: as numbers of 7 bytes, every block is the sum of the
    blocks 607 and 273 places back. *)
Theorem C52_recurrence : forall cooked r n, length cooked = 607 -> reachable cooked r -> r_pos r = 0 -> 607 <= n ->
  word56 (rngStream r) n = ((word56 (rngStream r) (n - 607) + word56 (rngStream r) (n - 273)) mod 2 ^ 56)%N.
Proof. exact C52_recurrence_pf. Qed.
Print Assumptions C52_recurrence.

(** C52: threshold - 1 shares of SplitGeneric and a known prefix of the secret of about 4256 / (threshold - 1) bytes determine the
    whole secret, however long it is: two runs that show the same to the coalition have the same secret. *)
Theorem C52_generic_broken : forall cooked fuel1 fuel2 r1 r2 secret1 secret2 parts threshold shares1 shares2 r1' r2' is K,
  length cooked = 607 -> reachable cooked r1 -> reachable cooked r2 -> r_pos r1 = r_pos r2 ->
  SplitGenericRand fuel1 r1 secret1 parts threshold = Ret (shares1, r1') ->
  SplitGenericRand fuel2 r2 secret2 parts threshold = Ret (shares2, r2') ->
  NoDup is -> (forall i, In i is -> i < Z.to_nat parts) -> S (length is) = Z.to_nat threshold ->
  pick [] shares1 is = pick [] shares2 is ->
  r_pos r1 + 4249 <= length is * K -> firstn K secret1 = firstn K secret2 ->
  secret1 = secret2.
Proof. exact C52_generic_broken_pf. Qed.
Print Assumptions C52_generic_broken.

(** C52: Split wastes one random byte per polynomial, which breaks the recurrence for the wasted bytes only. For every threshold that
    divides neither 4250 nor 1912, threshold - 1 shares and two secret bytes determine a third: wherever the leading coefficient of
    polynomial [p] is the lowest byte of a word of the generator. *)
Theorem C52_split_broken : forall cooked fuel1 fuel2 ar growcap polB1 trB1 evBufs1 polB2 trB2 evBufs2 r1 r2 secret1 secret2 parts threshold
    shares1 shares2 r1' r2' is t p n,
  length cooked = 607 -> reachable cooked r1 -> reachable cooked r2 -> r_pos r1 = r_pos r2 -> grow_ok growcap ->
  SplitRand fuel1 ar growcap polB1 trB1 evBufs1 r1 secret1 parts threshold = Ret (shares1, r1') ->
  SplitRand fuel2 ar growcap polB2 trB2 evBufs2 r2 secret2 parts threshold = Ret (shares2, r2') ->
  t = Z.to_nat threshold -> NoDup is -> (forall i, In i is -> i < Z.to_nat parts) -> S (length is) = t ->
  pick [] shares1 is = pick [] shares2 is ->
  4250 mod t <> 0 -> 1912 mod t <> 0 ->
  p < length secret1 -> t * p + (t - 1) = r_pos r1 + 7 * n -> 607 <= n ->
  let q1 := (t * (p + 1) - 4250) / t in
  let q2 := (t * (p + 1) - 1912) / t in
  nth q1 secret1 x00 = nth q1 secret2 x00 -> nth q2 secret1 x00 = nth q2 secret2 x00 ->
  nth p secret1 x00 = nth p secret2 x00.
Proof. exact C52_split_broken_pf. Qed.
Print Assumptions C52_split_broken.

(** C52: threshold 2: one share and three secret bytes give a fourth, by this formula. [c1], [c2], [c3] are computed from the share and
    the three known bytes. *)
Theorem C52_one_share_formula : forall cooked fuel ar growcap polB trB evBufs r secret parts shares r' i j n c1 c2 c3,
  length cooked = 607 -> reachable cooked r -> grow_ok growcap ->
  SplitRand fuel ar growcap polB trB evBufs r secret parts 2 = Ret (shares, r') -> i < Z.to_nat parts ->
  j < length secret -> 2 * j + 1 = r_pos r + 7 * n -> 1214 <= n ->
  let s := nth i shares [] in
  slope (tag s) (nth (j - 4249) s x00) (nth (j - 4249) secret x00) c1 ->
  slope (tag s) (nth (j - 3080) s x00) (nth (j - 3080) secret x00) c2 ->
  slope (tag s) (nth (j - 1911) s x00) (nth (j - 1911) secret x00) c3 ->
  nth j secret x00 = gadd (nth j s x00) (gmul (tag s) (badd (badd c1 (badd c2 c2)) c3)).
Proof. exact C52_one_share_formula_pf. Qed.
Print Assumptions C52_one_share_formula.

(** the hypotheses hold for long secrets: from every seed, with 5000 bytes of which 4249 are known, and a coalition of one *)
Example C52_long_runs : forall cooked seed, length cooked = 607 ->
  exists fuel shares r', SplitGenericRand fuel (rngSeed cooked seed) (repeat x41 5000) 3 2 = Ret (shares, r') /\
    r_pos (rngSeed cooked seed) + 4249 <= length [1] * 4249 /\ NoDup [1] /\ S (length [1]) = Z.to_nat 2 /\
    firstn 4249 (repeat x41 5000) <> repeat x41 5000.
Proof.
  intros cooked seed L.
  assert (V : valid_args (repeat x41 5000) 3 2) by (split; [discriminate|]; lia).
  destruct (C51_splitgeneric cooked (rngSeed cooked seed) (repeat x41 5000) 3 2 L (seeded _ _) V) as (F & shares & r' & _ & _ & E & _).
  exists F, shares, r'. split; [apply E; lia|]. split; [cbn [r_pos rngSeed length]; lia|]. split; [constructor; [intros []|constructor]|].
  split; [reflexivity|]. intros Q. apply (f_equal (@length byte)) in Q. rewrite firstn_length, repeat_length in Q. lia.
Qed.
(** threshold 3: byte 1999 from bytes 583 and 1362; threshold 2: byte 4249 from bytes 0, 1169 and 2338 *)
Example C52_places : 4250 mod 3 <> 0 /\ 1912 mod 3 <> 0 /\ 3 * 1999 + (3 - 1) = 0 + 7 * 857 /\
  (3 * (1999 + 1) - 4250) / 3 = 583 /\ (3 * (1999 + 1) - 1912) / 3 = 1362 /\
  2 * 4249 + 1 = 1 + 7 * 1214 /\ 4249 - 4249 = 0 /\ 4249 - 3080 = 1169 /\ 4249 - 1911 = 2338.
Proof. repeat split; try discriminate; vm_compute; reflexivity. Qed.

(** C53: seeds that agree modulo 2^31 - 1 give the same generator, and whatever is computed from the generator and nothing else takes
    at most 2^31 - 2 values over all seeds. *)
Theorem C53_seed_classes : forall cooked s s', (s mod 2147483647 = s' mod 2147483647)%Z -> rngSeed cooked s = rngSeed cooked s'.
Proof. exact C53_seed_classes_pf. Qed.
Print Assumptions C53_seed_classes.

Theorem C53_few_results : forall (A : Type) cooked (f : rng -> A) (results : list A), NoDup results ->
  (forall a, In a results -> exists seed, f (rngSeed cooked seed) = a) -> (Z.of_nat (length results) <= seed_count)%Z.
Proof. exact C53_few_results_pf. Qed.
Print Assumptions C53_few_results.

(** C53: after one share of Split has been seen, at most 2^31 - 2 secrets remain possible, whatever the length of the secret and the
    threshold: for any use [prior] the program made of the generator before. *)
Theorem C53_few_secrets : forall cooked (prior : rng -> rng) ar growcap parts threshold share candidates, grow_ok growcap -> NoDup candidates ->
  (forall s, In s candidates -> exists seed fuel polB trB evBufs shares r',
     SplitRand fuel ar growcap polB trB evBufs (prior (rngSeed cooked seed)) s parts threshold = Ret (shares, r') /\ In share shares) ->
  (Z.of_nat (length candidates) <= seed_count)%Z.
Proof. exact C53_few_secrets_pf. Qed.
Print Assumptions C53_few_secrets.

(** C53: a generator made by NewCSPRNG inherits this: over all seeds, at most 2^31 - 2 first [n] bytes of its key stream, and for a given
    secret at most 2^31 - 2 outcomes of SplitWithRandomizer with it. *)
Theorem C53_csprng : forall cooked (prior : rng -> rng) E,
  (forall n streams, NoDup streams ->
    (forall b, In b streams -> exists seed, b = take_stream (fst (NewCSPRNGRand E (prior (rngSeed cooked seed)))) n) ->
    (Z.of_nat (length streams) <= seed_count)%Z) /\
  (forall fuel ar growcap polB trB evBufs secret parts threshold outcomes, NoDup outcomes ->
    (forall o, In o outcomes -> exists seed, o = SplitWithRandomizer fuel ar growcap (fst (NewCSPRNGRand E (prior (rngSeed cooked seed))))
                                                   polB trB evBufs secret parts threshold) ->
    (Z.of_nat (length outcomes) <= seed_count)%Z).
Proof. exact C53_csprng_pf. Qed.
Print Assumptions C53_csprng.

(** C53: NewCSPRNG uses up exactly 32 bytes of the generator, Split and SplitGeneric threshold, respectively threshold - 1, bytes per byte of secret
    after the permutation: the next call goes on with the next byte, so no byte is used for two calls. *)
Theorem C53_next_bytes : 
  (forall E r i, rngStream (snd (NewCSPRNGRand E r)) i = rngStream r (32 + i)) /\
  (forall fuel ar growcap polB trB evBufs r secret parts threshold shares r' i,
     SplitRand fuel ar growcap polB trB evBufs r secret parts threshold = Ret (shares, r') ->
     exists perm r1, rngPerm fuel r 255 = Ret (perm, r1) /\ Split ar growcap perm (rngStream r1) polB trB evBufs secret parts threshold = Ret shares /\
       rngStream r' i = rngStream r1 (Z.to_nat threshold * length secret + i)) /\
  (forall fuel r secret parts threshold shares r' i,
     SplitGenericRand fuel r secret parts threshold = Ret (shares, r') ->
     exists perm r1, rngPerm fuel r 255 = Ret (perm, r1) /\ SplitGeneric perm (rngStream r1) secret parts threshold = Ret shares /\
       rngStream r' i = rngStream r1 ((Z.to_nat threshold - 1) * length secret + i)).
Proof. exact C53_next_bytes_pf. Qed.
Print Assumptions C53_next_bytes.

(** C53: the seeding works with x -> 48271 x modulo the prime 2^31 - 1, and never leaves 1 .. 2^31 - 2; no seed is lost in the reduction except
    that multiples of the modulus count as 89482311. *)
Theorem C53_seedrand :
  (forall x, (1 <= x < 2147483647)%Z -> seedrand x = ((48271 * x) mod 2147483647)%Z /\ (1 <= seedrand x < 2147483647)%Z) /\
  (forall seed, (1 <= seedReduce seed < 2147483647)%Z) /\
  (forall seed, (seed mod 2147483647 <> 0)%Z -> seedReduce seed = (seed mod 2147483647)%Z) /\
  (forall seed, (seed mod 2147483647 = 0)%Z -> seedReduce seed = 89482311%Z).
Proof. exact C53_seedrand_pf. Qed.
Print Assumptions C53_seedrand.

Example C53_seed_case : seedReduce (-5) = 2147483642%Z /\ seedrand 2147483642 = 2147242292%Z /\ ((48271 * 2147483642) mod 2147483647 = 2147242292)%Z.
Proof. vm_compute. repeat split. Qed.
(** seeds one modulus apart give the same shares; secrets of 4 bytes already outnumber the candidates *)
Example C53_same_shares : rngSeed ex_cooked 1637151600000000000 = rngSeed ex_cooked (1637151600000000000 + 2147483647).
Proof. apply C53_seed_classes. vm_compute. reflexivity. Qed.
Example C53_fewer_than_secrets : (seed_count < 256 ^ 4)%Z.
Proof. vm_compute. reflexivity. Qed.
Example C53_seeds_differ : rngSeed ex_cooked 1 <> rngSeed ex_cooked 2.
Proof. intros H. apply (f_equal (fun r => nth 0 (r_vec r) 0%N)) in H. vm_compute in H. discriminate. Qed.
