(** Proofs about how often the random strings are good: exact counts for the randomizer splits and Regenerate (C84).
    Generated from Pf39.v by tools/genprops.py: every theorem is proved there as the lemma of the same name with suffix _pf. *)
From Coq Require Import List NArith ZArith Lia Arith Bool Permutation.
From Coq.Init Require Import Byte.
From Verif Require Import GoSem Bytes Spec Vector Csprng Pool Polynomial Shamir SplitP SpecFrequency ExData Pf39.
Import ListNotations.

(** C84: With fewer than 20 parts, exactly [returning_keys parts] of the strings that the first [parts] bytes of the key stream can be let SplitWithRandomizer
    return (counted over all strings of any sufficient length), exactly [usable_keys parts] let it return without a share of tag 0,
    and with all others it never returns. *)
Theorem C84_few_parts : forall fuel ar growcap polB trB evBufs secret parts threshold M,
  grow_ok growcap -> valid_args secret parts threshold -> (parts < 20)%Z -> 1 <= fuel -> Z.to_nat parts <= M ->
  let n := Z.to_nat parts in
  let call fuel r := SplitWithRandomizer fuel ar growcap (stream_of r) polB trB evBufs secret parts threshold in
  N.of_nat (count (fun r => returns (call fuel r)) (all_strings M)) = (returning_keys n * 256 ^ N.of_nat (M - n))%N /\
  N.of_nat (count (fun r => no_zero_tag (call fuel r)) (all_strings M)) = (usable_keys n * 256 ^ N.of_nat (M - n))%N /\
  forall r, returns (call fuel r) = false -> forall fuel', call fuel' r = Diverge.
Proof. exact C84_few_parts_pf. Qed.
Print Assumptions C84_few_parts.

(** C84: With 20 or more parts, SplitWithRandomizer panics for exactly one of 256 key streams, and so does SplitWithRandomizerOld with any number of
    parts; for all others they return shares without tag 0. *)
Theorem C84_many_parts : forall fuel ar growcap polB trB evBufs secret parts threshold M,
  grow_ok growcap -> valid_args secret parts threshold ->
  let new r := SplitWithRandomizer fuel ar growcap (stream_of r) polB trB evBufs secret parts threshold in
  let old r := SplitWithRandomizerOld ar growcap (stream_of r) evBufs secret parts threshold in
  ((20 <= parts)%Z -> count (fun r => panics (new r)) (all_strings (S M)) = 256 ^ M /\
     forall r, panics (new r) = false -> no_zero_tag (new r) = true) /\
  count (fun r => panics (old r)) (all_strings (S M)) = 256 ^ M /\
  forall r, panics (old r) = false -> no_zero_tag (old r) = true.
Proof. exact C84_many_parts_pf. Qed.
Print Assumptions C84_many_parts.

(** C84: Regenerate on acceptable parts, asked for [k] shares: exactly (256 - d)(255 - d)...(257 - d - k) of the 256^k strings that it can draw give shares
    that can be handed out next to the parts, where [d] byte values are 0 or a tag of the parts. (This holds whatever the replacement bytes.) *)
Theorem C84_regenerate : forall fuel u parts k, acceptable parts ->
  N.of_nat (count (fun r => fresh_shares parts (Regenerate fuel (stream_of r) u parts (Z.of_nat k))) (all_strings k)) =
  falling (256 - taken_tags parts) k.
Proof. exact C84_regenerate_pf. Qed.
Print Assumptions C84_regenerate.

(** C84: If there are enough byte values left, Regenerate returns for all strings, and exactly 256^k - 255^k of them give a share of tag 0, which holds
    the secret. *)
Theorem C84_regenerate_zero : forall u parts k, acceptable parts -> length parts + k <= 256 -> recurring u ->
  exists F, forall fuel, F <= fuel ->
  let call r := Regenerate fuel (stream_of r) u parts (Z.of_nat k) in
  count (fun r => returns (call r)) (all_strings k) = 256 ^ k /\
  count (fun r => zero_tag (call r)) (all_strings k) + 255 ^ k = 256 ^ k.
Proof. exact C84_regenerate_zero_pf. Qed.
Print Assumptions C84_regenerate_zero.

(** C84: The numbers, in thousandths of a percent (rounded down): SplitWithRandomizer never returns for 75 of 100000 key streams with 5 parts and for 5472 with 19 parts (with 2
    parts, for one of 65536 key streams); it returns no shares or a share of tag 0 for 2021 and 12468 of 100000. Ten shares made by Regenerate for
    a sharing of 5 parts (tags not 0) are not all fresh for 34261 of 100000 strings. *)
Theorem C84_percent :
  let lost a n := (100000 * (256 ^ n - a) / 256 ^ n)%N in
  (returning_keys 2 = 256 ^ 2 - 1)%N /\
  lost (returning_keys 5) 5%N = 75%N /\ lost (returning_keys 19) 19%N = 5472%N /\
  lost (usable_keys 5) 5%N = 2021%N /\ lost (usable_keys 19) 19%N = 12468%N /\
  lost (falling (256 - 6) 10) 10%N = 34261%N.
Proof. exact C84_percent_pf. Qed.
Print Assumptions C84_percent.

(** The hypotheses are met: a split into 5 parts on pools with old contents, and Regenerate on two shares with tags 1 and 2. One key stream for each of
    the three outcomes with 5 parts. *)
Example C84_case : grow_ok growcap117 /\ valid_args ex_secret 5 3 /\ acceptable [[x05; x01]; [x06; x02]] /\ taken_tags [[x05; x01]; [x06; x02]] = 3%N /\
  let call r := SplitWithRandomizer 1 ex_ar growcap117 (stream_of r) ex_stale ex_stale ex_ev ex_secret 5 3 in
  hangs (call [x17; x17; x17; x04; x05]) = true /\ zero_tag (call [x17; x02; xff; x04; x05]) = true /\ no_zero_tag (call [x17; x02; x03; x03; x05]) = true /\
  fresh_shares [[x05; x01]; [x06; x02]] (Regenerate 3 (stream_of [x07; x09]) (fun _ => x07) [[x05; x01]; [x06; x02]] 2) = true /\
  fresh_shares [[x05; x01]; [x06; x02]] (Regenerate 3 (stream_of [x07; x02]) (fun _ => x08) [[x05; x01]; [x06; x02]] 2) = false.
Proof.
  split; [exact ex_grow|]. split; [split; [discriminate|cbn; lia]|]. split.
  { split; [cbn; lia|]. split; [cbn; lia|]. split; [intros p [<-|[<-|[]]]; reflexivity|]. cbn. repeat (constructor; [cbn; intuition discriminate|]). constructor. }
  repeat split; vm_compute; reflexivity.
Qed.
