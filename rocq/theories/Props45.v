(** Proofs about the bias of CSPRNG.Perm, and of the tags drawn with it (C90).
    Generated from Pf45.v by tools/genprops.py: every theorem is proved there as the lemma of the same name with suffix _pf. *)
From Coq Require Import List NArith ZArith Lia Arith Bool Permutation.
From Coq.Init Require Import Byte.
From Verif Require Import GoSem Bytes Spec SpecBias Vector Csprng Pool Polynomial Shamir SpecFrequency ExData Pf45.
Import ListNotations.

(** C90: Of the 256 byte values, 256/n leave a given remainder modulo [n], and one more if the remainder is less than 256 mod n. *)
Theorem C90_remainders : forall n r, 0 < n -> r < n -> remainders n r = 256 / n + (if r <? 256 mod n then 1 else 0).
Proof. exact C90_remainders_pf. Qed.
Print Assumptions C90_remainders.

Example C90_remainders_case : remainders 255 0 = 2 /\ remainders 255 254 = 1 /\ remainders 100 55 = 3 /\ remainders 100 56 = 2.
Proof. vm_compute. auto. Qed.

(** C90: Perm(n), n >= 3: the first element is 0 for no key stream, and it is v (0 < v < n) for exactly those whose first byte has remainder v-1; with
    remainder n-1 it panics. Counted over all strings of any positive length that the key stream can begin with. *)
Theorem C90_first : forall n M, 3 <= b2i n ->
  count (fun r => perm_panics (Perm (stream_of r) n)) (all_strings (S M)) = remainders (b2i n) (b2i n - 1) * 256 ^ M /\
  count (fun r => starts_with 0 (Perm (stream_of r) n)) (all_strings (S M)) = 0 /\
  forall v, 0 < v -> v < b2i n -> count (fun r => starts_with v (Perm (stream_of r) n)) (all_strings (S M)) = remainders (b2i n) (v - 1) * 256 ^ M.
Proof. exact C90_first_pf. Qed.
Print Assumptions C90_first.

(** C90: Perm(n), n >= 4: the last element is n-1 for exactly this many key streams. In a uniform shuffle it would be one in n. *)
Theorem C90_last : forall n M, 4 <= b2i n ->
  count (fun r => ends_with (b2i n - 1) (Perm (stream_of r) n)) (all_strings (S (S M))) =
  (256 - remainders (b2i n) (b2i n - 2) - remainders (b2i n) (b2i n - 1)) * ((256 - remainders (b2i n - 1) (b2i n - 2)) * 256 ^ M).
Proof. exact C90_last_pf. Qed.
Print Assumptions C90_last.

(** All 65536 two-byte beginnings for n = 4: the last element stays in 2 * 64 * 171 of them, a third. *)
Example C90_last_case : (256 - remainders 4 2 - remainders 4 3) * (256 - remainders 3 2) = 2 * 64 * 171 /\
  ends_with 3 (Perm (fun _ => x00) x04) = true /\ ends_with 3 (Perm (fun _ => x02) x04) = false /\ starts_with 1 (Perm (fun _ => x00) x04) = true.
Proof. vm_compute. auto. Qed.

(** C90: SplitWithRandomizer with 20 or more parts: the first share has tag 2 for two of 256 key streams, each tag from 3 to 255 for one of 256, and never tag 1;
    with 255 parts the last share has tag 255 for 254 * 255 of 65536 key streams. *)
Theorem C90_split : forall fuel ar growcap polB trB evBufs secret parts threshold M,
  grow_ok growcap -> valid_args secret parts threshold -> (20 <= parts)%Z ->
  let call r := SplitWithRandomizer fuel ar growcap (stream_of r) polB trB evBufs secret parts threshold in
  count (fun r => share_tag 0 2 (call r)) (all_strings (S M)) = 2 * 256 ^ M /\
  (forall v, 3 <= v <= 255 -> count (fun r => share_tag 0 v (call r)) (all_strings (S M)) = 256 ^ M) /\
  (forall v, v < 2 \/ 255 < v -> count (fun r => share_tag 0 v (call r)) (all_strings (S M)) = 0) /\
  (parts = 255%Z -> count (fun r => share_tag 254 255 (call r)) (all_strings (S (S M))) = 254 * (255 * 256 ^ M)).
Proof. exact C90_split_pf. Qed.
Print Assumptions C90_split.

(** C90: SplitWithRandomizerOld: the same, with any number of parts. *)
Theorem C90_split_old : forall ar growcap evBufs secret parts threshold M,
  grow_ok growcap -> valid_args secret parts threshold ->
  let call r := SplitWithRandomizerOld ar growcap (stream_of r) evBufs secret parts threshold in
  count (fun r => share_tag 0 2 (call r)) (all_strings (S M)) = 2 * 256 ^ M /\
  (forall v, 3 <= v <= 255 -> count (fun r => share_tag 0 v (call r)) (all_strings (S M)) = 256 ^ M) /\
  (forall v, v < 2 \/ 255 < v -> count (fun r => share_tag 0 v (call r)) (all_strings (S M)) = 0) /\
  (parts = 255%Z -> count (fun r => share_tag 254 255 (call r)) (all_strings (S (S M))) = 254 * (255 * 256 ^ M)).
Proof. exact C90_split_old_pf. Qed.
Print Assumptions C90_split_old.

Example C90_case : share_tag 0 2 (SplitWithRandomizerOld ex_ar growcap117 (fun _ => x00) ex_ev ex_secret 5 3) = true /\
  share_tag 0 3 (SplitWithRandomizerOld ex_ar growcap117 (fun _ => x01) ex_ev ex_secret 5 3) = true.
Proof. vm_compute. auto. Qed.
