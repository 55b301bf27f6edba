(** Proofs about detecting and correcting altered shares with nothing but Combine (C82).
    Generated from Pf36.v by tools/genprops.py: every theorem is proved there as the lemma of the same name with suffix _pf. *)
From Coq Require Import List NArith ZArith Lia Arith Bool Permutation.
From Coq.Init Require Import Byte.
From Verif Require Import GoSem Bytes Spec SpecDetect Galois Pool Vector Polynomial Shamir ExData Pf36.
Import ListNotations.

(** C82: leave out each of at least three parts (of equal length, with distinct non-zero tags) in turn. At every byte position the results of Combine
    are either all the same, and then the same as with all parts, or no two of them are the same. *)
Theorem C82_agree : forall parts, acceptable parts -> 3 <= length parts -> ~ In x00 (map tag parts) ->
  exists whole rest, Combine parts = Ret whole /\
    (forall i, i < length parts -> Combine (without i parts) = Ret (rest i) /\ length (rest i) = length whole) /\
    forall p, p < length whole ->
      (forall i, i < length parts -> nth p (rest i) x00 = nth p whole x00) \/
      (forall i k, i < length parts -> k < length parts -> i <> k -> nth p (rest i) x00 <> nth p (rest k) x00).
Proof. exact C82_agree_pf. Qed.
Print Assumptions C82_agree.

(** C82: one altered share among at least threshold+1. Let the shares numbered [is] of a sharing with non-zero tags arrive, all but number [j] unaltered, and
    that one with its length and tag intact. Leaving it out gives the secret; and at every byte position the results of leaving out different shares
    agree with each other if and only if the altered share is right at this position. *)
Theorem C82_single : forall secret t polys tags shares is received j,
  2 <= t -> secret <> [] -> is_sharing secret t polys tags shares -> ~ In x00 tags -> selection (length shares) (t + 1) is ->
  claims_to_be received (pick [] shares is) -> j < length is ->
  (forall i, i < length is -> i <> j -> nth i received [] = nth (nth i is 0) shares []) ->
  Combine (without j received) = Ret secret /\
  exists rest, (forall i, i < length is -> Combine (without i received) = Ret (rest i)) /\
    forall p i k, p < length secret -> i < length is -> k < length is -> i <> k ->
      (nth p (rest i) x00 = nth p (rest k) x00 <-> nth p (nth j received []) x00 = nth p (nth (nth j is 0) shares []) x00).
Proof. exact C82_single_pf. Qed.
Print Assumptions C82_single.

(** C82: correcting altered shares. Of the shares numbered [is] at most [e] arrive altered, with lengths and tags intact. If [threshold]+[e] or more of those
    received agree with each other, in that Combine returns the same [s'] for any [threshold] of them, then [s'] is the secret; and if at least
    [threshold]+2[e] were received, there are such shares. *)
Theorem C82_correct : forall secret t polys tags shares is received e,
  2 <= t -> secret <> [] -> is_sharing secret t polys tags shares -> NoDup is -> (forall i, In i is -> i < length shares) ->
  claims_to_be received (pick [] shares is) -> wrong received (pick [] shares is) <= e ->
  (forall js s', NoDup js -> (forall j, In j js -> j < length is) -> t + e <= length js -> consistent Combine received t js s' -> s' = secret) /\
  (t + 2 * e <= length is ->
   exists js, NoDup js /\ (forall j, In j js -> j < length is) /\ t + e <= length js /\ consistent Combine received t js secret).
Proof. exact C82_correct_pf. Qed.
Print Assumptions C82_correct.

(** C82: why threshold+2e shares are needed. If Split made fewer than [threshold]+2[e] shares, then for every run there are another secret of the same
    length, another random stream, and received parts that are all the shares of the first run with at most [e] altered and all the shares of the second
    run with at most [e] altered: nobody can tell which secret was shared. *)
Theorem C82_limit : forall ar growcap perm stream polB trB evBufs secret parts threshold e shares,
  grow_ok growcap -> Permutation perm (seq 0 255) -> (1 <= e) -> (parts < threshold + 2 * Z.of_nat e)%Z ->
  Split ar growcap perm stream polB trB evBufs secret parts threshold = Ret shares ->
  exists secret' stream' shares' received,
    length secret' = length secret /\ secret' <> secret /\
    Split ar growcap perm stream' polB trB evBufs secret' parts threshold = Ret shares' /\
    claims_to_be received shares /\ wrong received shares <= e /\
    claims_to_be received shares' /\ wrong received shares' <= e.
Proof. exact C82_limit_pf. Qed.
Print Assumptions C82_limit.

(** a 2-of-4 split of "hi"; the share at position 1 arrives with its second byte altered: the results of leaving one share out agree at byte 0 and are
    pairwise different at byte 1; threshold+2e = 4 shares are there for e = 1, and the three right ones agree *)
Definition ex_hi_shares : list (list byte) := [[x62; x71; x01]; [x7c; x59; x02]; [x76; x41; x03]; [x40; x09; x04]].
Definition ex_hi_received : list (list byte) := [[x62; x71; x01]; [x7c; x58; x02]; [x76; x41; x03]; [x40; x09; x04]].
Example C82_run :
  Split ex_ar growcap117 ex_perm ex_stream ex_stale ex_stale ex_ev [x68; x69] 4 2 = Ret ex_hi_shares /\
  claims_to_be ex_hi_received (pick [] ex_hi_shares [0; 1; 2; 3]) /\ wrong ex_hi_received (pick [] ex_hi_shares [0; 1; 2; 3]) = 1 /\
  acceptable ex_hi_received /\ ~ In x00 (map tag ex_hi_received) /\ selection 4 3 [0; 1; 2; 3] /\
  (exists a b c, Combine (without 0 ex_hi_received) = Ret [x68; a] /\ Combine (without 1 ex_hi_received) = Ret [x68; x69] /\
     Combine (without 2 ex_hi_received) = Ret [x68; b] /\ Combine (without 3 ex_hi_received) = Ret [x68; c] /\ NoDup [a; x69; b; c]) /\
  (forall ks, In ks [[0; 2]; [0; 3]; [2; 3]] -> Combine (pick [] ex_hi_received ks) = Ret [x68; x69]).
Proof.
  split; [vm_compute; reflexivity|]. split; [split; vm_compute; reflexivity|]. split; [vm_compute; reflexivity|]. split.
  { split; [cbn; lia|]. split; [cbn; lia|]. split; [intros p Hp; cbn in Hp; intuition (subst; reflexivity)|]. cbn. repeat constructor; cbn; intuition discriminate. }
  split; [cbn; intuition discriminate|]. split; [split; [repeat constructor; cbn; intuition discriminate|split; [cbn; intros i Hi; lia|cbn; lia]]|]. split.
  { eexists _, _, _. repeat (split; [vm_compute; reflexivity|]). repeat constructor; cbn; intuition discriminate. }
  intros ks Hk. cbn in Hk. intuition (subst; vm_compute; reflexivity).
Qed.
