(** Proofs about how many wrong krawczyk shares can be corrected (C95).
    Generated from Pf50.v by tools/genprops.py: every theorem is proved there as the lemma of the same name with suffix _pf. *)
From Coq Require Import List NArith ZArith Lia Arith Bool Permutation.
From Coq.Init Require Import Byte.
From Verif Require Import GoSem Bytes Spec SpecKr SpecDetect Vector Csprng Pool Shamir Libs AES Krawczyk ExData Pf50.
Import ListNotations.

(** C95: why [threshold]+2[e] shares are needed. If krawczyk.Split made fewer than [threshold]+2[e] shares, then for every run there are another secret of the same
    length and received shares that are all the shares of the first run with at most [e] altered (length, metadata and index intact) and all the shares that Split makes of the
    other secret from the same random bytes with at most [e] altered: nobody can tell which secret was shared. *)
Theorem C95_limit_split : forall E zp ar growcap krand perm stream polB trB evBufs secret parts threshold e shares,
  grow_ok growcap -> Permutation perm (seq 0 255) -> 1 <= e -> (parts < threshold + 2 * Z.of_nat e)%Z ->
  krSplit E zp ar growcap krand perm stream polB trB evBufs secret parts threshold = Ret shares ->
  exists secret' shares' received,
    length secret' = length secret /\ secret' <> secret /\
    krSplit E zp ar growcap krand perm stream polB trB evBufs secret' parts threshold = Ret shares' /\
    map kr_meta shares' = map kr_meta shares /\
    claims_to_be received shares /\ wrong received shares <= e /\
    claims_to_be received shares' /\ wrong received shares' <= e.
Proof. exact C95_limit_split_pf. Qed.
Print Assumptions C95_limit_split.

Theorem C95_limit_randomizer : forall fuel E zp ar growcap ks polB trB evBufs secret parts threshold e shares,
  grow_ok growcap -> 1 <= e -> (parts < threshold + 2 * Z.of_nat e)%Z ->
  krSplitWithRandomizer fuel E zp ar growcap ks polB trB evBufs secret parts threshold = Ret shares ->
  exists secret' shares' received,
    length secret' = length secret /\ secret' <> secret /\
    krSplitWithRandomizer fuel E zp ar growcap ks polB trB evBufs secret' parts threshold = Ret shares' /\
    map kr_meta shares' = map kr_meta shares /\
    claims_to_be received shares /\ wrong received shares <= e /\
    claims_to_be received shares' /\ wrong received shares' <= e.
Proof. exact C95_limit_randomizer_pf. Qed.
Print Assumptions C95_limit_randomizer.

(** C95: why [threshold]+[e] agreeing shares are needed. In every run that makes at least [threshold]+[e]-1 shares, [e] of them can be altered (length, metadata and index intact) so
    that [threshold]+[e]-1 of them agree on a wrong secret of the same length: krawczyk.Combine returns it for any [threshold] of these. *)
Theorem C95_agree_split : forall E zp rd ar growcap krand perm stream polB trB evBufs secret parts threshold e shares,
  (forall i, 0 < rd i) -> grow_ok growcap -> Permutation perm (seq 0 255) -> 1 <= e -> (threshold + Z.of_nat e - 1 <= parts)%Z ->
  krSplit E zp ar growcap krand perm stream polB trB evBufs secret parts threshold = Ret shares ->
  exists secret' received,
    length secret' = length secret /\ secret' <> secret /\
    claims_to_be received shares /\ wrong received shares <= e /\
    consistent (fun ps => krCombine E zp rd (map Some ps) parts threshold) received (Z.to_nat threshold) (seq 0 (Z.to_nat threshold + e - 1)) secret'.
Proof. exact C95_agree_split_pf. Qed.
Print Assumptions C95_agree_split.

Theorem C95_agree_randomizer : forall fuel E zp rd ar growcap ks polB trB evBufs secret parts threshold e shares,
  (forall i, 0 < rd i) -> grow_ok growcap -> 1 <= e -> (threshold + Z.of_nat e - 1 <= parts)%Z ->
  krSplitWithRandomizer fuel E zp ar growcap ks polB trB evBufs secret parts threshold = Ret shares ->
  exists secret' received,
    length secret' = length secret /\ secret' <> secret /\
    claims_to_be received shares /\ wrong received shares <= e /\
    consistent (fun ps => krCombine E zp rd (map Some ps) parts threshold) received (Z.to_nat threshold) (seq 0 (Z.to_nat threshold + e - 1)) secret'.
Proof. exact C95_agree_randomizer_pf. Qed.
Print Assumptions C95_agree_randomizer.

(** Three shares with threshold 2, so e = 1 is over the limit: the shares of "hello" and of "iello" from the same random bytes. The received shares are those of "hello" except
    share 0, which is that of "iello": one wrong for "hello", and for "iello" just share 2 is wrong.
    The received shares 0 and 1, threshold+e-1, agree on "iello". *)
Example C95_run :
  let run s := krSplit AES true ex_ar growcap117 (fun i => i2b (5 * i + 9)) ex_perm ex_stream ex_stale ex_stale ex_ev s 3 2 in
  match run ex_secret, run (x69 :: tl ex_secret) with
  | Ret sh, Ret sh' =>
      let received := [nth 0 sh' []; nth 1 sh []; nth 2 sh []] in
      map kr_meta sh' = map kr_meta sh /\ wrong received sh = 1 /\ wrong received sh' = 1 /\ map tag received = map tag sh' /\ map (@length byte) received = map (@length byte) sh' /\
      map (fun ks => krCombine AES true (fun _ => 512) (map Some (pick [] received ks)) 3 2) [[0; 1]; [1; 0]] = repeat (Ret (x69 :: tl ex_secret)) 2
  | _, _ => False end.
Proof. vm_compute. repeat split; reflexivity. Qed.
