(** Proofs about histories of Split and Regenerate (C59, C60).
    Generated from Pf13.v by tools/genprops.py: every theorem is proved there as the lemma of the same name with suffix _pf. *)
From Coq Require Import List NArith ZArith Lia Arith Bool Permutation.
From Coq.Init Require Import Byte.
From Verif Require Import GoSem Bytes Spec Vector Pool Polynomial Shamir SpecHist ExData Pf13.
Import ListNotations.

(** C59: after Split and any history of Regenerate calls, each on at least [threshold] of the shares issued so far (failing calls
    included), all shares issued are shares of one sharing: the original shares come first, shares with equal tags are equal, and any [threshold]
    or more with pairwise distinct tags, in any order, combine to the secret. *)
Theorem C59_history_combines : forall ar growcap perm stream polB trB evBufs secret parts threshold calls issued,
  grow_ok growcap -> Permutation perm (seq 0 255) -> enough (Z.to_nat threshold) calls ->
  split_history ar growcap perm stream polB trB evBufs secret parts threshold calls = Ret issued ->
  (exists shares, Split ar growcap perm stream polB trB evBufs secret parts threshold = Ret shares /\
     firstn (Z.to_nat parts) issued = shares) /\
  (forall s, In s issued -> length s = length secret + 1) /\
  (forall s o, In s issued -> In o issued -> tag s = tag o -> s = o) /\
  forall mix, (forall s, In s mix -> In s issued) -> NoDup (map tag mix) -> (threshold <= Z.of_nat (length mix))%Z -> Combine mix = Ret secret.
Proof. exact C59_history_combines_pf. Qed.
Print Assumptions C59_history_combines.

(** C59: which shares are issued (how many, with which tags), and whether the history ends, depends neither on the
    secret (only on its length) nor on the random coefficients. *)
Theorem C59_history_tags : forall ar growcap perm polB trB evBufs s s' parts threshold calls r r' issued,
  grow_ok growcap -> Permutation perm (seq 0 255) -> valid_args s parts threshold -> length s = length s' ->
  enough (Z.to_nat threshold) calls ->
  length r = Z.to_nat threshold * length s -> length r' = Z.to_nat threshold * length s ->
  split_history ar growcap perm (stream_of r) polB trB evBufs s parts threshold calls = Ret issued ->
  exists issued', split_history ar growcap perm (stream_of r') polB trB evBufs s' parts threshold calls = Ret issued' /\
    map tag issued' = map tag issued.
Proof. exact C59_history_tags_pf. Qed.
Print Assumptions C59_history_tags.

(** C59: secrecy survives regeneration. Fewer than [threshold] of all the shares issued by Split and any history of Regenerate calls (each on
    at least [threshold] shares), none of them with tag 0, show any given view for exactly as many of the random
    coefficient buffers whatever the secret is. *)
Theorem C59_history_secrecy : forall ar growcap perm polB trB evBufs s s' parts threshold calls r0 issued is view,
  grow_ok growcap -> Permutation perm (seq 0 255) -> valid_args s parts threshold -> length s = length s' ->
  enough (Z.to_nat threshold) calls ->
  length r0 = Z.to_nat threshold * length s ->
  split_history ar growcap perm (stream_of r0) polB trB evBufs s parts threshold calls = Ret issued ->
  (forall i, In i is -> i < length issued /\ tag (nth i issued []) <> x00) -> length is < Z.to_nat threshold ->
  count (fun r => observes (split_history ar growcap perm (stream_of r) polB trB evBufs s parts threshold calls) is view)
        (all_strings (Z.to_nat threshold * length s))
  = count (fun r => observes (split_history ar growcap perm (stream_of r) polB trB evBufs s' parts threshold calls) is view)
        (all_strings (Z.to_nat threshold * length s)).
Proof. exact C59_history_secrecy_pf. Qed.
Print Assumptions C59_history_secrecy.

(** a history: 3-of-5 split of "hello"; regenerate 2 shares from shares 4, 0, 2; a failing call (the same share twice); regenerate one
    share from the two new ones and share 1. Shares 5 and 7 (both new) are a coalition of the kind the theorem speaks about. *)
Definition ex_calls : list regen_call :=
  [RegenCall [4; 0; 2] 2 10 (stream_of [xe0; xe1]) (fun _ => x33);
   RegenCall [4; 0; 4] 2 10 (stream_of [xe2; xe3]) (fun _ => x33);
   RegenCall [5; 6; 1] 1 10 (stream_of [xe9]) (fun _ => x33)].
Example C59_run : enough 3 ex_calls /\ exists issued,
  split_history ex_ar growcap117 ex_perm ex_stream ex_stale ex_stale ex_ev ex_secret 5 3 ex_calls = Ret issued /\
  length issued = 8 /\ Combine (pick [] issued [7; 5; 3]) = Ret ex_secret /\
  (forall i, In i [5; 7] -> i < length issued /\ tag (nth i issued []) <> x00).
Proof.
  split; [repeat constructor; cbn; lia|]. eexists. split; [vm_compute; reflexivity|]. split; [reflexivity|]. split; [vm_compute; reflexivity|].
  intros i Hi. cbn in Hi. split; [cbn; lia|]. intuition subst; vm_compute; discriminate.
Qed.

(** C60: why Regenerate must not be called with too few shares. In a sharing with threshold 3, let x1, x2, x3 be the (non-zero, distinct) tags of
    three shares with x3 <> x1 XOR x2. Then there is a non-zero tag, different from the three, with which a share regenerated from the first
    two shares alone, together with the third share, combines to the secret: two shares are enough. *)
Theorem C60_underfull : forall fuel u secret polys tags shares s1 s2 s3,
  secret <> [] -> is_sharing secret 3 polys tags shares ->
  In s1 shares -> In s2 shares -> In s3 shares ->
  NoDup (map tag [s1; s2; s3]) -> ~ In x00 (map tag [s1; s2; s3]) -> tag s3 <> gadd (tag s1) (tag s2) ->
  exists x new, x <> x00 /\ ~ In x (map tag [s1; s2; s3]) /\
    Regenerate fuel (stream_of [x]) u [s1; s2] 1 = Ret [new] /\ tag new = x /\
    Combine [new; s3] = Ret secret.
Proof. exact C60_underfull_pf. Qed.
Print Assumptions C60_underfull.

(** the attack on a 3-of-5 split of "hello": shares 0 and 1 are used to regenerate the share with tag x1*x2/(x1+x2+x3) *)
Example C60_run : exists shares x new, Split ex_ar growcap117 ex_perm ex_stream ex_stale ex_stale ex_ev ex_secret 5 3 = Ret shares /\
  tag (nth 3 shares []) <> gadd (tag (nth 0 shares [])) (tag (nth 1 shares [])) /\
  gmul x (gadd (gadd (tag (nth 0 shares [])) (tag (nth 1 shares []))) (tag (nth 3 shares []))) = gmul (tag (nth 0 shares [])) (tag (nth 1 shares [])) /\
  Regenerate 10 (stream_of [x]) (fun _ => x33) (pick [] shares [0; 1]) 1 = Ret [new] /\
  Combine [new; nth 3 shares []] = Ret ex_secret.
Proof.
  eexists _, x69, _. split; [vm_compute; reflexivity|]. split; [vm_compute; discriminate|]. split; [vm_compute; reflexivity|].
  split; vm_compute; reflexivity.
Qed.

(** C60 for every threshold. Let [s1], [s2], [s3] and [rest] be [threshold] shares with distinct non-zero tags. Regenerate, given only the threshold-1
    shares [s1], [s2], [rest] and drawing the tag x with x * (x1 + x2 + x3) = x1 * x2, returns a share with which [s3] and [rest], threshold-1 shares in all,
    combine to the secret (unless x happens to be the tag of a share in [rest]). *)
Theorem C60_any_threshold : forall fuel u secret t polys tags shares s1 s2 s3 rest x,
  secret <> [] -> is_sharing secret t polys tags shares -> t = 3 + length rest ->
  (forall s, In s (s1 :: s2 :: s3 :: rest) -> In s shares) ->
  NoDup (map tag (s1 :: s2 :: s3 :: rest)) -> ~ In x00 (map tag (s1 :: s2 :: s3 :: rest)) ->
  gmul x (gadd (gadd (tag s1) (tag s2)) (tag s3)) = gmul (tag s1) (tag s2) -> ~ In x (map tag rest) ->
  x <> x00 /\ ~ In x (map tag [s1; s2; s3]) /\
  exists new, Regenerate fuel (stream_of [x]) u (s1 :: s2 :: rest) 1 = Ret [new] /\ tag new = x /\
    Combine (new :: s3 :: rest) = Ret secret.
Proof. exact C60_any_threshold_pf. Qed.
Print Assumptions C60_any_threshold.

(** the attack on a 4-of-5 split: share 4 is in [rest] *)
Example C60_run4 : exists shares new, Split ex_ar growcap117 ex_perm ex_stream ex_stale ex_stale ex_ev ex_secret 5 4 = Ret shares /\
  Regenerate 10 (stream_of [x69]) (fun _ => x33) (pick [] shares [0; 1; 4]) 1 = Ret [new] /\
  Combine [new; nth 3 shares []; nth 4 shares []] = Ret ex_secret.
Proof.
  eexists _, _. split; [vm_compute; reflexivity|]. split; vm_compute; reflexivity.
Qed.
