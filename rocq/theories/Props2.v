(** Theorems: the properties of SplitP (C12, C13).
    Generated from Pf2.v by tools/genprops.py: every theorem is proved there as the lemma of the same name with suffix _pf. *)
From Coq Require Import List NArith ZArith Lia Arith Bool Permutation.
From Coq.Init Require Import Byte.
From Verif Require Import GoSem Bytes Spec Polynomial Shamir SplitP SplitPTop ExData Pf2.
Import ListNotations.

(** C12: for every interleaving of the goroutines, whatever SplitP returns is a sharing of the secret with the tags the permutation
    dictates; any [threshold] of the shares combine to the secret; and each byte position [p] uses its own chunk of the random
    stream: [order] lists the positions in the order of their draws, each exactly once. *)
Theorem C12_any_schedule : forall perm stream secret parts threshold sched shares,
  Permutation perm (seq 0 255) -> (N.of_nat (length secret) <= 4294967296 - 1024)%N ->
  SplitP perm stream secret parts threshold sched (Ret shares) ->
  length shares = Z.to_nat parts /\
  (forall i, i < Z.to_nat parts -> b2i (tag (nth i shares [])) = nth i perm 0 + 1) /\
  (exists polys order, is_sharing secret (Z.to_nat threshold) polys (map tag shares) shares /\
     Permutation order (seq 0 (length secret)) /\
     forall j c, j < length secret -> 1 <= c < Z.to_nat threshold ->
       nth c (nth (nth j order 0) polys []) x00 = stream ((Z.to_nat threshold - 1) * j + (c - 1))) /\
  forall is, selection (Z.to_nat parts) (Z.to_nat threshold) is -> Combine (pick [] shares is) = Ret secret.
Proof. exact C12_any_schedule_pf. Qed.
Print Assumptions C12_any_schedule.

(** C12: no schedule deadlocks: in every reachable state before the return some thread can move; every schedule is bounded; and
    every reachable state can be continued to a return (for secrets of at most 2^32-1024 bytes), never to a panic. *)
Theorem C12_no_deadlock : forall perm stream secret parts threshold,
  Permutation perm (seq 0 255) -> valid_args secret parts threshold -> (N.of_nat (length secret) <= 4294967296 - 1024)%N ->
  (exists s0, SplitP_reach perm stream secret parts threshold [] s0) /\
  (forall sched s, SplitP_reach perm stream secret parts threshold sched s ->
     length sched <= length secret * (Z.to_nat parts + 4) + 2 /\
     (p_main s <> MReturned -> exists th s', SplitP_step perm stream secret parts threshold th s = Next s') /\
     exists sched' shares, SplitP perm stream secret parts threshold (sched ++ sched') (Ret shares)) /\
  (forall sched o, SplitP perm stream secret parts threshold sched o -> exists shares, o = Ret shares).
Proof. exact C12_no_deadlock_pf. Qed.
Print Assumptions C12_no_deadlock.

(** C12: no data race: two different goroutines never write the same byte; goroutine [k] only ever writes positions
    1024*k .. 1024*k+1023, and the caller writes none. *)
Theorem C12_disjoint_writes : forall perm stream secret parts threshold sched s th s' i p,
  Permutation perm (seq 0 255) -> SplitP_reach perm stream secret parts threshold sched s ->
  SplitP_step perm stream secret parts threshold th s = Next s' ->
  nth p (nth i (p_out s') []) x00 <> nth p (nth i (p_out s) []) x00 ->
  th <> 0 /\ 1024 * (th - 1) <= p < 1024 * th.
Proof. exact C12_disjoint_writes_pf. Qed.
Print Assumptions C12_disjoint_writes.

(** C12: the same, counting writes that store an equal value, and reads: a transition of a goroutine does not depend on any byte of
    the shares (started from rows of the same lengths with any other contents [out] it does the same thing), and it leaves every
    byte of [out] alone except positions 1024*k .. 1024*k+1023, where it stores the same value as before. *)
Theorem C12_footprint : forall perm stream secret parts threshold sched s th s' out,
  Permutation perm (seq 0 255) -> SplitP_reach perm stream secret parts threshold sched s ->
  SplitP_step perm stream secret parts threshold th s = Next s' ->
  map (@length byte) out = map (@length byte) (p_out s) ->
  exists s2,
    SplitP_step perm stream secret parts threshold th
      {| p_main := p_main s; p_workers := p_workers s; p_rpos := p_rpos s; p_out := out |} = Next s2 /\
    p_main s2 = p_main s' /\ p_workers s2 = p_workers s' /\ p_rpos s2 = p_rpos s' /\
    forall i p, nth p (nth i (p_out s2) []) x00 = nth p (nth i out []) x00 \/
      (th <> 0 /\ 1024 * (th - 1) <= p < 1024 * th /\
       nth p (nth i (p_out s2) []) x00 = nth p (nth i (p_out s') []) x00).
Proof. exact C12_footprint_pf. Qed.
Print Assumptions C12_footprint.

(** C12: secrecy under every schedule: for a fixed complete schedule, fewer than [threshold] shares have the same distribution for
    any two secrets of the same length. *)
Theorem C12_secrecy : forall perm s s' parts threshold sched is view,
  Permutation perm (seq 0 255) -> valid_args s parts threshold -> length s = length s' ->
  (N.of_nat (length s) <= 4294967296 - 1024)%N ->
  coalition (Z.to_nat parts) (Z.to_nat threshold) is ->
  let sees secret r := match SplitPRun perm (stream_of r) secret parts threshold sched with
                       | Some o => observes o is view | None => false end in
  let buffers := all_strings ((Z.to_nat threshold - 1) * length s) in
  count (sees s) buffers = count (sees s') buffers.
Proof. exact C12_secrecy_pf. Qed.
Print Assumptions C12_secrecy.

(** [SplitPRun], used in C12_secrecy, is the machine of [SplitP] read as a function of the schedule. *)
Theorem C12_run_is_splitp : forall perm stream secret parts threshold sched o,
  SplitPRun perm stream secret parts threshold sched = Some o <-> SplitP perm stream secret parts threshold sched o.
Proof. exact C12_run_is_splitp_pf. Qed.
Print Assumptions C12_run_is_splitp.

(** Two different complete schedules of a 2-of-2 split of a 2-byte secret (one goroutine), and of a secret of 1025 bytes (two
    goroutines). *)
Example C12_run : exists shares, SplitP ex_perm ex_stream [x68; x69] 2 2 [0; 1; 0; 1; 1; 1; 1; 1; 1; 1; 1; 0] (Ret shares).
Proof. eexists. apply C12_run_is_splitp_pf. vm_compute. reflexivity. Qed.
Definition sched2 : list nat := [0; 0; 0] ++ concat (repeat [1; 1; 1; 1] 3) ++ [2; 2; 2; 2; 2] ++ concat (repeat [1; 1; 1; 1] 1021) ++ [1; 0].
Example C12_run2 :
  match SplitPRun ex_perm ex_stream (repeat x68 1025) 2 2 sched2 with
  | Some (Ret shares) => Combine shares = Ret (repeat x68 1025)
  | _ => False
  end.
Proof. vm_compute. reflexivity. Qed.

(** C13: the exact effect of the 32-bit arithmetic. With L = len(secret) mod 2^32: if L > 2^32-1024, every complete execution
    panics (slice bounds) and there is one; otherwise every complete execution returns shares of the secret with all bytes from
    position L on replaced by 0, hence Combine returns 0 there. *)
Theorem C13_overflow : forall perm stream secret parts threshold,
  Permutation perm (seq 0 255) -> valid_args secret parts threshold ->
  let L := (N.of_nat (length secret) mod 4294967296)%N in
  (exists sched o, SplitP perm stream secret parts threshold sched o) /\
  forall sched o, SplitP perm stream secret parts threshold sched o ->
    ((4294967296 - 1024 < L)%N -> o = Panic PSlice) /\
    ((L <= 4294967296 - 1024)%N ->
       exists shares, o = Ret shares /\ length shares = Z.to_nat parts /\
         let kept := firstn (N.to_nat L) secret ++ zeros (length secret - N.to_nat L) in
         (exists polys, is_sharing kept (Z.to_nat threshold) polys (map tag shares) shares) /\
         (forall is, selection (Z.to_nat parts) (Z.to_nat threshold) is -> Combine (pick [] shares is) = Ret kept) /\
         forall s p, In s shares -> N.to_nat L <= p < length secret -> nth p s x00 = x00).
Proof. exact C13_overflow_pf. Qed.
Print Assumptions C13_overflow.

(** Secrets of the two critical lengths exist (as mathematical objects): 2^32-1 bytes, and 2^32+5 bytes. *)
Example C13_cases : exists s1 s2, valid_args s1 2 2 /\ (4294967296 - 1024 < N.of_nat (length s1) mod 4294967296)%N /\
  valid_args s2 2 2 /\ (N.of_nat (length s2) mod 4294967296 = 5)%N /\ 5 < length s2.
Proof.
  exists (repeat x68 (N.to_nat 4294967295)), (repeat x68 (N.to_nat 4294967301)).
  assert (V : forall n, (0 < n)%N -> valid_args (repeat x68 (N.to_nat n)) 2 2).
  { intros n Hn. repeat split; try lia. destruct (N.to_nat n) eqn:E; [lia|discriminate]. }
  split; [apply V; reflexivity|]. rewrite !repeat_length, !N2Nat.id. split; [reflexivity|]. split; [apply V; reflexivity|]. split; [reflexivity|lia].
Qed.
