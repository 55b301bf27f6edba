(** Proofs of the properties of SplitP (C12, C13). *)
From Coq Require Import List NArith ZArith Lia Arith Bool Permutation.
From Coq.Init Require Import Byte.
From Verif Require Import GoSem Bytes Spec Galois GF PolyFacts GoFacts Csprng Polynomial PolynomialFacts Shamir SplitFacts
  CombineFacts Secrecy CsprngFacts Derived SplitP SplitPFacts SplitPMore SplitPTop.
Import ListNotations.

(*PROPS
From Coq Require Import List NArith ZArith Lia Arith Bool Permutation.
From Coq.Init Require Import Byte.
From Verif Require Import GoSem Bytes Spec Polynomial Shamir SplitP SplitPTop ExData Pf2.
Import ListNotations.
*)

Lemma small_secretLen (secret : list byte) : (N.of_nat (length secret) <= 4294967296 - 1024)%N -> secretLen secret = N.of_nat (length secret).
Proof. intros H. unfold secretLen, u32. apply N.mod_small. lia. Qed.

Lemma perm_tags perm n : Permutation perm (seq 0 255) -> n <= 255 ->
  forall i, i < n -> b2i (nth i (tagsOf n (map i2b perm)) x00) = nth i perm 0 + 1.
Proof.
  intros P Hn i Hi. pose proof (Permutation_length P) as L. rewrite seq_length in L.
  rewrite nth_tagsOf by (try rewrite map_length; lia).
  rewrite (nth_map' i2b perm i x00 0) by lia.
  assert (H : In (nth i perm 0) (seq 0 255)) by (apply (Permutation_in _ P), nth_In; lia). apply in_seq in H.
  unfold badd, b2i, i2b. rewrite !b2n_n2b. change (b2n x01) with 1%N. rewrite N.add_mod_idemp_l by discriminate. rewrite N.mod_small by lia. lia.
Qed.

(** C12: for every interleaving of the goroutines, whatever SplitP returns is a sharing of the secret with the tags the permutation
    dictates; any [threshold] of the shares combine to the secret; and each byte position [p] uses its own chunk of the random
    stream: [order] lists the positions in the order of their draws, each exactly once. *)
Lemma C12_any_schedule_pf : forall perm stream secret parts threshold sched shares,
  Permutation perm (seq 0 255) -> (N.of_nat (length secret) <= 4294967296 - 1024)%N ->
  SplitP perm stream secret parts threshold sched (Ret shares) ->
  length shares = Z.to_nat parts /\
  (forall i, i < Z.to_nat parts -> b2i (tag (nth i shares [])) = nth i perm 0 + 1) /\
  (exists polys order, is_sharing secret (Z.to_nat threshold) polys (map tag shares) shares /\
     Permutation order (seq 0 (length secret)) /\
     forall j c, j < length secret -> 1 <= c < Z.to_nat threshold ->
       nth c (nth (nth j order 0) polys []) x00 = stream ((Z.to_nat threshold - 1) * j + (c - 1))) /\
  forall is, selection (Z.to_nat parts) (Z.to_nat threshold) is -> Combine (pick [] shares is) = Ret secret.
Proof.
  intros perm stream secret parts threshold sched shares P Hs H.
  destruct (SplitP_ret _ _ _ _ _ _ _ P H) as (V & order & Po & Esh). destruct (valid_deg _ _ _ V) as (D1 & D2).
  pose proof V as (Hne & H2 & H3 & H4). destruct (perm_coords perm P) as (ND & NF & L255).
  assert (ND' : NoDup (tagsOf (Z.to_nat parts) (map i2b perm))) by (apply tagsOf_NoDup; exact ND).
  pose proof (polysP_sharing secret (z2b (threshold - 1)) stream order _ ND') as S. cbv zeta in S.
  rewrite small_secretLen in S, Po by exact Hs. rewrite Nat2N.id in S, Po.
  rewrite firstn_all, Nat.sub_diag in S. cbn [zeros repeat] in S. rewrite app_nil_r in S.
  replace (Datatypes.S (b2i (z2b (threshold - 1)))) with (Z.to_nat threshold) in S by lia. rewrite <- Esh in S.
  assert (Ls : length shares = Z.to_nat parts) by (rewrite Esh, map_length, tagsOf_length; lia).
  assert (Mt : map tag shares = tagsOf (Z.to_nat parts) (map i2b perm)) by (rewrite Esh; apply map_tag_shares).
  split; [exact Ls|]. split.
  { intros i Hi. rewrite Esh. rewrite (nth_map' _ _ i [] x00) by (rewrite tagsOf_length; lia). rewrite tag_share_at.
    apply perm_tags; [exact P|lia|exact Hi]. }
  split.
  - exists (polysP secret (z2b (threshold - 1)) stream order), order. rewrite Mt. split; [exact S|]. split; [exact Po|].
    intros j c Hj Hc. assert (Lo : length order = length secret) by (rewrite (Permutation_length Po); apply seq_length).
    assert (Hoj : nth j order 0 < length secret).
    { assert (In (nth j order 0) order) by (apply nth_In; lia). apply (Permutation_in _ Po) in H0. apply in_seq in H0. lia. }
    unfold polysP. rewrite nth_map_seq by exact Hoj. unfold polyP. rewrite small_secretLen by exact Hs. rewrite Nat2N.id.
    destruct (Nat.ltb_spec (nth j order 0) (length secret)); [|lia].
    destruct c as [|c]; [lia|]. cbn [nth]. rewrite nth_take_stream by lia.
    rewrite (posIn_unique (nth j order 0) order j).
    + f_equal. rewrite D1. f_equal. lia.
    + apply (Permutation_NoDup (Permutation_sym Po)), seq_NoDup.
    + apply nth_error_nth'. lia.
  - intros is Hsel. apply (Combine_is_sharing secret (Z.to_nat threshold) (polysP secret (z2b (threshold - 1)) stream order) (tagsOf (Z.to_nat parts) (map i2b perm)));
      [lia|exact Hne|exact S|rewrite Ls; exact Hsel].
Qed.

(** C12: no schedule deadlocks: in every reachable state before the return some thread can move; every schedule is bounded; and
    every reachable state can be continued to a return (for secrets of at most 2^32-1024 bytes), never to a panic. *)
Lemma C12_no_deadlock_pf : forall perm stream secret parts threshold,
  Permutation perm (seq 0 255) -> valid_args secret parts threshold -> (N.of_nat (length secret) <= 4294967296 - 1024)%N ->
  (exists s0, SplitP_reach perm stream secret parts threshold [] s0) /\
  (forall sched s, SplitP_reach perm stream secret parts threshold sched s ->
     length sched <= length secret * (Z.to_nat parts + 4) + 2 /\
     (p_main s <> MReturned -> exists th s', SplitP_step perm stream secret parts threshold th s = Next s') /\
     exists sched' shares, SplitP perm stream secret parts threshold (sched ++ sched') (Ret shares)) /\
  (forall sched o, SplitP perm stream secret parts threshold sched o -> exists shares, o = Ret shares).
Proof.
  intros perm stream secret parts threshold P V Hs.
  assert (Hout : forall sched o, SplitP perm stream secret parts threshold sched o -> exists shares, o = Ret shares).
  { intros sched o H. destruct (SplitP_outcomes _ _ _ _ _ _ _ P H) as [(e & _ & A)|[(_ & _ & B)|(sh & -> & _)]].
    - exfalso. apply checkArgs_Some in A. apply valid_checkArgs in V. congruence.
    - rewrite small_secretLen in B by exact Hs. lia.
    - exists sh. reflexivity. }
  split; [apply SplitP_start; assumption|]. split; [|exact Hout].
  intros sched s R. split; [exact (SplitP_bounded _ _ _ _ _ _ _ P R)|]. split.
  - intros Hm. destruct (SplitP_nodeadlock _ _ _ _ _ _ _ P R Hm) as (th & Hth).
    destruct (SplitP_step perm stream secret parts threshold th s) as [|s'|p] eqn:Es; [congruence|exists th, s'; exact Es|].
    exfalso. destruct R as (out & Ec & El & Ex).
    destruct (Hout (sched ++ [th]) (Panic p)) as (sh & F); [econstructor; eassumption|discriminate].
  - destruct (SplitP_completes _ _ _ _ _ _ P sched s R (le_n _)) as (sched' & o & E). destruct (Hout _ _ E) as (sh & ->). eauto.
Qed.

(** C12: no data race: two different goroutines never write the same byte; goroutine [k] only ever writes positions
    1024*k .. 1024*k+1023, and the caller writes none. *)
Lemma C12_disjoint_writes_pf : forall perm stream secret parts threshold sched s th s' i p,
  Permutation perm (seq 0 255) -> SplitP_reach perm stream secret parts threshold sched s ->
  SplitP_step perm stream secret parts threshold th s = Next s' ->
  nth p (nth i (p_out s') []) x00 <> nth p (nth i (p_out s) []) x00 ->
  th <> 0 /\ 1024 * (th - 1) <= p < 1024 * th.
Proof.
  intros perm stream secret parts threshold sched s th s' i p P R E Hd.
  destruct (reach_inv _ _ _ _ _ _ _ P R) as (dr & I & D & Hx). unfold SplitP_step in E. destruct th as [|k]; cbn [pstep] in E.
  - exfalso. apply Hd. rewrite (main_writes _ _ _ E). reflexivity.
  - split; [discriminate|]. replace (S k - 1) with k by lia.
    destruct (Nat.lt_ge_cases p (1024 * k)) as [H1|H1]; [exfalso; apply Hd; eapply (worker_writes _ _ _ _ _ D Hx _ _ _ _ I E); lia|].
    destruct (Nat.lt_ge_cases p (1024 * S k)) as [H2|H2]; [lia|exfalso; apply Hd; eapply (worker_writes _ _ _ _ _ D Hx _ _ _ _ I E); lia].
Qed.

(** C12: the same, counting writes that store an equal value, and reads: a transition of a goroutine does not depend on any byte of
    the shares (started from rows of the same lengths with any other contents [out] it does the same thing), and it leaves every
    byte of [out] alone except positions 1024*k .. 1024*k+1023, where it stores the same value as before. *)
Lemma C12_footprint_pf : forall perm stream secret parts threshold sched s th s' out,
  Permutation perm (seq 0 255) -> SplitP_reach perm stream secret parts threshold sched s ->
  SplitP_step perm stream secret parts threshold th s = Next s' ->
  map (@length byte) out = map (@length byte) (p_out s) ->
  exists s2,
    SplitP_step perm stream secret parts threshold th
      {| p_main := p_main s; p_workers := p_workers s; p_rpos := p_rpos s; p_out := out |} = Next s2 /\
    p_main s2 = p_main s' /\ p_workers s2 = p_workers s' /\ p_rpos s2 = p_rpos s' /\
    forall i p, nth p (nth i (p_out s2) []) x00 = nth p (nth i out []) x00 \/
      (th <> 0 /\ 1024 * (th - 1) <= p < 1024 * th /\
       nth p (nth i (p_out s2) []) x00 = nth p (nth i (p_out s') []) x00).
Proof.
  intros perm stream secret parts threshold sched s th s' out P R E Hsh.
  destruct (reach_inv _ _ _ _ _ _ _ P R) as (dr & I & D & Hx). unfold SplitP_step in E |- *. destruct th as [|k]; cbn [pstep] in E |- *.
  - exists (with_out s' out). split; [exact (main_footprint _ _ _ out E)|]. repeat split. intros i p. left. reflexivity.
  - destruct (worker_footprint _ _ _ _ _ D Hx _ _ _ _ out I E Hsh) as (out2 & E2 & F).
    exists (with_out s' out2). split; [exact E2|]. repeat split. intros i p. cbn [with_out p_out].
    destruct (F i p) as [F1|[F1 F2]]; [left; exact F1|right]. replace (S k - 1) with k by lia. repeat split; [discriminate|lia|lia|exact F2].
Qed.

(** C12: secrecy under every schedule: for a fixed complete schedule, fewer than [threshold] shares have the same distribution for
    any two secrets of the same length. *)
Lemma C12_secrecy_pf : forall perm s s' parts threshold sched is view,
  Permutation perm (seq 0 255) -> valid_args s parts threshold -> length s = length s' ->
  (N.of_nat (length s) <= 4294967296 - 1024)%N ->
  coalition (Z.to_nat parts) (Z.to_nat threshold) is ->
  let sees secret r := match SplitPRun perm (stream_of r) secret parts threshold sched with
                       | Some o => observes o is view | None => false end in
  let buffers := all_strings ((Z.to_nat threshold - 1) * length s) in
  count (sees s) buffers = count (sees s') buffers.
Proof.
  intros perm s s' parts threshold sched is view P V Hl Hs C sees buffers.
  pose proof (SplitP_secrecy_test perm s s' parts threshold sched is (fun v => shares_eqb v view) P V Hl Hs C) as E.
  assert (G : forall sec, count (sees sec) buffers = count (fun r => match SplitPRun perm (stream_of r) sec parts threshold sched with
                  | Some (Ret shares) => shares_eqb (pick [] shares is) view | _ => false end) buffers).
  { intros sec. apply count_ext. intros r _. unfold sees. destruct (SplitPRun perm (stream_of r) sec parts threshold sched) as [[sh|e|p| |]|]; reflexivity. }
  rewrite !G. exact E.
Qed.

(** [SplitPRun], used in C12_secrecy, is the machine of [SplitP] read as a function of the schedule. *)
Lemma C12_run_is_splitp_pf : forall perm stream secret parts threshold sched o,
  SplitPRun perm stream secret parts threshold sched = Some o <-> SplitP perm stream secret parts threshold sched o.
Proof. exact SplitPRun_spec. Qed.

(*COPY
(** Two different complete schedules of a 2-of-2 split of a 2-byte secret (one goroutine), and of a secret of 1025 bytes (two
    goroutines). *)
Example C12_run : exists shares, SplitP ex_perm ex_stream [x68; x69] 2 2 [0; 1; 0; 1; 1; 1; 1; 1; 1; 1; 1; 0] (Ret shares).
Proof. eexists. apply C12_run_is_splitp_pf. vm_compute. reflexivity. Qed.
Definition sched2 : list nat := [0; 0; 0] ++ concat (repeat [1; 1; 1; 1] 3) ++ [2; 2; 2; 2; 2] ++ concat (repeat [1; 1; 1; 1] 1021) ++ [1; 0].
Example C12_run2 :
  match SplitPRun ex_perm ex_stream (repeat x68 1025) 2 2 sched2 with
  | Some (Ret shares) => Combine shares = Ret (repeat x68 1025)
  | _ => False
  end.
Proof. vm_compute. reflexivity. Qed.
END*)

(** C13: the exact effect of the 32-bit arithmetic. With L = len(secret) mod 2^32: if L > 2^32-1024, every complete execution
    panics (slice bounds) and there is one; otherwise every complete execution returns shares of the secret with all bytes from
    position L on replaced by 0, hence Combine returns 0 there. *)
Lemma C13_overflow_pf : forall perm stream secret parts threshold,
  Permutation perm (seq 0 255) -> valid_args secret parts threshold ->
  let L := (N.of_nat (length secret) mod 4294967296)%N in
  (exists sched o, SplitP perm stream secret parts threshold sched o) /\
  forall sched o, SplitP perm stream secret parts threshold sched o ->
    ((4294967296 - 1024 < L)%N -> o = Panic PSlice) /\
    ((L <= 4294967296 - 1024)%N ->
       exists shares, o = Ret shares /\ length shares = Z.to_nat parts /\
         let kept := firstn (N.to_nat L) secret ++ zeros (length secret - N.to_nat L) in
         (exists polys, is_sharing kept (Z.to_nat threshold) polys (map tag shares) shares) /\
         (forall is, selection (Z.to_nat parts) (Z.to_nat threshold) is -> Combine (pick [] shares is) = Ret kept) /\
         forall s p, In s shares -> N.to_nat L <= p < length secret -> nth p s x00 = x00).
Proof.
  intros perm stream secret parts threshold P V L. split.
  - destruct (SplitP_start _ stream _ _ _ P V) as (s & R). destruct (SplitP_completes _ _ _ _ _ _ P [] s R (le_n _)) as (sched' & o & E). eauto.
  - intros sched o H. destruct (SplitP_outcomes _ _ _ _ _ _ _ P H) as [(e & _ & A)|[(-> & _ & B)|(shares & -> & _ & B)]].
    + exfalso. apply checkArgs_Some in A. apply valid_checkArgs in V. congruence.
    + split; [reflexivity|]. intros B'. unfold secretLen, u32 in B. fold L in B. lia.
    + split; [intros B'; unfold secretLen, u32 in B; fold L in B; lia|]. intros _. exists shares. split; [reflexivity|].
      destruct (SplitP_ret _ _ _ _ _ _ _ P H) as (_ & order & Po & Esh). destruct (valid_deg _ _ _ V) as (D1 & D2).
      pose proof V as (Hne & H2 & H3 & H4). destruct (perm_coords perm P) as (ND & NF & L255).
      assert (ND' : NoDup (tagsOf (Z.to_nat parts) (map i2b perm))) by (apply tagsOf_NoDup; exact ND).
      assert (Ls : length shares = Z.to_nat parts) by (rewrite Esh, map_length, tagsOf_length; lia). split; [exact Ls|].
      pose proof (polysP_sharing secret (z2b (threshold - 1)) stream order _ ND') as S. cbv zeta in S |- *.
      unfold secretLen, u32 in S. fold L in S. replace (Datatypes.S (b2i (z2b (threshold - 1)))) with (Z.to_nat threshold) in S by lia. rewrite <- Esh in S.
      assert (Mt : map tag shares = tagsOf (Z.to_nat parts) (map i2b perm)) by (rewrite Esh; apply map_tag_shares).
      assert (HL : N.to_nat L <= length secret).
      { pose proof (N.mod_le (N.of_nat (length secret)) 4294967296 ltac:(discriminate)). unfold L. lia. }
      assert (Lk : length (firstn (N.to_nat L) secret ++ zeros (length secret - N.to_nat L)) = length secret) by (rewrite app_length, firstn_length, zeros_length; lia).
      split; [exists (polysP secret (z2b (threshold - 1)) stream order); rewrite Mt; exact S|]. split.
      * intros is Hsel. apply (Combine_is_sharing _ (Z.to_nat threshold) (polysP secret (z2b (threshold - 1)) stream order) (tagsOf (Z.to_nat parts) (map i2b perm)));
          [lia| |exact S|rewrite Ls; exact Hsel].
        intros F. rewrite F in Lk. cbn in Lk. destruct secret; [congruence|discriminate].
      * intros sh p Hin Hp. rewrite Esh in Hin. apply in_map_iff in Hin as (x & <- & _). unfold share_at.
        rewrite app_nth1 by (unfold polysP; rewrite !map_length, seq_length; lia).
        unfold polysP. rewrite map_map, nth_map_seq by lia. unfold polyP. unfold secretLen, u32. fold L.
        destruct (Nat.ltb_spec p (N.to_nat L)); [lia|]. rewrite peval_heval. change (zeros (Datatypes.S (b2i (z2b (threshold - 1))))) with ([] ++ repeat x00 (Datatypes.S (b2i (z2b (threshold - 1))))). rewrite heval_app_zeros. reflexivity.
Qed.

(*COPY
(** Secrets of the two critical lengths exist (as mathematical objects): 2^32-1 bytes, and 2^32+5 bytes. *)
Example C13_cases : exists s1 s2, valid_args s1 2 2 /\ (4294967296 - 1024 < N.of_nat (length s1) mod 4294967296)%N /\
  valid_args s2 2 2 /\ (N.of_nat (length s2) mod 4294967296 = 5)%N /\ 5 < length s2.
Proof.
  exists (repeat x68 (N.to_nat 4294967295)), (repeat x68 (N.to_nat 4294967301)).
  assert (V : forall n, (0 < n)%N -> valid_args (repeat x68 (N.to_nat n)) 2 2).
  { intros n Hn. repeat split; try lia. destruct (N.to_nat n) eqn:E; [lia|discriminate]. }
  split; [apply V; reflexivity|]. rewrite !repeat_length, !N2Nat.id. split; [reflexivity|]. split; [apply V; reflexivity|]. split; [reflexivity|lia].
Qed.
END*)
