(** Proofs about the bias of CSPRNG.Perm, and of the tags drawn with it (C90). *)
From Coq Require Import List NArith ZArith Lia Arith Bool Permutation.
From Coq.Init Require Import Byte.
From Verif Require Import GoSem Bytes Spec SpecBias Galois GF PolyFacts GoFacts Vector VectorFacts Csprng Pool Polynomial PolynomialFacts Shamir SplitFacts
  CombineFacts RegenFacts Secrecy CsprngFacts CountFacts Derived RandomizerFacts Randomizer SplitP Pf1 Pf2 Pf3 Pf4 JointFacts SpecFrequency FrequencyFacts PermFacts Pf33 BiasFacts.
Import ListNotations.

(*PROPS
From Coq Require Import List NArith ZArith Lia Arith Bool Permutation.
From Coq.Init Require Import Byte.
From Verif Require Import GoSem Bytes Spec SpecBias Vector Csprng Pool Polynomial Shamir SpecFrequency ExData Pf45.
Import ListNotations.
*)

(** C90: Of the 256 byte values, 256/n leave a given remainder modulo [n], and one more if the remainder is less than 256 mod n. *)
Lemma C90_remainders_pf : forall n r, 0 < n -> r < n -> remainders n r = 256 / n + (if r <? 256 mod n then 1 else 0).
Proof. exact remainders_closed. Qed.

(*COPY
Example C90_remainders_case : remainders 255 0 = 2 /\ remainders 255 254 = 1 /\ remainders 100 55 = 3 /\ remainders 100 56 = 2.
Proof. vm_compute. auto. Qed.
END*)

(** C90: Perm(n), n >= 3: the first element is 0 for no key stream, and it is v (0 < v < n) for exactly those whose first byte has remainder v-1; with
    remainder n-1 it panics. Counted over all strings of any positive length that the key stream can begin with. *)
Lemma C90_first_pf : forall n M, 3 <= b2i n ->
  count (fun r => perm_panics (Perm (stream_of r) n)) (all_strings (S M)) = remainders (b2i n) (b2i n - 1) * 256 ^ M /\
  count (fun r => starts_with 0 (Perm (stream_of r) n)) (all_strings (S M)) = 0 /\
  forall v, 0 < v -> v < b2i n -> count (fun r => starts_with v (Perm (stream_of r) n)) (all_strings (S M)) = remainders (b2i n) (v - 1) * 256 ^ M.
Proof.
  intros n M Hn. assert (E0 : forall r, stream_of r 0 = nth 0 r x00) by reflexivity. split; [|split].
  - unfold remainders. rewrite <- (count_head1 (fun b => b2i b mod b2i n =? b2i n - 1) M). apply count_ext. intros r _. rewrite perm_panics_byte by exact Hn. rewrite E0. reflexivity.
  - apply count_0. intros r _. rewrite starts_with_byte by exact Hn. reflexivity.
  - intros v V0 Vn. unfold remainders. rewrite <- (count_head1 (fun b => b2i b mod b2i n =? v - 1) M). apply count_ext. intros r _. rewrite starts_with_byte by exact Hn. rewrite E0.
    apply Nat.ltb_lt in Vn as ->. destruct v; [lia|reflexivity].
Qed.

(** C90: Perm(n), n >= 4: the last element is n-1 for exactly this many key streams. In a uniform shuffle it would be one in n. *)
Lemma C90_last_pf : forall n M, 4 <= b2i n ->
  count (fun r => ends_with (b2i n - 1) (Perm (stream_of r) n)) (all_strings (S (S M))) =
  (256 - remainders (b2i n) (b2i n - 2) - remainders (b2i n) (b2i n - 1)) * ((256 - remainders (b2i n - 1) (b2i n - 2)) * 256 ^ M).
Proof.
  intros n M Hn. rewrite <- count_below2 by lia.
  pose proof (count_below1 (b2i n - 1) ltac:(lia)) as B1. replace (b2i n - 2) with (b2i n - 1 - 1) in * by lia. rewrite <- B1.
  rewrite <- (count_head1 (fun b => b2i b mod (b2i n - 1) <? b2i n - 1 - 1) M).
  rewrite <- (count_head (fun b => b2i b mod b2i n <? b2i n - 1 - 1) (fun r => b2i (nth 0 r x00) mod (b2i n - 1) <? b2i n - 1 - 1) (S M)).
  apply count_ext. intros r Hr. apply all_strings_in in Hr. rewrite ends_with_bytes by exact Hn. replace (b2i n - 1 - 1) with (b2i n - 2) by lia.
  destruct r as [|a [|b r]]; [discriminate|discriminate|]. reflexivity.
Qed.

(*COPY
(** All 65536 two-byte beginnings for n = 4: the last element stays in 2 * 64 * 171 of them, a third. *)
Example C90_last_case : (256 - remainders 4 2 - remainders 4 3) * (256 - remainders 3 2) = 2 * 64 * 171 /\
  ends_with 3 (Perm (fun _ => x00) x04) = true /\ ends_with 3 (Perm (fun _ => x02) x04) = false /\ starts_with 1 (Perm (fun _ => x00) x04) = true.
Proof. vm_compute. auto. Qed.
END*)

Section Shares.
Variables (ar : arch) (growcap : nat -> nat -> nat) (evBufs : nat -> bbuf) (secret : list byte) (parts threshold : Z).
Hypothesis G : grow_ok growcap.
Hypothesis V : valid_args secret parts threshold.

Lemma tag_nth polys xs i : length xs = 255 -> i < Z.to_nat parts -> tag (nth i (map (share_at polys) (tagsOf (Z.to_nat parts) xs)) []) = badd (nth i xs x00) x01.
Proof.
  intros L Hi. pose proof V as (_ & _ & _ & V4). assert (Lt : length (tagsOf (Z.to_nat parts) xs) = Z.to_nat parts) by (apply tagsOf_length; lia).
  rewrite <- (nth_tagsOf (Z.to_nat parts)) by lia. rewrite <- (map_tag_shares polys (tagsOf _ xs)) at 2.
  symmetry. rewrite (nth_map' tag _ i x00 []) by (rewrite map_length; lia). reflexivity.
Qed.

Definition perm_at (i v : nat) (o : outcome (list byte)) : bool := match o with Ret p => S (b2i (nth i p x00)) =? v | _ => false end.

Lemma perm_tag ks p i v : Perm ks xff = Ret p -> i < 255 -> (b2i (badd (nth i p x00) x01) =? v) = (S (b2i (nth i p x00)) =? v).
Proof.
  intros E Hi. destruct (byte_eq_dec (ks 0) xfe) as [F|F]; [rewrite (Perm255_panic ks F) in E; discriminate|].
  destruct (Perm255_ok ks F) as (q & E' & L & _ & N). rewrite E in E'. injection E' as <-.
  rewrite <- (b2i_tag (b2i (nth i p x00))), i2b_b2i; [reflexivity|].
  pose proof (b2i_lt (nth i p x00)). assert (nth i p x00 <> xff) by (intros Q; apply N; rewrite <- Q; apply nth_In; lia).
  assert (b2i (nth i p x00) <> 255); [|lia]. intros Q. apply H0. apply b2i_inj. exact Q.
Qed.

Lemma old_tag ks i v : i < Z.to_nat parts -> share_tag i v (SplitWithRandomizerOld ar growcap ks evBufs secret parts threshold) = perm_at i v (Perm ks xff).
Proof.
  intros Hi. pose proof V as (_ & _ & _ & V4). destruct (byte_eq_dec (ks 0) xfe) as [E|E].
  - rewrite SWROld_panic by assumption. rewrite (Perm255_panic ks E). reflexivity.
  - destruct (proj2 (C19_old_pf ar growcap ks evBufs secret parts threshold G V) E) as (sh & R). rewrite R. cbn [share_tag].
    destruct (SWROld_inv _ _ _ _ _ _ _ _ G R) as (_ & _ & xs & Ex & L & _ & _ & ->). rewrite Ex. cbn [perm_at].
    rewrite tag_nth by assumption. apply (perm_tag ks); [exact Ex|lia].
Qed.

Lemma new_tag fuel ks polB trB i v : (20 <= parts)%Z -> i < Z.to_nat parts ->
  share_tag i v (SplitWithRandomizer fuel ar growcap ks polB trB evBufs secret parts threshold) = perm_at i v (Perm ks xff).
Proof.
  intros H20 Hi. pose proof V as (_ & _ & _ & V4). destruct (C19_large_pf fuel ar growcap ks polB trB evBufs secret parts threshold G V H20) as (A & B).
  destruct (byte_eq_dec (ks 0) xfe) as [E|E].
  - rewrite (A E). rewrite (Perm255_panic ks E). reflexivity.
  - destruct (B E) as (sh & R). rewrite R. cbn [share_tag].
    destruct (SWR_inv _ _ _ _ _ _ _ _ _ _ _ G R) as (_ & xs & Ex & ->).
    destruct (Perm255_ok ks E) as (p & Ep & Lp & _). rewrite Ep. cbn [perm_at].
    assert (E20 : (20 <=? b2n (z2b parts))%N = true) by (apply N.leb_le; assert (b2i (z2b parts) = Z.to_nat parts) by (apply b2i_z2b; lia); unfold b2i in *; lia).
    unfold GetUniqueBytes in Ex. rewrite E20, Ep in Ex. cbn [bind] in Ex. rewrite b2i_z2b in Ex by lia.
    rewrite slice_ok in Ex by lia. assert (Exs : xs = firstn (Z.to_nat parts) p) by (injection Ex as <-; rewrite Nat.sub_0_r; reflexivity).
    assert (Et : tagsOf (Z.to_nat parts) xs = tagsOf (Z.to_nat parts) p) by (rewrite Exs; unfold tagsOf; rewrite firstn_firstn, Nat.min_id; reflexivity).
    rewrite Et, tag_nth by assumption. apply (perm_tag ks); [exact Ep|lia].
Qed.

Lemma perm_at_first v o : perm_at 0 (S v) o = starts_with v o.
Proof. destruct o; reflexivity. Qed.
Lemma perm_at_last ks : perm_at 254 255 (Perm ks xff) = ends_with 254 (Perm ks xff).
Proof.
  destruct (byte_eq_dec (ks 0) xfe) as [E|E]; [rewrite (Perm255_panic ks E); reflexivity|].
  destruct (Perm255_ok ks E) as (p & Ep & L & _). rewrite Ep. cbn [perm_at ends_with].
  rewrite nth_last; [rewrite L; replace (255 - 1) with 254 by lia; generalize (b2i (nth 254 p x00)); clear; intros k; reflexivity|].
  clear Ep. intros F. rewrite F in L. cbn [length] in L. lia.
Qed.

Lemma remainders_255 : remainders 255 254 = 1 /\ remainders 255 253 = 1 /\ remainders 254 253 = 1 /\ remainders 255 0 = 2.
Proof. vm_compute. auto. Qed.

Lemma count_tag (o : list byte -> outcome (list (list byte))) M :
  (forall i v r, i < Z.to_nat parts -> share_tag i v (o r) = perm_at i v (Perm (stream_of r) xff)) ->
  count (fun r => share_tag 0 2 (o r)) (all_strings (S M)) = 2 * 256 ^ M /\
  (forall v, 3 <= v <= 255 -> count (fun r => share_tag 0 v (o r)) (all_strings (S M)) = 256 ^ M) /\
  (forall v, v < 2 \/ 255 < v -> count (fun r => share_tag 0 v (o r)) (all_strings (S M)) = 0) /\
  (parts = 255%Z -> count (fun r => share_tag 254 255 (o r)) (all_strings (S (S M))) = 254 * (255 * 256 ^ M)).
Proof.
  intros H. pose proof V as (_ & V2 & V3 & _). assert (H0 : 0 < Z.to_nat parts) by lia.
  assert (N : 3 <= b2i xff) by (rewrite b2i_xff; lia).
  assert (F : forall v, count (fun r => share_tag 0 (S v) (o r)) (all_strings (S M)) = count (fun r => starts_with v (Perm (stream_of r) xff)) (all_strings (S M))).
  { intros v. apply count_ext. intros r _. rewrite H by exact H0. apply perm_at_first. }
  destruct (C90_first_pf xff M N) as (_ & F0 & F1). rewrite b2i_xff in F1. destruct remainders_255 as (R1 & R2 & R3 & R4).
  split; [|split; [|split]].
  - rewrite F, F1 by lia. replace (1 - 1) with 0 by lia. rewrite R4. reflexivity.
  - intros v Hv. replace v with (S (v - 1)) by lia. rewrite F, F1 by lia. rewrite C90_remainders_pf by lia.
    change (256 / 255) with 1. change (256 mod 255) with 1. destruct (Nat.ltb_spec (v - 1 - 1) 1); [lia|]. lia.
  - intros v Hv. destruct v as [|v].
    + apply count_0. intros r _. rewrite H by exact H0. destruct (Perm _ _); reflexivity.
    + rewrite F. destruct Hv as [Hv|Hv].
      * assert (v = 0) by lia. subst v. exact F0.
      * apply count_0. intros r _. rewrite starts_with_byte by exact N. rewrite b2i_xff. destruct (Nat.ltb_spec v 255); [lia|]. rewrite andb_false_r. reflexivity.
  - intros Hp. rewrite (count_ext _ (fun r => ends_with (b2i xff - 1) (Perm (stream_of r) xff))).
    + rewrite C90_last_pf by (rewrite b2i_xff; lia). rewrite b2i_xff. replace (255 - 2) with 253 by lia. replace (255 - 1) with 254 by lia. rewrite R1, R2, R3. reflexivity.
    + intros r _. rewrite H by lia. rewrite b2i_xff. replace (255 - 1) with 254 by lia. apply perm_at_last.
Qed.
End Shares.

(** C90: SplitWithRandomizer with 20 or more parts: the first share has tag 2 for two of 256 key streams, each tag from 3 to 255 for one of 256, and never tag 1;
    with 255 parts the last share has tag 255 for 254 * 255 of 65536 key streams. *)
Lemma C90_split_pf : forall fuel ar growcap polB trB evBufs secret parts threshold M,
  grow_ok growcap -> valid_args secret parts threshold -> (20 <= parts)%Z ->
  let call r := SplitWithRandomizer fuel ar growcap (stream_of r) polB trB evBufs secret parts threshold in
  count (fun r => share_tag 0 2 (call r)) (all_strings (S M)) = 2 * 256 ^ M /\
  (forall v, 3 <= v <= 255 -> count (fun r => share_tag 0 v (call r)) (all_strings (S M)) = 256 ^ M) /\
  (forall v, v < 2 \/ 255 < v -> count (fun r => share_tag 0 v (call r)) (all_strings (S M)) = 0) /\
  (parts = 255%Z -> count (fun r => share_tag 254 255 (call r)) (all_strings (S (S M))) = 254 * (255 * 256 ^ M)).
Proof.
  intros fuel ar growcap polB trB evBufs secret parts threshold M G V H20 call. apply (count_tag secret parts threshold V). intros i v r Hi.
  apply new_tag; assumption.
Qed.

(** C90: SplitWithRandomizerOld: the same, with any number of parts. *)
Lemma C90_split_old_pf : forall ar growcap evBufs secret parts threshold M,
  grow_ok growcap -> valid_args secret parts threshold ->
  let call r := SplitWithRandomizerOld ar growcap (stream_of r) evBufs secret parts threshold in
  count (fun r => share_tag 0 2 (call r)) (all_strings (S M)) = 2 * 256 ^ M /\
  (forall v, 3 <= v <= 255 -> count (fun r => share_tag 0 v (call r)) (all_strings (S M)) = 256 ^ M) /\
  (forall v, v < 2 \/ 255 < v -> count (fun r => share_tag 0 v (call r)) (all_strings (S M)) = 0) /\
  (parts = 255%Z -> count (fun r => share_tag 254 255 (call r)) (all_strings (S (S M))) = 254 * (255 * 256 ^ M)).
Proof.
  intros ar growcap evBufs secret parts threshold M G V call. apply (count_tag secret parts threshold V). intros i v r Hi. apply old_tag; assumption.
Qed.

(*COPY
Example C90_case : share_tag 0 2 (SplitWithRandomizerOld ex_ar growcap117 (fun _ => x00) ex_ev ex_secret 5 3) = true /\
  share_tag 0 3 (SplitWithRandomizerOld ex_ar growcap117 (fun _ => x01) ex_ev ex_secret 5 3) = true.
Proof. vm_compute. auto. Qed.
END*)
