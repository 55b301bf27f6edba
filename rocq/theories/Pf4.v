(** Proofs of the properties of the randomizers and of the split functions that use them (C18-C26, C49). *)
From Coq Require Import List NArith ZArith Lia Arith Bool Permutation.
From Coq.Init Require Import Byte.
From Verif Require Import GoSem Bytes Spec Galois GF PolyFacts GoFacts Vector Csprng Pool Polynomial PolynomialFacts Shamir SplitFacts
  CombineFacts Secrecy CsprngFacts Derived RandomizerFacts Randomizer SplitP SplitPTop Pf1 Pf2.
Import ListNotations.

(*PROPS
From Coq Require Import List NArith ZArith Lia Arith Bool Permutation.
From Coq.Init Require Import Byte.
From Verif Require Import GoSem Bytes Spec Vector Csprng Randomizer Pool Polynomial Shamir SplitP ExData Pf4.
Import ListNotations.
*)

Lemma sharing_tags secret t polys tags shares : is_sharing secret t polys tags shares -> map tag shares = tags.
Proof. intros (_ & _ & _ & ->). apply map_tag_shares. Qed.

(** C18: whatever SplitWithRandomizer returns combines to the secret. *)
Lemma C18_randomizer_combine_pf : forall fuel ar growcap ks polB trB evBufs secret parts threshold shares,
  grow_ok growcap ->
  SplitWithRandomizer fuel ar growcap ks polB trB evBufs secret parts threshold = Ret shares ->
  length shares = Z.to_nat parts /\ NoDup (map tag shares) /\
  (forall s, In s shares -> length s = length secret + 1) /\
  forall is, selection (Z.to_nat parts) (Z.to_nat threshold) is -> Combine (pick [] shares is) = Ret secret.
Proof.
  intros fuel ar growcap ks polB trB evBufs secret parts threshold shares G E.
  destruct (SWR_sharing _ _ _ _ _ _ _ _ _ _ _ G E) as (V & L & polys & tags & S). pose proof V as (Hs & H2 & H3 & H4).
  split; [exact L|]. split; [rewrite (sharing_tags _ _ _ _ _ S); apply S|]. split.
  - destruct S as (S1 & _ & _ & S4). intros s Hs'. rewrite S4 in Hs'. apply in_map_iff in Hs' as (x & <- & _). rewrite share_at_length, <- S1, map_length. reflexivity.
  - intros is Hi. apply (Combine_is_sharing secret (Z.to_nat threshold) polys tags); [lia|exact Hs|exact S|rewrite L; exact Hi].
Qed.

Lemma SWROld_sharing ar growcap ks evBufs secret parts threshold shares : grow_ok growcap ->
  SplitWithRandomizerOld ar growcap ks evBufs secret parts threshold = Ret shares ->
  valid_args secret parts threshold /\ length shares = Z.to_nat parts /\ ~ In x00 (map tag shares) /\
  exists polys tags, is_sharing secret (Z.to_nat threshold) polys tags shares.
Proof.
  intros G E. destruct (SWROld_inv _ _ _ _ _ _ _ _ G E) as (V & Hk & xs & Ex & Lx & ND & NF & Es). pose proof V as (Hs & H2 & H3 & H4).
  split; [exact V|]. assert (S : is_sharing secret (Z.to_nat threshold) (polysOf (Z.to_nat threshold) secret (take_stream ks (Z.to_nat threshold * length secret))) (tagsOf (Z.to_nat parts) xs) shares).
  { rewrite Es. apply polysOf_sharing; [lia|apply take_stream_length|apply tagsOf_NoDup; exact ND]. }
  split; [rewrite Es, map_length, tagsOf_length; lia|]. split; [|eauto].
  rewrite (sharing_tags _ _ _ _ _ S). intros F. apply (In_nth _ _ x00) in F as (i & Hi & Fi). rewrite tagsOf_length in Hi by lia.
  rewrite nth_tagsOf in Fi by lia. apply NF. assert (Ef : nth i xs x00 = xff).
  { rewrite <- (bsub_badd (nth i xs x00)), Fi. reflexivity. }
  rewrite <- Ef. apply nth_In. lia.
Qed.

Lemma C18_randomizerold_combine_pf : forall ar growcap ks evBufs secret parts threshold shares,
  grow_ok growcap ->
  SplitWithRandomizerOld ar growcap ks evBufs secret parts threshold = Ret shares ->
  length shares = Z.to_nat parts /\ NoDup (map tag shares) /\
  (forall s, In s shares -> length s = length secret + 1) /\
  forall is, selection (Z.to_nat parts) (Z.to_nat threshold) is -> Combine (pick [] shares is) = Ret secret.
Proof.
  intros ar growcap ks evBufs secret parts threshold shares G E.
  destruct (SWROld_sharing _ _ _ _ _ _ _ _ G E) as (V & L & _ & polys & tags & S). pose proof V as (Hs & H2 & H3 & H4).
  split; [exact L|]. split; [rewrite (sharing_tags _ _ _ _ _ S); apply S|]. split.
  - destruct S as (S1 & _ & _ & S4). intros s Hs'. rewrite S4 in Hs'. apply in_map_iff in Hs' as (x & <- & _). rewrite share_at_length, <- S1, map_length. reflexivity.
  - intros is Hi. apply (Combine_is_sharing secret (Z.to_nat threshold) polys tags); [lia|exact Hs|exact S|rewrite L; exact Hi].
Qed.

(*COPY
Example C18_run : exists shares,
  SplitWithRandomizer 3 ex_ar growcap117 ex_stream ex_stale ex_stale ex_ev ex_secret 5 3 = Ret shares /\
  Combine (pick [] shares [4; 0; 2]) = Ret ex_secret.
Proof. eexists. split; vm_compute; reflexivity. Qed.
Example C18_run_large : exists shares,
  SplitWithRandomizer 0 ex_ar growcap117 ex_stream ex_stale ex_stale ex_ev ex_secret 30 3 = Ret shares /\
  Combine (pick [] shares [29; 0; 2]) = Ret ex_secret.
Proof. eexists. split; vm_compute; reflexivity. Qed.
Example C18_run_old : exists shares,
  SplitWithRandomizerOld ex_ar growcap117 ex_stream ex_ev ex_secret 5 3 = Ret shares /\
  Combine (pick [] shares [4; 0; 2]) = Ret ex_secret.
Proof. eexists. split; vm_compute; reflexivity. Qed.
END*)

(** C19: with 20 or more parts, SplitWithRandomizer panics exactly when the first key stream byte is 254, and returns otherwise. *)
Lemma C19_large_pf : forall fuel ar growcap ks polB trB evBufs secret parts threshold,
  grow_ok growcap -> valid_args secret parts threshold -> (20 <= parts)%Z ->
  (ks 0 = xfe -> SplitWithRandomizer fuel ar growcap ks polB trB evBufs secret parts threshold = Panic PIndex) /\
  (ks 0 <> xfe -> exists shares, SplitWithRandomizer fuel ar growcap ks polB trB evBufs secret parts threshold = Ret shares).
Proof.
  intros fuel ar growcap ks polB trB evBufs secret parts threshold G V Hp. pose proof V as (Hs & H2 & H3 & H4).
  assert (Hn : 20 <= b2i (z2b parts)) by (rewrite b2i_z2b by lia; lia). split; intros Hk.
  - apply (SWR_notret fuel ar growcap ks polB trB evBufs secret parts threshold V). apply GetUniqueBytes_panic; assumption.
  - destruct (GetUniqueBytes_large fuel ks _ Hn Hk) as (xs & E & _). eexists. apply (SWR_ok fuel ar growcap ks polB trB evBufs secret parts threshold xs G V E).
Qed.

Lemma C19_old_pf : forall ar growcap ks evBufs secret parts threshold,
  grow_ok growcap -> valid_args secret parts threshold ->
  (ks 0 = xfe -> SplitWithRandomizerOld ar growcap ks evBufs secret parts threshold = Panic PIndex) /\
  (ks 0 <> xfe -> exists shares, SplitWithRandomizerOld ar growcap ks evBufs secret parts threshold = Ret shares).
Proof.
  intros ar growcap ks evBufs secret parts threshold G V. split; intros Hk; [apply SWROld_panic; assumption|].
  destruct (Perm255_ok ks Hk) as (p & Ep & Lp & _). eexists. apply (SWROld_ok ar growcap ks evBufs secret parts threshold p G V Ep Lp).
Qed.

(** C19: with fewer than 20 parts, SplitWithRandomizer never panics. It returns (the fuel does not matter: one extra read per byte is
    enough) exactly when [parts] bytes can be picked from the key stream by the rule [picks]; otherwise it loops forever, which
    happens exactly when at some index [i] both candidates are already taken. *)
Lemma C19_small_pf : forall ar growcap ks polB trB evBufs secret parts threshold,
  grow_ok growcap -> valid_args secret parts threshold -> (parts < 20)%Z ->
  let call fuel := SplitWithRandomizer fuel ar growcap ks polB trB evBufs secret parts threshold in
  let stuck := exists i out, i < Z.to_nat parts /\ picks ks i out /\ In (ks i) out /\ In (gadd (ks i) (ks 0)) out in
  ((exists shares, forall fuel, 1 <= fuel -> call fuel = Ret shares) <-> exists out, picks ks (Z.to_nat parts) out) /\
  ((forall fuel, call fuel = Diverge) <-> stuck) /\
  ((exists out, picks ks (Z.to_nat parts) out) \/ stuck) /\
  ~ ((exists out, picks ks (Z.to_nat parts) out) /\ stuck) /\
  (forall fuel p, call fuel <> Panic p) /\
  (NoDup (map ks (seq 0 (Z.to_nat parts))) -> picks ks (Z.to_nat parts) (map ks (seq 0 (Z.to_nat parts)))).
Proof.
  intros ar growcap ks polB trB evBufs secret parts threshold G V Hp call stuck. pose proof V as (Hs & H2 & H3 & H4).
  assert (Hb : b2i (z2b parts) = Z.to_nat parts) by (apply b2i_z2b; lia).
  assert (Hn : b2i (z2b parts) < 20) by lia.
  assert (Excl : ~ ((exists out, picks ks (Z.to_nat parts) out) /\ stuck)).
  { intros ((out & P) & i & out' & Hi & P' & A & B). exact (picks_stuck ks _ out i out' P Hi P' A B). }
  assert (NP : forall fuel p, call fuel <> Panic p).
  { intros fuel p F. destruct (GetUniqueBytes fuel ks (z2b parts)) as [xs|e|q| |] eqn:Eg.
    - unfold call in F. rewrite (SWR_ok fuel ar growcap ks polB trB evBufs secret parts threshold xs G V Eg) in F. exact (eq_ind (Ret _) (fun o => match o with Ret _ => True | _ => False end) I _ F).
    - exact (GetUniqueBytes_nofail _ _ _ _ Eg).
    - revert Eg. clear -Hn. unfold GetUniqueBytes. assert (E20 : (20 <=? b2n (z2b parts))%N = false) by (apply N.leb_gt; unfold b2i in Hn; lia). rewrite E20.
      destruct (GetUniqueBytes_small ks (z2b parts) Hn) as [(out & _ & F)|(D & _)].
      + intros Eg. set (st := (Read ks (zeros (b2i (z2b parts))), @nil byte)) in *.
        assert (M : forall l st p, foreach l (uniqStep fuel ks) st = Panic p -> exists p', foreach l (uniqStep (S fuel) ks) st = Panic p').
        { clear. induction l as [|i l IH]; intros st p; cbn [foreach]; [discriminate|]. unfold uniqStep at 1 3. destruct st as [buff seen].
          unfold idx. destruct (nth_error buff i) as [b|]; cbn [bind]; [|eauto].
          assert (U : forall f seen b, (exists b', uniqueAt f ks seen b = Ret b' /\ uniqueAt (S f) ks seen b = Ret b') \/ uniqueAt f ks seen b = Diverge).
          { clear. induction f as [|f IH]; intros seen b; cbn [uniqueAt]; destruct (mem b seen) eqn:E; try (left; exists b; rewrite ?E; auto; fail); [right; reflexivity|].
            rewrite Read_one. destruct (IH seen (bxor b (ks 0))) as [(b' & A & B)|D]; [left; exists b'; split; [exact A|exact B]|right; exact D]. }
          destruct (U fuel seen b) as [(b' & A & B)|D]; [|rewrite D; discriminate]. rewrite A, B. cbn [bind].
          unfold upd. destruct (i <? length buff); cbn [bind]; [apply IH|eauto]. }
        specialize (F fuel). unfold GetUniqueBytes in F. rewrite E20 in F.
        change (foreach _ _ _) with (foreach (seq 0 (b2i (z2b parts))) (uniqStep fuel ks) st) in Eg.
        change (foreach _ _ _) with (foreach (seq 0 (b2i (z2b parts))) (uniqStep (S fuel) ks) st) in F.
        destruct (foreach _ (uniqStep fuel ks) st) as [[b s]| |q'| |] eqn:Ef; cbn [bind] in Eg; try discriminate.
        destruct (M _ _ _ Ef) as (p' & Ep). rewrite Ep in F. discriminate.
      + intros Eg. specialize (D fuel). unfold GetUniqueBytes in D. rewrite E20 in D. rewrite Eg in D. discriminate.
    - unfold call, SplitWithRandomizer, SplitWithRandomizerBufs in F. apply valid_checkArgs in V. rewrite V, Eg in F. discriminate.
    - destruct (SWR_notret fuel ar growcap ks polB trB evBufs secret parts threshold V) as (N1 & _). unfold call in F. rewrite (N1 Eg) in F. discriminate. }
  destruct (GetUniqueBytes_small ks (z2b parts) Hn) as [(out & P & F)|(D & W)]; rewrite Hb in *.
  - assert (R : exists shares, forall fuel, 1 <= fuel -> call fuel = Ret shares).
    { eexists. intros [|f] Hf; [lia|]. exact (SWR_ok (S f) ar growcap ks polB trB evBufs secret parts threshold out G V (F f)). }
    split; [split; [intros _; exists out; exact P|intros _; exact R]|]. split.
    { split; intros X; exfalso; [|apply Excl; split; [exists out; exact P|exact X]]. destruct R as (sh & R). specialize (R 1 (le_n _)). rewrite X in R. discriminate. }
    split; [left; exists out; exact P|]. split; [exact Excl|]. split; [exact NP|]. apply picks_distinct.
  - assert (Dv : forall fuel, call fuel = Diverge) by (intros fuel; apply (SWR_notret fuel ar growcap ks polB trB evBufs secret parts threshold V), D).
    split; [split; [intros (sh & X); specialize (X 1 (le_n _)); rewrite Dv in X; discriminate|intros X; exfalso; apply Excl; split; [exact X|exact W]]|].
    split; [split; [intros _; exact W|intros _; exact Dv]|]. split; [right; exact W|]. split; [exact Excl|]. split; [exact NP|]. apply picks_distinct.
Qed.

(** C19: three equal leading key stream bytes make it loop forever. *)
Lemma C19_three_equal_hang_pf : forall fuel ar growcap ks polB trB evBufs secret parts threshold,
  grow_ok growcap -> valid_args secret parts threshold -> (3 <= parts < 20)%Z -> ks 1 = ks 0 -> ks 2 = ks 0 ->
  SplitWithRandomizer fuel ar growcap ks polB trB evBufs secret parts threshold = Diverge.
Proof.
  intros fuel ar growcap ks polB trB evBufs secret parts threshold G V Hp E1 E2.
  destruct (C19_small_pf ar growcap ks polB trB evBufs secret parts threshold G V ltac:(lia)) as (_ & D & _). apply D. clear D.
  assert (P1 : picks ks 1 [ks 0]).
  { split; [reflexivity|]. intros [|i] Hi; [|lia]. left. cbn. auto. }
  assert (C : gadd (ks 0) (ks 0) = x00) by apply gadd_self.
  destruct (byte_eq_dec (ks 0) x00) as [Z0|NZ].
  - exists 1, [ks 0]. split; [lia|]. split; [exact P1|]. rewrite E1, C, Z0. cbn. auto.
  - exists 2, [ks 0; x00]. split; [lia|]. split.
    + apply (picks_snoc ks 1 [ks 0] x00 P1). right. rewrite E1, C. cbn. intuition congruence.
    + rewrite E2, C. cbn. auto.
Qed.

(*COPY
Example C19_cases :
  SplitWithRandomizer 5 ex_ar growcap117 (fun _ => xfe) ex_stale ex_stale ex_ev ex_secret 30 3 = Panic PIndex /\
  SplitWithRandomizer 100 ex_ar growcap117 (fun _ => x17) ex_stale ex_stale ex_ev ex_secret 5 3 = Diverge /\
  NoDup (map ex_stream (seq 0 19)).
Proof.
  split; [vm_compute; reflexivity|]. split; [vm_compute; reflexivity|].
  vm_compute. repeat (constructor; [cbn; intuition discriminate|]). constructor.
Qed.
END*)

(** C20: with fewer than 20 parts, share [i] has tag 0 exactly when the byte picked at index [i] is 255, and then its data is the
    plaintext secret. *)
Lemma C20_zero_tag_small_pf : forall fuel ar growcap ks polB trB evBufs secret parts threshold shares i,
  grow_ok growcap -> (parts < 20)%Z ->
  SplitWithRandomizer fuel ar growcap ks polB trB evBufs secret parts threshold = Ret shares -> i < Z.to_nat parts ->
  (tag (nth i shares []) = x00 <-> exists out, picks ks (Z.to_nat parts) out /\ nth i out x00 = xff) /\
  (tag (nth i shares []) = x00 -> data (nth i shares []) = secret).
Proof.
  intros fuel ar growcap ks polB trB evBufs secret parts threshold shares i G Hp E Hi.
  destruct (SWR_inv _ _ _ _ _ _ _ _ _ _ _ G E) as (V & xs & Ex & Es). pose proof V as (Hs & H2 & H3 & H4).
  assert (Hb : b2i (z2b parts) = Z.to_nat parts) by (apply b2i_z2b; lia).
  pose proof (GetUniqueBytes_0 fuel ks (z2b parts) xs ltac:(lia) Ex) as P. rewrite Hb in P.
  assert (Lx : length xs = Z.to_nat parts) by apply P.
  assert (Et : nth i shares [] = share_at (polysOf (Z.to_nat threshold) secret (swrBuf growcap ks polB (Z.to_nat threshold) (length secret))) (badd (nth i xs x00) x01)).
  { rewrite Es. rewrite (nth_map' _ _ i [] x00) by (rewrite tagsOf_length; lia). rewrite nth_tagsOf by lia. reflexivity. }
  rewrite Et, tag_share_at. split.
  - split.
    + intros T. exists xs. split; [exact P|]. rewrite <- (bsub_badd (nth i xs x00)), T. reflexivity.
    + intros (out & P' & T). rewrite (picks_unique ks _ xs out P P'), T. reflexivity.
  - intros T. rewrite T, share_at_zero. unfold data. apply removelast_last.
Qed.

Lemma C20_no_zero_tag_large_pf : forall fuel ar growcap ks polB trB evBufs secret parts threshold shares,
  grow_ok growcap -> (20 <= parts)%Z ->
  SplitWithRandomizer fuel ar growcap ks polB trB evBufs secret parts threshold = Ret shares -> ~ In x00 (map tag shares).
Proof.
  intros fuel ar growcap ks polB trB evBufs secret parts threshold shares G Hp E F.
  destruct (SWR_inv _ _ _ _ _ _ _ _ _ _ _ G E) as (V & xs & Ex & Es). pose proof V as (Hs & H2 & H3 & H4).
  assert (Hb : b2i (z2b parts) = Z.to_nat parts) by (apply b2i_z2b; lia).
  destruct (byte_eq_dec (ks 0) xfe) as [Hk|Hk]; [rewrite GetUniqueBytes_panic in Ex by (try exact Hk; lia); discriminate|].
  destruct (GetUniqueBytes_large fuel ks (z2b parts) ltac:(lia) Hk) as (xs' & Ex' & Lx & ND & NF). rewrite Ex in Ex'. injection Ex' as <-.
  rewrite Es, map_tag_shares in F. apply (In_nth _ _ x00) in F as (i & Hi & Fi). rewrite tagsOf_length in Hi by lia.
  rewrite nth_tagsOf in Fi by lia. apply NF. assert (Ef : nth i xs x00 = xff).
  { rewrite <- (bsub_badd (nth i xs x00)), Fi. reflexivity. }
  rewrite <- Ef. apply nth_In. lia.
Qed.

Lemma C20_no_zero_tag_old_pf : forall ar growcap ks evBufs secret parts threshold shares,
  grow_ok growcap ->
  SplitWithRandomizerOld ar growcap ks evBufs secret parts threshold = Ret shares -> ~ In x00 (map tag shares).
Proof. intros ar growcap ks evBufs secret parts threshold shares G E. apply (SWROld_sharing _ _ _ _ _ _ _ _ G E). Qed.

(*COPY
(** the event occurs: a key stream that starts with 255 publishes the secret in share 0 *)
Example C20_run : exists shares,
  SplitWithRandomizer 3 ex_ar growcap117 (fun i => i2b (255 + i)) ex_stale ex_stale ex_ev ex_secret 5 3 = Ret shares /\
  nth 0 shares [] = ex_secret ++ [x00].
Proof. eexists. split; vm_compute; reflexivity. Qed.
END*)

(** C21: on a fresh pool, with distinct leading key stream bytes, the threshold-1 shares number t*p+1 .. t*p+t-1 determine secret byte
    [p] by the formula [leakByte] (for p = 0: shares 1 .. t-1). *)
Lemma C21_leak_pf : forall fuel ar growcap ks trB evBufs secret parts threshold shares p,
  grow_ok growcap -> (parts < 20)%Z -> NoDup (map ks (seq 0 (Z.to_nat parts))) ->
  SplitWithRandomizer fuel ar growcap ks [] trB evBufs secret parts threshold = Ret shares ->
  let t := Z.to_nat threshold in
  t * p + t <= Z.to_nat parts -> p < length secret ->
  coalition (Z.to_nat parts) t (seq (t * p + 1) (t - 1)) /\
  leakByte t p (pick [] shares (seq (t * p + 1) (t - 1))) = nth p secret x00.
Proof.
  intros fuel ar growcap ks trB evBufs secret parts threshold shares p G Hp ND E t Ht Hl.
  destruct (SWR_inv _ _ _ _ _ _ _ _ _ _ _ G E) as (V & xs & Ex & Es). pose proof V as (Hs & H2 & H3 & H4).
  assert (Hb : b2i (z2b parts) = Z.to_nat parts) by (apply b2i_z2b; lia).
  pose proof (GetUniqueBytes_0 fuel ks (z2b parts) xs ltac:(lia) Ex) as P. rewrite Hb in P.
  pose proof (picks_unique _ _ _ _ P (picks_distinct ks _ ND)) as Exs. subst xs. split.
  - split; [apply seq_NoDup|]. split; [intros i Hi; apply in_seq in Hi; lia|rewrite seq_length; lia].
  - rewrite swrBuf_fresh in Es by (try exact G; nia). rewrite Es. apply leakByte_ok; [lia|exact Ht|exact Hl].
Qed.

(** C21: hence secrecy fails: two secrets with different first bytes never show the same shares 1 .. t-1, whatever the two key
    streams (with distinct leading bytes). *)
Lemma C21_secrecy_fails_pf : forall fuel ar growcap ks ks' trB trB' evBufs evBufs' s s' parts threshold shares shares',
  grow_ok growcap -> (parts < 20)%Z ->
  NoDup (map ks (seq 0 (Z.to_nat parts))) -> NoDup (map ks' (seq 0 (Z.to_nat parts))) ->
  SplitWithRandomizer fuel ar growcap ks [] trB evBufs s parts threshold = Ret shares ->
  SplitWithRandomizer fuel ar growcap ks' [] trB' evBufs' s' parts threshold = Ret shares' ->
  nth 0 s x00 <> nth 0 s' x00 ->
  pick [] shares (seq 1 (Z.to_nat threshold - 1)) <> pick [] shares' (seq 1 (Z.to_nat threshold - 1)).
Proof.
  intros fuel ar growcap ks ks' trB trB' evBufs evBufs' s s' parts threshold shares shares' G Hp N1 N2 E1 E2 Hd F.
  destruct (SWR_inv _ _ _ _ _ _ _ _ _ _ _ G E1) as ((Hs & H2 & H3 & H4) & _).
  destruct (SWR_inv _ _ _ _ _ _ _ _ _ _ _ G E2) as ((Hs' & _) & _).
  assert (L1 : 0 < length s) by (destruct s; [congruence|cbn; lia]). assert (L2 : 0 < length s') by (destruct s'; [congruence|cbn; lia]).
  destruct (C21_leak_pf _ _ _ _ _ _ _ _ _ _ 0 G Hp N1 E1 ltac:(lia) L1) as (_ & A).
  destruct (C21_leak_pf _ _ _ _ _ _ _ _ _ _ 0 G Hp N2 E2 ltac:(lia) L2) as (_ & B).
  rewrite Nat.mul_0_r in A, B. cbn [Nat.add] in A, B. rewrite F in A. congruence.
Qed.

(*COPY
(** with threshold 2 and 19 parts a single share gives away one byte: share 1 byte 0, share 3 byte 1, ... *)
Example C21_run : exists shares,
  SplitWithRandomizer 3 ex_ar growcap117 ex_stream [] ex_stale ex_ev ex_secret 19 2 = Ret shares /\
  leakByte 2 0 [nth 1 shares []] = x68 /\ leakByte 2 1 [nth 3 shares []] = x65 /\ leakByte 2 4 [nth 9 shares []] = x6f.
Proof. eexists. split; [vm_compute; reflexivity|]. repeat split; vm_compute; reflexivity. Qed.
END*)

(** C22: CSPRNG.Read always XORs the same key stream prefix into the buffer; reading twice restores the buffer. *)
Lemma C22_read_pf : forall ks buff,
  length (Read ks buff) = length buff /\
  (forall i, i < length buff -> nth i (Read ks buff) x00 = gadd (nth i buff x00) (ks i)) /\
  Read ks (Read ks buff) = buff /\
  (forall n, Read ks (zeros n) = map ks (seq 0 n)).
Proof.
  intros ks buff. assert (N : forall b i, i < length b -> nth i (Read ks b) x00 = gadd (nth i b x00) (ks i)).
  { intros b i Hi. unfold Read. rewrite nth_xorStreamFrom by exact Hi. reflexivity. }
  split; [apply Read_length|]. split; [apply N|]. split; [|intros n; apply Read_zeros].
  apply nth_ext with x00 x00; [rewrite !Read_length; reflexivity|]. intros i Hi. rewrite !Read_length in Hi.
  rewrite N by (rewrite Read_length; exact Hi). rewrite N by exact Hi. rewrite gadd_assoc', gadd_self. apply gadd_0_r.
Qed.

(** C22: two secrets split with the same randomizer: share [i] of one XOR share [i] of the other is the XOR of the secrets. *)
Lemma C22_reuse_old_pf : forall ar ar' growcap growcap' ks evBufs evBufs' s s' parts threshold shares shares' i,
  grow_ok growcap -> grow_ok growcap' -> length s = length s' -> i < Z.to_nat parts ->
  SplitWithRandomizerOld ar growcap ks evBufs s parts threshold = Ret shares ->
  SplitWithRandomizerOld ar' growcap' ks evBufs' s' parts threshold = Ret shares' ->
  xor_bytes (data (nth i shares [])) (data (nth i shares' [])) = xor_bytes s s' /\ tag (nth i shares []) = tag (nth i shares' []).
Proof.
  intros ar ar' growcap growcap' ks evBufs evBufs' s s' parts threshold shares shares' i G G' L Hi E E'.
  destruct (SWROld_inv _ _ _ _ _ _ _ _ G E) as ((Hs & H2 & H3 & H4) & Hk & xs & Ex & Lx & ND & NF & Es).
  destruct (SWROld_inv _ _ _ _ _ _ _ _ G' E') as (_ & _ & xs' & Ex' & _ & _ & _ & Es'). rewrite Ex in Ex'. injection Ex' as <-.
  rewrite Es, Es'. rewrite !(nth_map' _ _ i [] x00) by (rewrite tagsOf_length; lia). rewrite !tag_share_at. split; [|reflexivity].
  rewrite <- L. apply share_xor; [lia|exact L|apply take_stream_length].
Qed.

Lemma C22_reuse_pf : forall fuel ar ar' growcap ks polB trB trB' evBufs evBufs' s s' parts threshold shares shares' i,
  grow_ok growcap -> length s = length s' -> i < Z.to_nat parts ->
  SplitWithRandomizer fuel ar growcap ks polB trB evBufs s parts threshold = Ret shares ->
  SplitWithRandomizer fuel ar' growcap ks polB trB' evBufs' s' parts threshold = Ret shares' ->
  xor_bytes (data (nth i shares [])) (data (nth i shares' [])) = xor_bytes s s' /\ tag (nth i shares []) = tag (nth i shares' []).
Proof.
  intros fuel ar ar' growcap ks polB trB trB' evBufs evBufs' s s' parts threshold shares shares' i G L Hi E E'.
  destruct (SWR_inv _ _ _ _ _ _ _ _ _ _ _ G E) as ((Hs & H2 & H3 & H4) & xs & Ex & Es).
  destruct (SWR_inv _ _ _ _ _ _ _ _ _ _ _ G E') as (_ & xs' & Ex' & Es'). rewrite Ex in Ex'. injection Ex' as <-.
  destruct (GetUniqueBytes_inv _ _ _ _ Ex) as (Lx & _). rewrite b2i_z2b in Lx by lia.
  rewrite Es, Es'. rewrite !(nth_map' _ _ i [] x00) by (rewrite tagsOf_length; lia). rewrite !tag_share_at. split; [|reflexivity].
  rewrite <- L. apply share_xor; [lia|exact L|apply swrBuf_length, G].
Qed.

(*COPY
Example C22_run : exists sh sh',
  SplitWithRandomizerOld ex_ar growcap117 ex_stream ex_ev ex_secret 5 3 = Ret sh /\
  SplitWithRandomizerOld ex_ar growcap117 ex_stream ex_ev [x00; x00; x00; x00; x00] 5 3 = Ret sh' /\
  xor_bytes (data (nth 2 sh [])) (data (nth 2 sh' [])) = ex_secret.
Proof. eexists _, _. split; [vm_compute; reflexivity|]. split; [vm_compute; reflexivity|vm_compute; reflexivity]. Qed.
END*)

(** C23: CSPRNG.Perm *)
Lemma C23_perm_pf : forall ks n,
  ((exists p, Perm ks n = Panic p) <-> b2i n <= 1 \/ (3 <= b2i n /\ b2i (ks 0) mod b2i n = b2i n - 1)) /\
  (forall e, Perm ks n <> Fail e) /\
  (~ (b2i n <= 1 \/ (3 <= b2i n /\ b2i (ks 0) mod b2i n = b2i n - 1)) ->
     exists p, Perm ks n = Ret p /\ Permutation (map i2b (seq 0 (b2i n))) p /\ (3 <= b2i n -> nth 0 p x00 <> x00)).
Proof.
  intros ks n. pose proof (b2i_lt n) as B.
  assert (C : b2i n = 0 \/ b2i n = 1 \/ b2i n = 2 \/ 3 <= b2i n) by lia.
  assert (Inj : forall m, b2i n = b2i m -> n = m) by (intros m Hm; apply b2n_inj; unfold b2i in Hm; lia).
  destruct C as [C|[C|[C|C]]].
  - rewrite (Inj x00 C), Perm_0. split; [split; [intros _; left; change (b2i x00) with 0; lia|eauto]|]. split; [discriminate|].
    intros X. exfalso. apply X. left. change (b2i x00) with 0. lia.
  - rewrite (Inj x01 C), Perm_1. split; [split; [intros _; left; change (b2i x01) with 1; lia|eauto]|]. split; [discriminate|].
    intros X. exfalso. apply X. left. change (b2i x01) with 1. lia.
  - rewrite (Inj x02 C), Perm_2. change (b2i x02) with 2. split; [split; [intros (p & X); discriminate|lia]|]. split; [discriminate|].
    intros _. exists [x00; x01]. split; [reflexivity|]. split; [apply Permutation_refl|lia].
  - destruct (Nat.eq_dec (b2i (ks 0) mod b2i n) (b2i n - 1)) as [E|E].
    + rewrite Perm_panic by assumption. split; [split; [intros _; right; split; assumption|eauto]|]. split; [discriminate|].
      intros X. exfalso. apply X. right. split; assumption.
    + destruct (Perm_ok ks n C E) as (p & Ep & P & H0). rewrite Ep. split; [split; [intros (q & X); discriminate|lia]|]. split; [discriminate|].
      intros _. exists p. split; [reflexivity|]. split; [exact P|]. intros _ F. rewrite F in H0. change (b2i x00) with 0 in H0. lia.
Qed.

(*COPY
Example C23_cases : Perm (fun _ => xfe) xff = Panic PIndex /\ Perm ex_stream x05 = Ret [x04; x03; x01; x02; x00].
Proof. split; vm_compute; reflexivity. Qed.
END*)

(** C24: CSPRNG.GetUniqueBytes *)
Lemma C24_unique_pf : forall fuel ks n out, GetUniqueBytes fuel ks n = Ret out -> length out = b2i n /\ NoDup out.
Proof. exact GetUniqueBytes_inv. Qed.

Lemma C24_small_pf : forall ks n, b2i n < 20 ->
  let stuck := exists i out, i < b2i n /\ picks ks i out /\ In (ks i) out /\ In (gadd (ks i) (ks 0)) out in
  (forall fuel out, GetUniqueBytes fuel ks n = Ret out -> picks ks (b2i n) out) /\
  (~ stuck -> exists out, forall fuel, 1 <= fuel -> GetUniqueBytes fuel ks n = Ret out) /\
  (stuck <-> forall fuel, GetUniqueBytes fuel ks n = Diverge) /\
  (NoDup (map ks (seq 0 (b2i n))) -> forall fuel, 1 <= fuel -> GetUniqueBytes fuel ks n = Ret (map ks (seq 0 (b2i n)))).
Proof.
  intros ks n Hn stuck. split; [intros fuel out; apply GetUniqueBytes_0; exact Hn|].
  destruct (GetUniqueBytes_small ks n Hn) as [(out & P & F)|(D & W)].
  - assert (Ex : ~ stuck) by (intros (i & out' & Hi & P' & A & B); exact (picks_stuck ks _ out i out' P Hi P' A B)).
    split; [intros _; exists out; intros [|f] Hf; [lia|apply F]|]. split.
    + split; [intros X; contradiction|]. intros X. specialize (F 0). rewrite X in F. discriminate.
    + intros ND [|f] Hf; [lia|]. rewrite F. f_equal. exact (picks_unique _ _ _ _ P (picks_distinct ks _ ND)).
  - split; [intros X; contradiction|]. split; [split; [intros _; exact D|intros _; exact W]|].
    intros ND. exfalso. destruct W as (i & out' & Hi & P' & A & B). exact (picks_stuck ks _ _ i out' (picks_distinct ks _ ND) Hi P' A B).
Qed.

Lemma C24_large_pf : forall fuel ks n, 20 <= b2i n ->
  (ks 0 = xfe -> GetUniqueBytes fuel ks n = Panic PIndex) /\
  (ks 0 <> xfe -> exists out, GetUniqueBytes fuel ks n = Ret out /\ ~ In xff out).
Proof.
  intros fuel ks n Hn. split; [apply GetUniqueBytes_panic; exact Hn|]. intros Hk. destruct (GetUniqueBytes_large fuel ks n Hn Hk) as (out & E & _ & _ & N). eauto.
Qed.

(*COPY
Example C24_cases : GetUniqueBytes 1 (stream_of [x05; x07; x05; x09]) x04 = Ret [x05; x07; x00; x09] /\
  GetUniqueBytes 100 (stream_of [x05; x05; x05]) x03 = Diverge.
Proof. split; vm_compute; reflexivity. Qed.
END*)

(** C25: randomizer.Randomizer.Perm never returns a permutation for n >= 2. *)
Lemma C25_not_a_permutation_pf : forall r n, 2 <= b2i n ->
  exists buff r', rzPerm r n = Ret (buff, r') /\ length buff = b2i n /\ nth 0 buff x00 = x00 /\ nth 1 buff x00 = x00 /\
    (forall i, i < b2i n -> b2i (nth i buff x00) < b2i n) /\ ~ NoDup buff /\ ~ Permutation (map i2b (seq 0 (b2i n))) buff.
Proof.
  intros r n Hn. destruct (rzPerm_ok r n Hn) as (buff & r' & E & L & Z0 & Z1 & B & _). exists buff, r'.
  assert (ND : ~ NoDup buff).
  { intros F. rewrite NoDup_nth in F. specialize (F 0 1 ltac:(lia) ltac:(lia)). rewrite Z0, Z1 in F. specialize (F eq_refl). discriminate. }
  repeat (split; [assumption|]). intros P. apply ND. apply (Permutation_NoDup P). apply identity_NoDup. pose proof (b2i_lt n). lia.
Qed.

Lemma C25_small_pf : forall r, (exists r', rzPerm r x01 = Ret ([x00], r')) /\ rzPerm r x00 = Panic PIndex.
Proof. intros r. split; [apply rzPerm_1|apply rzPerm_0]. Qed.

(*COPY
Example C25_run : match rzPerm {| rz_ks := ex_stream; rz_pos := 4 |} x05 with
  | Ret (b, _) => b = [x00; x00; x01; x02; x03] | _ => False end.
Proof. vm_compute. reflexivity. Qed.
END*)

(** C26: randomizer.Randomizer.Read continues the stream. *)
Lemma C26_read_pf : forall r a b,
  (let (ab, r2) := rzRead r (a ++ b) in let (a', r1) := rzRead r a in let (b', r2') := rzRead r1 b in ab = a' ++ b' /\ r2 = r2') /\
  (forall i, i < length a -> nth i (fst (rzRead r a)) x00 = gadd (nth i a x00) (rz_ks r (rz_pos r + i))).
Proof.
  intros r a b. split; [|intros i; apply rzRead_nth]. pose proof (rzRead_app r a b) as E. destruct (rzRead r (a ++ b)) as [ab r2].
  destruct (rzRead r a) as [a' r1]. cbn [fst snd] in E. destruct (rzRead r1 b) as [b' r2']. cbn [fst snd] in E. injection E as -> ->. auto.
Qed.

(*COPY
(** reading 2 and then 3 bytes from position 4 delivers bytes 4, 5 and 6, 7, 8 of the key stream *)
Example C26_run : let (a, r1) := rzRead {| rz_ks := ex_stream; rz_pos := 4 |} [x00; x00] in let (b, r2) := rzRead r1 [x00; x00; xff] in
  a = [ex_stream 4; ex_stream 5] /\ b = [ex_stream 6; ex_stream 7; gadd xff (ex_stream 8)] /\ rz_pos r2 = 9.
Proof. vm_compute. repeat split. Qed.
END*)

(** C49: all five variants return sharings in the same format. *)
Lemma C49_split_pf : forall ar growcap perm stream polB trB evBufs secret parts threshold shares,
  grow_ok growcap -> Permutation perm (seq 0 255) ->
  Split ar growcap perm stream polB trB evBufs secret parts threshold = Ret shares ->
  exists polys, is_sharing secret (Z.to_nat threshold) polys (map tag shares) shares.
Proof.
  intros ar growcap perm stream polB trB evBufs secret parts threshold shares G P E.
  destruct (C02_split_shape_pf _ _ _ _ _ _ _ _ _ _ _ G P E) as (_ & _ & _ & _ & _ & polys & S & _). exists polys. exact S.
Qed.

Lemma C49_generic_pf : forall perm stream secret parts threshold shares,
  Permutation perm (seq 0 255) -> SplitGeneric perm stream secret parts threshold = Ret shares ->
  exists polys, is_sharing secret (Z.to_nat threshold) polys (map tag shares) shares.
Proof.
  intros perm stream secret parts threshold shares P E.
  assert (V : valid_args secret parts threshold).
  { apply valid_checkArgs. unfold SplitGeneric in E. destruct (checkArgs secret parts threshold); [discriminate|reflexivity]. }
  destruct (SplitGeneric_sharing perm stream secret parts threshold P V) as (sh & polys & tags & E' & S & _).
  rewrite E in E'. injection E' as <-. exists polys. rewrite (sharing_tags _ _ _ _ _ S). exact S.
Qed.

Lemma C49_splitp_pf : forall perm stream secret parts threshold sched shares,
  Permutation perm (seq 0 255) -> (N.of_nat (length secret) < 4294967296)%N ->
  SplitP perm stream secret parts threshold sched (Ret shares) ->
  exists polys, is_sharing secret (Z.to_nat threshold) polys (map tag shares) shares.
Proof.
  intros perm stream secret parts threshold sched shares P Hl E.
  pose proof (SplitP_ret_small _ _ _ _ _ _ _ P E) as B. unfold secretLen, u32 in B. rewrite N.mod_small in B by exact Hl.
  destruct (C12_any_schedule_pf _ _ _ _ _ _ _ P B E) as (_ & _ & (polys & order & S & _) & _). exists polys. exact S.
Qed.

Lemma C49_randomizer_pf : forall fuel ar growcap ks polB trB evBufs secret parts threshold shares,
  grow_ok growcap -> SplitWithRandomizer fuel ar growcap ks polB trB evBufs secret parts threshold = Ret shares ->
  exists polys, is_sharing secret (Z.to_nat threshold) polys (map tag shares) shares.
Proof.
  intros fuel ar growcap ks polB trB evBufs secret parts threshold shares G E.
  destruct (SWR_sharing _ _ _ _ _ _ _ _ _ _ _ G E) as (_ & _ & polys & tags & S). exists polys. rewrite (sharing_tags _ _ _ _ _ S). exact S.
Qed.

Lemma C49_randomizerold_pf : forall ar growcap ks evBufs secret parts threshold shares,
  grow_ok growcap -> SplitWithRandomizerOld ar growcap ks evBufs secret parts threshold = Ret shares ->
  exists polys, is_sharing secret (Z.to_nat threshold) polys (map tag shares) shares.
Proof.
  intros ar growcap ks evBufs secret parts threshold shares G E.
  destruct (SWROld_sharing _ _ _ _ _ _ _ _ G E) as (_ & _ & _ & polys & tags & S). exists polys. rewrite (sharing_tags _ _ _ _ _ S). exact S.
Qed.

(** C49: ... and this format is all that Combine (and, by C14_mix_combines, Regenerate) needs. *)
Lemma C49_format_combines_pf : forall secret t polys tags shares is, 2 <= t -> secret <> [] ->
  is_sharing secret t polys tags shares -> selection (length shares) t is -> Combine (pick [] shares is) = Ret secret.
Proof. exact Combine_is_sharing. Qed.

(*COPY
(** a sharing with threshold 2 of a 1-byte secret, written down by hand *)
Example C49_case : is_sharing [x04] 2 [[x04; x01]] [x01; x02; x07] [[x05; x01]; [x06; x02]; [x03; x07]] /\ selection 3 2 [2; 0] /\
  Combine (pick [] [[x05; x01]; [x06; x02]; [x03; x07]] [2; 0]) = Ret [x04].
Proof.
  split; [|split; [|vm_compute; reflexivity]].
  - split; [reflexivity|]. split; [repeat constructor|]. split; [repeat constructor; cbn; intuition discriminate|vm_compute; reflexivity].
  - split; [repeat constructor; cbn; intuition lia|]. split; [cbn; intuition lia|cbn; lia].
Qed.
END*)
