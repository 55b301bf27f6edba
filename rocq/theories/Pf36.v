(** Proofs about detecting and correcting altered shares with nothing but Combine (C82). *)
(*PROPS
From Coq Require Import List NArith ZArith Lia Arith Bool Permutation.
From Coq.Init Require Import Byte.
From Verif Require Import GoSem Bytes Spec SpecDetect Galois Pool Vector Polynomial Shamir ExData Pf36.
Import ListNotations.
*)
From Coq Require Import List NArith ZArith Lia Arith Bool Permutation.
From Coq.Init Require Import Byte.
From Verif Require Import GoSem Bytes Spec SpecDetect Galois GF PolyFacts GoFacts Pool Vector Polynomial PolynomialFacts Shamir SplitFacts CombineFacts Derived DetectFacts ExData.
Import ListNotations.

(** C82: leave out each of at least three parts (of equal length, with distinct non-zero tags) in turn. At every byte position the results of Combine
    are either all the same, and then the same as with all parts, or no two of them are the same. *)
Lemma C82_agree_pf : forall parts, acceptable parts -> 3 <= length parts -> ~ In x00 (map tag parts) ->
  exists whole rest, Combine parts = Ret whole /\
    (forall i, i < length parts -> Combine (without i parts) = Ret (rest i) /\ length (rest i) = length whole) /\
    forall p, p < length whole ->
      (forall i, i < length parts -> nth p (rest i) x00 = nth p whole x00) \/
      (forall i k, i < length parts -> k < length parts -> i <> k -> nth p (rest i) x00 <> nth p (rest k) x00).
Proof.
  intros parts A L3 NZ. set (N := length (nth 0 parts []) - 1).
  exists (interpAt parts N x00), (fun i => interpAt (without i parts) N x00).
  split; [apply accepted_combine, A|]. split.
  { intros i Hi. split; [apply without_combine; assumption|rewrite !interpAt_length; reflexivity]. }
  intros p Hp. rewrite interpAt_length in Hp.
  destruct (byte_eq_dec (gwo parts p 0 x00) (gwo parts p 1 x00)) as [E|E].
  - left. intros i Hi. rewrite !nth_interpAt by exact Hp. rewrite (all_same parts A L3 p 0 1) by (lia || assumption).
    apply (gwo_same parts A L3 p 0 1); (lia || assumption).
  - right. intros i k Hi Hk D F. apply E. rewrite !nth_interpAt in F by exact Hp.
    rewrite (gwo_same parts A L3 p i k 0), (gwo_same parts A L3 p i k 1) by (lia || assumption). reflexivity.
Qed.

Lemma claims_length received sent : claims_to_be received sent -> length received = length sent.
Proof. intros [L _]. rewrite <- (map_length (@length byte)), L, map_length. reflexivity. Qed.
Lemma claims_nth received sent i : claims_to_be received sent -> i < length sent ->
  length (nth i received []) = length (nth i sent []) /\ tag (nth i received []) = tag (nth i sent []).
Proof.
  intros C Hi. pose proof (claims_length _ _ C) as L. destruct C as [C1 C2].
  split; [rewrite <- !(nth_map' (@length byte) _ i 0 []), C1 by lia; reflexivity|rewrite <- !(nth_map' tag _ i x00 []), C2 by lia; reflexivity].
Qed.

Section Single.
Context (secret : list byte) (t : nat) (polys : list (list byte)) (tags : list byte) (shares : list (list byte)) (is : list nat) (received : list (list byte)) (j : nat).
Hypothesis Ht : 2 <= t.
Hypothesis Hs : secret <> [].
Hypothesis Sh : is_sharing secret t polys tags shares.
Hypothesis NZ : ~ In x00 tags.
Hypothesis Sel : selection (length shares) (t + 1) is.
Let sent := pick [] shares is.
Hypothesis C : claims_to_be received sent.
Hypothesis Hj : j < length is.
Hypothesis Same : forall i, i < length is -> i <> j -> nth i received [] = nth i sent [].

Lemma lp : length polys = length secret.
Proof. destruct Sh as (E & _). rewrite <- E, map_length. reflexivity. Qed.
Lemma lsent : length sent = length is.
Proof. apply pick_length. Qed.
Lemma lrec : length received = length is.
Proof. rewrite (claims_length _ _ C). apply lsent. Qed.
Lemma l3 : 3 <= length received.
Proof. rewrite lrec. destruct Sel as (_ & _ & H). lia. Qed.
Lemma sent_at i : i < length is -> exists x, In x tags /\ nth i sent [] = share_at polys x.
Proof.
  intros Hi. destruct Sh as (_ & _ & _ & E). destruct Sel as (_ & R & _). unfold sent, pick. rewrite (nth_map' (fun i => nth i shares []) is i [] 0) by exact Hi.
  assert (Q : nth i is 0 < length shares) by (apply R, nth_In, Hi). rewrite E in Q |- *. rewrite map_length in Q.
  exists (nth (nth i is 0) tags x00). split; [apply nth_In, Q|]. apply nth_map'. exact Q.
Qed.
Lemma sent_len i : i < length is -> length (nth i sent []) = length secret + 1.
Proof. intros Hi. destruct (sent_at i Hi) as (x & _ & ->). rewrite share_at_length, lp. reflexivity. Qed.
Lemma rec_len i : i < length is -> length (nth i received []) = length secret + 1.
Proof. intros Hi. rewrite (proj1 (claims_nth _ _ i C ltac:(rewrite lsent; exact Hi))). apply sent_len, Hi. Qed.
Lemma tags_sent : map tag received = pick x00 tags is.
Proof.
  destruct C as [_ C2]. rewrite C2. unfold sent. destruct Sh as (_ & _ & _ & E). destruct Sel as (_ & R & _). rewrite E in R |- *. rewrite map_length in R.
  rewrite (pick_map (share_at polys) tags is [] x00) by exact R. apply map_tag_shares.
Qed.
Lemma rec_nonzero : ~ In x00 (map tag received).
Proof.
  rewrite tags_sent. intros F. apply in_map_iff in F as (i & E & Hi). apply NZ. rewrite <- E. apply nth_In.
  destruct Sh as (_ & _ & _ & S4). destruct Sel as (_ & R & _). rewrite S4 in R. rewrite map_length in R. apply R, Hi.
Qed.
Lemma rec_acceptable : acceptable received.
Proof.
  pose proof l3 as L3. pose proof lrec as LR. assert (0 < length secret) by (destruct secret; [congruence|cbn [length]; lia]).
  assert (L0 : length (nth 0 received []) = length secret + 1) by (apply rec_len; lia).
  split; [lia|]. split; [lia|]. split.
  - intros q Hq. apply In_nth with (d := []) in Hq as (i & Hi & <-). rewrite L0. apply rec_len. lia.
  - rewrite tags_sent. destruct Sh as (_ & _ & S3 & S4). destruct Sel as (N1 & R & _). rewrite S4, map_length in R. apply pick_NoDup; assumption.
Qed.
Lemma rec_right i p : i < length is -> p < length secret -> nth p (nth i received []) x00 = nth p (nth i sent []) x00 ->
  nth p (nth i received []) x00 = heval (nth p polys []) (tag (nth i received [])).
Proof.
  intros Hi Hp E. rewrite E. rewrite (proj2 (claims_nth _ _ i C ltac:(rewrite lsent; exact Hi))). destruct (sent_at i Hi) as (x & _ & ->).
  rewrite tag_share_at. apply nth_share_at. rewrite lp. exact Hp.
Qed.
Lemma poly_fun p : p < length secret -> polyfun (length received - 1) (heval (nth p polys [])).
Proof.
  intros Hp. exists (nth p polys []). split; [|reflexivity]. destruct Sh as (_ & F & _). rewrite Forall_forall in F. rewrite (F (nth p polys [])) by (apply nth_In; rewrite lp; exact Hp).
  rewrite lrec. destruct Sel as (_ & _ & H). lia.
Qed.
Lemma without_j : Combine (without j received) = Ret secret.
Proof.
  assert (E : without j received = without j sent).
  { apply (nth_ext _ _ [] []).
    - rewrite !without_length; rewrite ?lrec, ?lsent; auto.
    - intros i _. unfold without. pose proof lrec as LR. pose proof lsent as LS.
      assert (F1 : firstn j received = firstn j sent).
      { apply (nth_ext _ _ [] []); rewrite !firstn_length; [lia|]. intros k Hk. rewrite !nth_firstn by lia. apply Same; lia. }
      assert (F2 : skipn (S j) received = skipn (S j) sent).
      { apply (nth_ext _ _ [] []); rewrite !skipn_length; [lia|]. intros k Hk. rewrite !nth_skipn. apply Same; lia. }
      rewrite F1, F2. reflexivity. }
  rewrite E. unfold sent, pick. rewrite <- map_without. apply (Combine_is_sharing secret t polys tags); try assumption.
  destruct Sel as (N1 & R & L). split; [apply NoDup_without, N1|]. split.
  - intros i Hi. apply (without_in _ 0) in Hi as (k & Hk & _ & <-). apply R, nth_In, Hk.
  - rewrite without_length by exact Hj. lia.
Qed.
Lemma differ_iff p i k : p < length secret -> i < length is -> k < length is -> i <> k ->
  (gwo received p i x00 = gwo received p k x00 <-> nth p (nth j received []) x00 = nth p (nth j sent []) x00).
Proof.
  intros Hp Hi Hk D. pose proof lrec as LR. pose proof l3 as L3.
  assert (U : forall l, l < length is -> (forall q, q < length is -> q <> l -> nth p (nth q received []) x00 = heval (nth p polys []) (tag (nth q received []))) ->
    forall x, gwo received p l x = heval (nth p polys []) x).
  { intros l Hl Q. apply (polyfun_unique (length received - 1) _ _ (map tag (without l received))).
    - apply gwo_poly. lia.
    - apply poly_fun, Hp.
    - rewrite map_without. apply NoDup_without, rec_acceptable.
    - rewrite map_length, without_length by lia. lia.
    - intros r Hr. apply in_map_iff in Hr as (q & <- & Hq). apply (without_in _ []) in Hq as (m & Hm & Dm & <-).
      rewrite gwo_at by (try apply rec_acceptable; lia). apply Q; lia. }
  split.
  - intros E. assert (Ex : forall x, gwo received p j x = heval (nth p polys []) x).
    { apply U; [exact Hj|]. intros q Hq Dq. apply rec_right; [exact Hq|exact Hp|]. rewrite Same by assumption. reflexivity. }
    assert (G : gwo received p j x00 = gwo received p i x00) by (apply (gwo_same received rec_acceptable L3 p i k j); try lia; [apply rec_nonzero|exact E]).
    destruct (sent_at j Hj) as (x & _ & Es).
    transitivity (gwo received p j (tag (nth j received []))).
    + destruct (Nat.eq_dec i j) as [Eij|Dij].
      * symmetry. rewrite <- Eij. apply (gwo_all received rec_acceptable L3 p i k i); try lia; [apply rec_nonzero|exact E].
      * symmetry. apply (gwo_all received rec_acceptable L3 p j i j); try lia; [apply rec_nonzero|exact G].
    + rewrite Ex. rewrite (proj2 (claims_nth _ _ j C ltac:(rewrite lsent; exact Hj))), Es, tag_share_at. symmetry. apply nth_share_at. rewrite lp. exact Hp.
  - intros E. assert (Q : forall q, q < length is -> nth p (nth q received []) x00 = heval (nth p polys []) (tag (nth q received []))).
    { intros q Hq. apply rec_right; [exact Hq|exact Hp|]. destruct (Nat.eq_dec q j) as [->|Dq]; [exact E|]. rewrite Same by assumption. reflexivity. }
    rewrite !U by auto. reflexivity.
Qed.
End Single.

(** C82: one altered share among at least threshold+1. Let the shares numbered [is] of a sharing with non-zero tags arrive, all but number [j] unaltered, and
    that one with its length and tag intact. Leaving it out gives the secret; and at every byte position the results of leaving out different shares
    agree with each other if and only if the altered share is right at this position. *)
Lemma C82_single_pf : forall secret t polys tags shares is received j,
  2 <= t -> secret <> [] -> is_sharing secret t polys tags shares -> ~ In x00 tags -> selection (length shares) (t + 1) is ->
  claims_to_be received (pick [] shares is) -> j < length is ->
  (forall i, i < length is -> i <> j -> nth i received [] = nth (nth i is 0) shares []) ->
  Combine (without j received) = Ret secret /\
  exists rest, (forall i, i < length is -> Combine (without i received) = Ret (rest i)) /\
    forall p i k, p < length secret -> i < length is -> k < length is -> i <> k ->
      (nth p (rest i) x00 = nth p (rest k) x00 <-> nth p (nth j received []) x00 = nth p (nth (nth j is 0) shares []) x00).
Proof.
  intros secret t polys tags shares is received j Ht Hs Sh NZ Sel C Hj Same.
  assert (PN : forall i, i < length is -> nth (nth i is 0) shares [] = nth i (pick [] shares is) []).
  { intros i Hi. unfold pick. symmetry. apply (nth_map' (fun i => nth i shares []) is i [] 0 Hi). }
  assert (Same' : forall i, i < length is -> i <> j -> nth i received [] = nth i (pick [] shares is) []) by (intros i Hi D; rewrite <- PN by exact Hi; apply Same; assumption).
  assert (LR : length received = length is) by (rewrite (claims_length _ _ C); apply pick_length).
  assert (A : acceptable received) by (eapply (rec_acceptable secret t polys tags shares is received); eassumption).
  assert (L3 : 3 <= length received) by (rewrite LR; destruct Sel as (_ & _ & H); lia).
  assert (L0 : length (nth 0 received []) - 1 = length secret).
  { assert (Q : length (nth 0 received []) = length secret + 1); [|lia]. eapply (rec_len secret t polys tags shares is received); try eassumption. lia. }
  split; [apply (without_j secret t polys tags shares is received j); assumption|].
  exists (fun i => interpAt (without i received) (length (nth 0 received []) - 1) x00). split.
  - intros i Hi. apply without_combine; [exact A|exact L3|lia].
  - intros p i k Hp Hi Hk D. rewrite !nth_interpAt by lia. rewrite PN by exact Hj.
    apply (differ_iff secret t polys tags shares is received j); assumption.
Qed.

Lemma NoDup_firstn' {A} k : forall l : list A, NoDup l -> NoDup (firstn k l).
Proof.
  induction k as [|k IH]; intros l N; [constructor|]. destruct N as [|a l H N]; [constructor|]. cbn [firstn]. constructor; [|apply IH, N].
  intros F. apply H. rewrite <- (firstn_skipn k l). apply in_or_app. left. exact F.
Qed.
Lemma filter_split {A} (f : A -> bool) l : length (filter f l) + length (filter (fun x => negb (f x)) l) = length l.
Proof. induction l as [|a l IH]; [reflexivity|]. cbn [filter]. destruct (f a); cbn [negb length]; lia. Qed.

(** C82: correcting altered shares. Of the shares numbered [is] at most [e] arrive altered, with lengths and tags intact. If [threshold]+[e] or more of those
    received agree with each other, in that Combine returns the same [s'] for any [threshold] of them, then [s'] is the secret; and if at least
    [threshold]+2[e] were received, there are such shares. *)
Lemma C82_correct_pf : forall secret t polys tags shares is received e,
  2 <= t -> secret <> [] -> is_sharing secret t polys tags shares -> NoDup is -> (forall i, In i is -> i < length shares) ->
  claims_to_be received (pick [] shares is) -> wrong received (pick [] shares is) <= e ->
  (forall js s', NoDup js -> (forall j, In j js -> j < length is) -> t + e <= length js -> consistent Combine received t js s' -> s' = secret) /\
  (t + 2 * e <= length is ->
   exists js, NoDup js /\ (forall j, In j js -> j < length is) /\ t + e <= length js /\ consistent Combine received t js secret).
Proof.
  intros secret t polys tags shares is received e Ht Hs Sh ND R C W.
  set (sent := pick [] shares is) in *. assert (LS : length sent = length is) by apply pick_length.
  pose proof (claims_length _ _ C) as LR. rewrite wrong_length in W by exact LR. rewrite LR, LS in W.
  set (bad := fun j => if list_eq_dec byte_eq_dec (nth j received []) (nth j sent []) then false else true) in *.
  assert (good : forall j, negb (bad j) = true -> nth j received [] = nth j sent []).
  { intros j. unfold bad. destruct (list_eq_dec byte_eq_dec (nth j received []) (nth j sent [])); [auto|discriminate]. }
  assert (Cons : forall ks, NoDup ks -> length ks = t -> (forall k, In k ks -> k < length is /\ negb (bad k) = true) -> Combine (pick [] received ks) = Ret secret).
  { intros ks Nk Lk Hk. replace (pick [] received ks) with (pick [] shares (pick 0 is ks)).
    - apply (Combine_is_sharing secret t polys tags); try assumption. split; [apply pick_NoDup; [exact ND|exact Nk|intros k Ik; apply Hk, Ik]|]. split.
      + intros i Hi. apply in_map_iff in Hi as (k & <- & Ik). apply R, nth_In, Hk, Ik.
      + rewrite pick_length. lia.
    - unfold pick at 1 2 3. rewrite map_map. apply map_ext_in. intros k Ik. destruct (Hk k Ik) as [K1 K2]. rewrite (good k K2). unfold sent, pick. symmetry. apply (nth_map' (fun i => nth i shares []) is k [] 0 K1). }
  split.
  - intros js s' Nj Rj Lj Cj.
    set (gs := filter (fun x => negb (bad x)) js).
    assert (Lg : t <= length gs).
    { assert (B : length (filter bad js) <= e).
      { eapply Nat.le_trans; [|exact W]. apply NoDup_incl_length; [apply NoDup_filter, Nj|]. intros x Hx. apply filter_In in Hx as [X1 X2].
        apply filter_In. split; [|exact X2]. apply in_seq. specialize (Rj x X1). lia. }
      pose proof (filter_split bad js) as F. fold gs in F. lia. }
    assert (Ng : NoDup (firstn t gs)).
    { assert (Q : NoDup gs) by (apply NoDup_filter, Nj). apply NoDup_firstn', Q. }
    assert (Ig : forall x, In x (firstn t gs) -> In x gs) by (intros x Hx; rewrite <- (firstn_skipn t gs); apply in_or_app; left; exact Hx).
    assert (Lf : length (firstn t gs) = t) by (rewrite firstn_length; lia).
    assert (E1 : Combine (pick [] received (firstn t gs)) = Ret s').
    { apply Cj; [exact Ng|exact Lf|]. intros k Hk. apply Ig, filter_In in Hk. apply Hk. }
    rewrite (Cons (firstn t gs)) in E1; [injection E1 as <-; reflexivity|exact Ng|exact Lf|].
    intros k Hk. apply Ig, filter_In in Hk as [K1 K2]. split; [apply Rj, K1|exact K2].
  - intros L. exists (filter (fun x => negb (bad x)) (seq 0 (length is))). split; [apply NoDup_filter, seq_NoDup|]. split.
    { intros j Hj. apply filter_In in Hj as [Hj _]. apply in_seq in Hj. lia. }
    split.
    { pose proof (filter_split bad (seq 0 (length is))) as F. rewrite seq_length in F. lia. }
    intros ks Nk Lk Hk. apply Cons; [exact Nk|exact Lk|]. intros k Ik. specialize (Hk k Ik). apply filter_In in Hk as [K1 K2]. apply in_seq in K1. split; [lia|exact K2].
Qed.

Lemma filter_range f n a e : (forall j, j < n -> f j = true -> a <= j < a + e) -> length (filter f (seq 0 n)) <= e.
Proof.
  intros H. rewrite <- (seq_length e a). apply NoDup_incl_length; [apply NoDup_filter, seq_NoDup|]. intros j Hj. apply filter_In in Hj as [H1 H2].
  apply in_seq in H1. apply in_seq. apply H; [lia|exact H2].
Qed.

Lemma nth_padd p : forall q i, nth i (padd p q) x00 = gadd (nth i p x00) (nth i q x00).
Proof.
  induction p as [|a p IH]; intros [|b q] [|i]; cbn [padd nth]; rewrite ?gadd_0_l, ?gadd_0_r; try reflexivity. apply IH.
Qed.

(** C82: why threshold+2e shares are needed. If Split made fewer than [threshold]+2[e] shares, then for every run there are another secret of the same
    length, another random stream, and received parts that are all the shares of the first run with at most [e] altered and all the shares of the second
    run with at most [e] altered: nobody can tell which secret was shared. *)
Lemma C82_limit_pf : forall ar growcap perm stream polB trB evBufs secret parts threshold e shares,
  grow_ok growcap -> Permutation perm (seq 0 255) -> (1 <= e) -> (parts < threshold + 2 * Z.of_nat e)%Z ->
  Split ar growcap perm stream polB trB evBufs secret parts threshold = Ret shares ->
  exists secret' stream' shares' received,
    length secret' = length secret /\ secret' <> secret /\
    Split ar growcap perm stream' polB trB evBufs secret' parts threshold = Ret shares' /\
    claims_to_be received shares /\ wrong received shares <= e /\
    claims_to_be received shares' /\ wrong received shares' <= e.
Proof.
  intros ar growcap perm stream polB trB evBufs secret parts threshold e shares G P He Hp E.
  assert (V : valid_args secret parts threshold).
  { apply valid_checkArgs. unfold Split, SplitBufs in E. destruct (checkArgs secret parts threshold); [discriminate|reflexivity]. }
  pose proof V as (Hs & H2 & H3 & H4). apply valid_checkArgs in V.
  destruct (perm_coords perm P) as (ND & NF & L255). rewrite map_length in L255.
  rewrite (Split_ok ar growcap perm stream polB trB evBufs secret parts threshold G V) in E by lia. injection E as <-.
  destruct secret as [|s0 secret]; [congruence|].
  set (t := Z.to_nat threshold). set (n := Z.to_nat parts).
  set (tags := tagsOf n (map i2b perm)).
  assert (Lt : length tags = n) by (apply tagsOf_length; rewrite map_length; lia).
  assert (NZ : ~ In x00 tags) by (apply tagsOf_nonzero, NF).
  assert (Q : exists g, length g = t /\ nth 0 g x00 <> x00 /\ forall i, i < t - 1 -> heval g (nth i tags x00) = x00).
  { exists (prodpoly (firstn (t - 1) tags)). split; [rewrite prodpoly_length, firstn_length; lia|]. split.
    - rewrite <- heval_0, heval_prodpoly. apply gprod_neq_0. intros F. apply in_map_iff in F as (r & E1 & Hr). rewrite gadd_0_l in E1. subst r.
      apply NZ. rewrite <- (firstn_skipn (t - 1) tags). apply in_or_app. left. exact Hr.
    - intros i Hi. rewrite heval_prodpoly. apply gprod_zero. apply in_map_iff. exists (nth i tags x00). split; [apply gadd_self|].
      rewrite <- (nth_firstn tags (t - 1) i) by exact Hi. apply nth_In. rewrite firstn_length. lia. }
  destruct Q as (g & Lg & G0 & Gz).
  set (secret' := gadd s0 (nth 0 g x00) :: secret).
  set (stream' := fun i => if i <? t then gadd (stream i) (nth i g x00) else stream i).
  assert (V' : checkArgs secret' parts threshold = None).
  { apply valid_checkArgs. split; [discriminate|]. auto. }
  set (N := length (s0 :: secret)). assert (LN : length secret' = N) by reflexivity.
  set (polys := polysOf t (s0 :: secret) (take_stream stream (t * N))).
  set (polys' := polysOf t secret' (take_stream stream' (t * N))).
  assert (Same : forall x, heval g x = x00 -> share_at polys' x = share_at polys x).
  { intros x Hx. apply (nth_ext _ _ x00 x00).
    - rewrite !share_at_length. unfold polys, polys'. rewrite !polysOf_length. reflexivity.
    - intros p Hpp. rewrite share_at_length in Hpp. unfold polys' in Hpp. rewrite polysOf_length, LN in Hpp.
      destruct (Nat.eq_dec p N) as [->|Dp].
      + assert (LT : forall q, length q = N -> nth N (share_at q x) x00 = x).
        { intros q Lq. unfold share_at. rewrite app_nth2 by (rewrite map_length; lia). rewrite map_length, Lq, Nat.sub_diag. reflexivity. }
        rewrite !LT; [reflexivity|apply polysOf_length|unfold polys'; rewrite polysOf_length; exact LN].
      + rewrite !nth_share_at by (unfold polys, polys'; rewrite polysOf_length; fold N; rewrite ?LN; lia).
        unfold polys, polys'. rewrite !nth_polysOf by (fold N; rewrite ?LN; lia).
        destruct p as [|p].
        * transitivity (heval (padd (polyOf t (take_stream stream (t * N)) (s0 :: secret) 0) g) x); [|rewrite heval_padd, Hx, gadd_0_r; reflexivity].
          f_equal. unfold polyOf, secret'. apply (nth_ext _ _ x00 x00).
          -- rewrite padd_length. cbn [length]. rewrite !skipn_length, !row_length by (rewrite take_stream_length; unfold N; cbn [length]; nia). lia.
          -- intros c Hc. cbn [length] in Hc. rewrite skipn_length, row_length in Hc by (rewrite take_stream_length; unfold N; cbn [length]; nia).
             rewrite nth_padd. destruct c as [|c]; [reflexivity|]. cbn [nth]. rewrite !nth_skipn, !nth_row by lia. rewrite !nth_take_stream by (unfold N; cbn [length]; nia).
             unfold stream'. destruct (Nat.ltb_spec (t * 0 + (1 + c)) t); [|lia]. f_equal. f_equal. lia.
        * f_equal. unfold polyOf, secret'. cbn [nth]. f_equal. f_equal. unfold row. apply (nth_ext _ _ x00 x00).
          -- rewrite !firstn_length, !skipn_length, !take_stream_length. reflexivity.
          -- intros c Hc. rewrite firstn_length, skipn_length, take_stream_length in Hc. rewrite !nth_firstn by lia. rewrite !nth_skipn.
             rewrite !nth_take_stream by (unfold N in *; cbn [length] in *; nia). unfold stream'. destruct (Nat.ltb_spec (t * S p + c) t); [nia|reflexivity]. }
  set (sh := map (share_at polys) tags). set (sh' := map (share_at polys') tags).
  assert (Lsh : length sh = n) by (unfold sh; rewrite map_length; exact Lt).
  assert (Lsh' : length sh' = n) by (unfold sh'; rewrite map_length; exact Lt).
  assert (N1 : forall i, i < n -> nth i sh [] = share_at polys (nth i tags x00)) by (intros i Hi; apply nth_map'; lia).
  assert (N2 : forall i, i < n -> nth i sh' [] = share_at polys' (nth i tags x00)) by (intros i Hi; apply nth_map'; lia).
  assert (Lpp : length polys' = length polys) by (unfold polys, polys'; rewrite !polysOf_length; reflexivity).
  set (received := map (fun i => if i <? t - 1 + e then nth i sh [] else nth i sh' []) (seq 0 n)).
  assert (Lr : length received = n) by (unfold received; rewrite map_length, seq_length; reflexivity).
  assert (Nr : forall i, i < n -> nth i received [] = if i <? t - 1 + e then nth i sh [] else nth i sh' []) by (intros i Hi; unfold received; rewrite nth_map_seq by exact Hi; reflexivity).
  exists secret', stream', sh', received.
  split; [reflexivity|]. split.
  { unfold secret'. intros F. injection F as F. apply G0. clear -F. revert F. generalize (nth 0 g x00). intros y F.
    assert (Q : gadd s0 (gadd s0 y) = y) by ring. rewrite F, gadd_self in Q. symmetry. exact Q. }
  split; [rewrite (Split_ok ar growcap perm stream' polB trB evBufs secret' parts threshold G V') by lia; rewrite LN; reflexivity|].
  assert (Cl : forall q, length q = length polys -> (forall i, i < n -> nth i received [] = share_at polys (nth i tags x00) \/ nth i received [] = share_at polys' (nth i tags x00)) -> claims_to_be received (map (share_at q) tags)).
  { intros q Lq Hr. split.
    - apply (nth_ext _ _ 0 0); rewrite !map_length; [lia|]. intros i Hi. rewrite Lr in Hi. rewrite !(nth_map' (@length byte) _ i 0 []) by (rewrite ?map_length; lia).
      rewrite (nth_map' (share_at q) tags i [] x00) by lia. destruct (Hr i Hi) as [->| ->]; rewrite !share_at_length; lia.
    - rewrite map_tag_shares. apply (nth_ext _ _ x00 x00); rewrite !map_length; [lia|]. intros i Hi. rewrite Lr in Hi. rewrite (nth_map' tag _ i x00 []) by lia.
      destruct (Hr i Hi) as [->| ->]; apply tag_share_at. }
  assert (Hr : forall i, i < n -> nth i received [] = share_at polys (nth i tags x00) \/ nth i received [] = share_at polys' (nth i tags x00)).
  { intros i Hi. rewrite Nr by exact Hi. destruct (i <? t - 1 + e); [left; apply N1, Hi|right; apply N2, Hi]. }
  split; [apply Cl; [reflexivity|exact Hr]|]. split.
  { rewrite wrong_length by lia. rewrite Lr. apply (filter_range _ n (t - 1 + e)). intros j Hj. fold sh. rewrite Nr by exact Hj.
    destruct (Nat.ltb_spec j (t - 1 + e)); [|intros _; unfold n, t in *; lia].
    destruct (list_eq_dec byte_eq_dec (nth j sh []) (nth j sh [])); [discriminate|congruence]. }
  split; [apply Cl; [exact Lpp|exact Hr]|].
  rewrite wrong_length by lia. rewrite Lr. apply (filter_range _ n (t - 1)). intros j Hj. rewrite Nr by exact Hj.
  destruct (Nat.ltb_spec j (t - 1 + e)).
  - destruct (Nat.lt_ge_cases j (t - 1)) as [Hl|Hl]; [|intros _; lia]. rewrite N1, N2, Same by (try apply Gz; assumption).
    destruct (list_eq_dec byte_eq_dec (share_at polys (nth j tags x00)) (share_at polys (nth j tags x00))); [discriminate|congruence].
  - destruct (list_eq_dec byte_eq_dec (nth j sh' []) (nth j sh' [])); [discriminate|congruence].
Qed.

(*COPY
(** a 2-of-4 split of "hi"; the share at position 1 arrives with its second byte altered: the results of leaving one share out agree at byte 0 and are
    pairwise different at byte 1; threshold+2e = 4 shares are there for e = 1, and the three right ones agree *)
Definition ex_hi_shares : list (list byte) := [[x62; x71; x01]; [x7c; x59; x02]; [x76; x41; x03]; [x40; x09; x04]].
Definition ex_hi_received : list (list byte) := [[x62; x71; x01]; [x7c; x58; x02]; [x76; x41; x03]; [x40; x09; x04]].
Example C82_run :
  Split ex_ar growcap117 ex_perm ex_stream ex_stale ex_stale ex_ev [x68; x69] 4 2 = Ret ex_hi_shares /\
  claims_to_be ex_hi_received (pick [] ex_hi_shares [0; 1; 2; 3]) /\ wrong ex_hi_received (pick [] ex_hi_shares [0; 1; 2; 3]) = 1 /\
  acceptable ex_hi_received /\ ~ In x00 (map tag ex_hi_received) /\ selection 4 3 [0; 1; 2; 3] /\
  (exists a b c, Combine (without 0 ex_hi_received) = Ret [x68; a] /\ Combine (without 1 ex_hi_received) = Ret [x68; x69] /\
     Combine (without 2 ex_hi_received) = Ret [x68; b] /\ Combine (without 3 ex_hi_received) = Ret [x68; c] /\ NoDup [a; x69; b; c]) /\
  (forall ks, In ks [[0; 2]; [0; 3]; [2; 3]] -> Combine (pick [] ex_hi_received ks) = Ret [x68; x69]).
Proof.
  split; [vm_compute; reflexivity|]. split; [split; vm_compute; reflexivity|]. split; [vm_compute; reflexivity|]. split.
  { split; [cbn; lia|]. split; [cbn; lia|]. split; [intros p Hp; cbn in Hp; intuition (subst; reflexivity)|]. cbn. repeat constructor; cbn; intuition discriminate. }
  split; [cbn; intuition discriminate|]. split; [split; [repeat constructor; cbn; intuition discriminate|split; [cbn; intros i Hi; lia|cbn; lia]]|]. split.
  { eexists _, _, _. repeat (split; [vm_compute; reflexivity|]). repeat constructor; cbn; intuition discriminate. }
  intros ks Hk. cbn in Hk. intuition (subst; vm_compute; reflexivity).
Qed.
END*)
