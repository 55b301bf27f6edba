(** CSPRNG.Perm(255): where elements end up, and what that tells about the key stream. *)
From Coq Require Import List NArith ZArith Lia Arith Bool Permutation.
From Coq.Init Require Import Byte.
From Verif Require Import GoSem Bytes Spec SpecPerm Galois GF PolyFacts GoFacts VectorFacts Csprng Pool Polynomial PolynomialFacts Shamir SplitFacts CombineFacts
  CsprngFacts RandomizerFacts.
Import ListNotations.

Lemma partner_permJ ks i : permJ ks 255 i = partner ks i.
Proof. reflexivity. Qed.

Lemma partner_bound ks i : i < 253 -> 1 <= partner ks i <= 255 - i.
Proof. intros H. unfold partner. pose proof (Nat.mod_upper_bound (b2i (ks i)) (255 - i)). lia. Qed.

(** an invariant of the exchanges holds at the end *)
Lemma PermN_ind ks n p (Inv : nat -> list byte -> Prop) : 3 <= b2i n -> Perm ks n = Ret p ->
  Inv 0 (identity (b2i n)) ->
  (forall i q, i < b2i n - 2 -> Permutation (identity (b2i n)) q -> permJ ks (b2i n) i < b2i n -> Inv i q ->
     Inv (S i) (swap q i (permJ ks (b2i n) i))) ->
  Inv (b2i n - 2) p /\ Permutation (identity (b2i n)) p.
Proof.
  intros Hn E H0 Hs. pose proof (b2i_lt n) as Hn256.
  assert (Hk : b2i (ks 0) mod b2i n <> b2i n - 1) by (intros F; rewrite (Perm_panic ks n Hn F) in E; discriminate).
  assert (Hj : forall i, i < b2i n - 2 -> permJ ks (b2i n) i < b2i n).
  { intros i Hi. destruct i as [|i]; [|apply permJ_lt; lia]. unfold permJ. rewrite Nat.sub_0_r.
    pose proof (Nat.mod_upper_bound (b2i (ks 0)) (b2i n)). lia. }
  unfold Perm in E. rewrite fill_identity in E. cbn [bind] in E.
  assert (E2 : b2i (bsub n x02) = b2i n - 2) by (rewrite b2i_bsub; change (b2i x02) with 2; lia). rewrite E2 in E.
  destruct (foreach_seq (fun i q => Inv i q /\ Permutation (identity (b2i n)) q) (permStep n (Read ks (zeros (b2i n)))) (b2i n - 2) 0 (identity (b2i n)))
    as (q & E' & A & B).
  - split; [exact H0|reflexivity].
  - intros i q [_ Hi] (A & B). cbn [Nat.add] in Hi.
    assert (L : length q = b2i n) by (rewrite <- (Permutation_length B); apply identity_length).
    rewrite permStep_eq by assumption. specialize (Hj i Hi). apply Nat.ltb_lt in Hj as Hj'. rewrite Hj'.
    eexists. split; [reflexivity|]. split; [apply Hs; assumption|]. etransitivity; [exact B|]. apply swap_perm; lia.
  - rewrite E' in E. injection E as <-. split; [exact A|exact B].
Qed.

Lemma b2i_xff : b2i xff = 255.
Proof. reflexivity. Qed.

Lemma Perm_ind ks p (Inv : nat -> list byte -> Prop) : Perm ks xff = Ret p ->
  Inv 0 (identity 255) ->
  (forall i q, i < 253 -> Permutation (identity 255) q -> partner ks i < 255 -> Inv i q -> Inv (S i) (swap q i (partner ks i))) ->
  Inv 253 p /\ Permutation (identity 255) p.
Proof.
  intros E H0 Hs. pose proof (PermN_ind ks xff p Inv) as P. rewrite b2i_xff in P. apply P; [lia|exact E|exact H0|].
  intros i q Hi. apply Hs. lia.
Qed.

Lemma identity_nth k : k < 255 -> nth k (identity 255) x00 = i2b k.
Proof. intros H. unfold identity. apply nth_map_seq. exact H. Qed.

Lemma identity_NoDup : NoDup (identity 255).
Proof.
  unfold identity. apply (NoDup_map_inv b2i). rewrite map_map. rewrite (map_ext_in _ (fun i => i)); [rewrite map_id; apply seq_NoDup|].
  intros i Hi. apply in_seq in Hi. apply b2i_i2b. lia.
Qed.

Lemma perm_facts q : Permutation (identity 255) q -> length q = 255 /\ NoDup q.
Proof.
  intros P. split; [rewrite <- (Permutation_length P); apply identity_length|]. exact (Permutation_NoDup P identity_NoDup).
Qed.

Lemma nth_inj q i j : Permutation (identity 255) q -> i < 255 -> j < 255 -> nth i q x00 = nth j q x00 -> i = j.
Proof.
  intros P Hi Hj E. destruct (perm_facts q P) as (L & ND). apply (proj1 (NoDup_nth q x00) ND); lia || exact E.
Qed.

Lemma i2b_inj' a b : a < 256 -> b < 256 -> i2b a = i2b b -> a = b.
Proof. intros Ha Hb E. rewrite <- (b2i_i2b a), <- (b2i_i2b b) by assumption. rewrite E. reflexivity. Qed.

(** an undisturbed element *)
Lemma Perm_undisturbed ks p m : Perm ks xff = Ret p -> m < 253 -> undisturbed ks m -> nth m p x00 = i2b (S (b2i (ks m))).
Proof.
  intros E Hm (U1 & U2 & U3 & U4).
  assert (Ej : partner ks m = S (b2i (ks m))) by (unfold partner; rewrite Nat.mod_small by exact U4; reflexivity).
  destruct (Perm_ind ks p (fun i q => (i <= m -> nth (partner ks m) q x00 = i2b (partner ks m)) /\ (m < i -> nth m q x00 = i2b (partner ks m))) E)
    as ((_ & A) & _).
  - split; [intros _|lia]. pose proof (partner_bound ks m Hm). assert (b2i (ks m) < 255 - m) by exact U4.
    destruct (Nat.lt_ge_cases (partner ks m) 255) as [H'|H']; [apply identity_nth; exact H'|].
    assert (m = 0) by lia. subst m. exfalso. assert (F : ks 0 = xfe) by (apply b2i_inj; change (b2i xfe) with 254; lia).
    rewrite (Perm255_panic ks F) in E. discriminate.
  - intros i q Hi P Hj (A & B). destruct (perm_facts q P) as (L & _). split; intros H.
    + rewrite nth_swap by lia. destruct (Nat.eqb_spec (partner ks m) (partner ks i)) as [F|_]; [exfalso; apply (U2 i); [lia|symmetry; exact F]|].
      destruct (Nat.eqb_spec (partner ks m) i); [lia|]. apply A. lia.
    + rewrite nth_swap by lia. destruct (Nat.eq_dec i m) as [->|Hne].
      * destruct (Nat.eqb_spec m (partner ks m)) as [F|_]; [rewrite F at 1; apply A; lia|]. rewrite Nat.eqb_refl. apply A. lia.
      * destruct (Nat.eqb_spec m (partner ks i)) as [F|_]; [exfalso; apply (U3 i); [lia|exact Hi|symmetry; exact F]|].
        destruct (Nat.eqb_spec m i); [lia|]. apply B. lia.
  - rewrite A by lia. rewrite Ej. reflexivity.
Qed.

(** the first element stays where the first exchange puts it *)
Lemma Perm_first ks p : Perm ks xff = Ret p -> b2i (nth 0 p x00) = partner ks 0.
Proof.
  intros E. assert (Hk : b2i (ks 0) mod b2i xff <> b2i xff - 1).
  { intros F. rewrite (Perm_panic ks xff) in E; [discriminate|rewrite b2i_xff; lia|exact F]. }
  destruct (Perm_ok ks xff) as (q & E' & _ & F); [rewrite b2i_xff; lia|exact Hk|]. rewrite E in E'. injection E' as <-.
  rewrite b2i_xff in F. rewrite F. unfold partner. rewrite Nat.sub_0_r. reflexivity.
Qed.

(** An element 255-c that ends strictly between positions c and 255-c was moved away from its place by exchange number c, unless by an earlier one. *)
Lemma moved_early ks p c q : Perm ks xff = Ret p -> 1 <= c -> c < q -> q < 255 - c -> nth q p x00 = i2b (255 - c) ->
  (forall i, 1 <= i < c -> partner ks i <> 255 - c) -> partner ks c = 255 - c.
Proof.
  intros E Hc Hq Hq' Eq Hi. destruct (Nat.eq_dec (partner ks c) (255 - c)) as [H|Hne]; [exact H|]. exfalso.
  assert (P : Permutation (identity 255) p) by (apply (Perm_ind ks p (fun _ _ => True) E); auto).
  assert (H0 : partner ks 0 <> 255 - c).
  { intros F. pose proof (Perm_first ks p E) as F0. rewrite F in F0.
    assert (0 = q); [|lia]. apply (nth_inj p); [exact P|lia|lia|]. rewrite Eq. rewrite <- F0, i2b_b2i. reflexivity. }
  assert (Hall : forall i, i < 253 -> partner ks i <> 255 - c).
  { intros i Hi253. destruct (Nat.eq_dec i 0) as [->|Hn0]; [exact H0|]. destruct (Nat.lt_trichotomy i c) as [L|[->|G]]; [apply Hi; lia|exact Hne|].
    pose proof (partner_bound ks i Hi253). lia. }
  destruct (Perm_ind ks p (fun i l => (i <= 255 - c -> nth (255 - c) l x00 = i2b (255 - c)) /\ (forall k, c < k < 255 - c -> nth k l x00 <> i2b (255 - c))) E)
    as ((_ & A) & _).
  - split; [intros _; apply identity_nth; lia|]. intros k Hk. rewrite identity_nth by lia. intros F. apply i2b_inj' in F; lia.
  - intros i l Hi253 Pl Hj (A & B). destruct (perm_facts l Pl) as (L & _). specialize (Hall i Hi253). pose proof (partner_bound ks i Hi253) as Hb. split.
    + intros H. rewrite nth_swap by lia. destruct (Nat.eqb_spec (255 - c) (partner ks i)); [lia|]. destruct (Nat.eqb_spec (255 - c) i); [lia|]. apply A. lia.
    + intros k Hk. rewrite nth_swap by lia. destruct (Nat.eqb_spec k (partner ks i)) as [Ek|_].
      * destruct (Nat.lt_ge_cases i (255 - c)) as [Hih|Hih]; [|lia]. intros F. rewrite <- A in F by lia. apply (nth_inj l) in F; [lia|exact Pl|lia|lia].
      * destruct (Nat.eqb_spec k i) as [->|_]; [|apply B; exact Hk]. intros F. rewrite <- A in F by lia. apply (nth_inj l) in F; [lia|exact Pl|lia|lia].
  - apply (A q); [lia|exact Eq].
Qed.

(** [t-1] elements 254, ..., 256-t that end between positions [t] and [255-t] tell the key stream bytes 1 .. t-1 *)
Lemma ends_tell ks p t (pos : nat -> nat) : Perm ks xff = Ret p -> 3 * t <= 257 ->
  (forall c, 1 <= c < t -> t <= pos c <= 255 - t /\ nth (pos c) p x00 = i2b (255 - c)) ->
  forall c, 1 <= c < t -> ks c = i2b (254 - c).
Proof.
  intros E Ht H.
  assert (Hp : forall c, 1 <= c < t -> partner ks c = 255 - c).
  { intros c. induction c as [c IH] using lt_wf_ind. intros Hc. destruct (H c Hc) as (Hq & Eq).
    apply (moved_early ks p c (pos c) E); [lia|lia|lia|exact Eq|]. intros i Hi. rewrite IH by lia. lia. }
  intros c Hc. specialize (Hp c Hc). apply b2i_inj. rewrite b2i_i2b by lia. unfold partner in Hp. pose proof (b2i_lt (ks c)) as B.
  destruct (Nat.lt_ge_cases (b2i (ks c)) (255 - c)) as [S|S].
  - rewrite Nat.mod_small in Hp by exact S. lia.
  - assert (M : b2i (ks c) mod (255 - c) = b2i (ks c) - (255 - c)).
    { symmetry. apply (Nat.mod_unique _ _ 1); lia. }
    lia.
Qed.

(** a key stream that makes them end there *)
Definition tellKs (t : nat) (i : nat) : byte :=
  if (1 <=? i) && (i <? t) then i2b (254 - i) else if (t <=? i) && (i <=? 2 * t - 2) then i2b (i - t) else x00.

Lemma tellKs_partner t i : 2 <= t -> 3 * t <= 257 -> i < 253 ->
  partner (tellKs t) i = if (1 <=? i) && (i <? t) then 255 - i else if (t <=? i) && (i <=? 2 * t - 2) then i - t + 1 else 1.
Proof.
  intros H2 Ht Hi. unfold partner, tellKs. destruct (Nat.leb_spec 1 i), (Nat.ltb_spec i t); cbn [andb].
  - rewrite b2i_i2b by lia. rewrite Nat.mod_small by lia. lia.
  - destruct (Nat.leb_spec t i), (Nat.leb_spec i (2 * t - 2)); cbn [andb]; [|change (b2i x00) with 0; rewrite Nat.mod_0_l by lia; reflexivity..].
    rewrite b2i_i2b by lia. rewrite Nat.mod_small by lia. lia.
  - assert (i = 0) by lia. subst i. destruct (Nat.leb_spec t 0); [lia|]. cbn [andb]. change (b2i x00) with 0. rewrite Nat.mod_0_l by lia. reflexivity.
  - lia.
Qed.

Lemma tellKs_ends t c p : 2 <= t -> 3 * t <= 257 -> 1 <= c < t -> Perm (tellKs t) xff = Ret p -> nth (t - 1 + c) p x00 = i2b (255 - c).
Proof.
  intros H2 Ht Hc E.
  destruct (Perm_ind (tellKs t) p (fun i l =>
    (i <= c -> nth (255 - c) l x00 = i2b (255 - c)) /\ (c < i <= t - 1 + c -> nth c l x00 = i2b (255 - c)) /\
    (t - 1 + c < i -> nth (t - 1 + c) l x00 = i2b (255 - c))) E) as ((_ & _ & A) & _).
  - split; [intros _; apply identity_nth; lia|]. split; lia.
  - intros i l Hi P Hj (A & B & C). destruct (perm_facts l P) as (L & _). pose proof (tellKs_partner t i H2 Ht Hi) as Ej.
    assert (J : (i = 0 /\ partner (tellKs t) i = 1) \/ (1 <= i < t /\ partner (tellKs t) i = 255 - i) \/
                (t <= i <= 2 * t - 2 /\ partner (tellKs t) i = i - t + 1) \/ (2 * t - 2 < i /\ partner (tellKs t) i = 1)).
    { destruct (Nat.leb_spec 1 i), (Nat.ltb_spec i t), (Nat.leb_spec t i), (Nat.leb_spec i (2 * t - 2)); cbn [andb] in Ej; lia. }
    clear Ej. split; [|split]; intros H; rewrite nth_swap by lia.
    + destruct (Nat.eqb_spec (255 - c) (partner (tellKs t) i)); [lia|]. destruct (Nat.eqb_spec (255 - c) i); [lia|]. apply A. lia.
    + destruct (Nat.eqb_spec c (partner (tellKs t) i)); [lia|]. destruct (Nat.eqb_spec c i) as [->|Hn]; [|apply B; lia].
      replace (partner (tellKs t) i) with (255 - i) by lia. apply A. lia.
    + destruct (Nat.eqb_spec (t - 1 + c) (partner (tellKs t) i)); [lia|]. destruct (Nat.eqb_spec (t - 1 + c) i) as [Ei|Hn]; [|apply C; lia].
      replace (partner (tellKs t) i) with c by lia. apply B. lia.
  - apply A. lia.
Qed.

(** ** shares whose tags come from a permutation *)
Lemma b2i_tag a : a < 255 -> b2i (badd (i2b a) x01) = S a.
Proof.
  intros H. replace (badd (i2b a) x01) with (badd x01 (i2b a)); [rewrite b2i_badd1; rewrite b2i_i2b; lia|].
  unfold badd. f_equal. apply N.add_comm.
Qed.

Lemma leakByte2_ok t n secret ks xs p : 2 <= t -> t * p + t <= n -> n <= length xs -> p < length secret ->
  (forall m, t * p < m < t * p + t -> nth m xs x00 = i2b (S (b2i (ks m))) /\ b2i (ks m) < 254) ->
  leakByte2 t p (pick [] (map (share_at (polysOf t secret (take_stream ks (t * length secret)))) (tagsOf n xs)) (seq (t * p + 1) (t - 1)))
  = nth p secret x00.
Proof.
  intros Ht Hn Hx HN Hm.
  set (buf := take_stream ks (t * length secret)). set (polys := polysOf t secret buf). set (tags := tagsOf n xs).
  assert (Lt : length tags = n) by (apply tagsOf_length; lia).
  rewrite (pick_map (share_at polys) tags _ [] x00) by (intros i Hi; apply in_seq in Hi; lia).
  assert (Tg : forall c, t * p < c < t * p + t -> bsub (nth c tags x00) x02 = ks c).
  { intros c Hc. destruct (Hm c Hc) as (E & B). unfold tags. rewrite nth_tagsOf by lia. rewrite E.
    apply b2i_inj. assert (B2 : b2i (badd (i2b (S (b2i (ks c)))) x01) = S (S (b2i (ks c)))).
    { apply b2i_tag. lia. }
    rewrite b2i_bsub; rewrite B2; change (b2i x02) with 2; lia. }
  assert (Vw : forall c, c < t - 1 -> nth c (map (share_at polys) (pick x00 tags (seq (t * p + 1) (t - 1)))) [] = share_at polys (nth (t * p + S c) tags x00)).
  { intros c Hc. rewrite (nth_map' (share_at polys) _ c [] x00) by (rewrite pick_length, seq_length; exact Hc). f_equal.
    unfold pick. rewrite (nth_map' (fun i => nth i tags x00) (seq (t * p + 1) (t - 1)) c x00 0) by (rewrite seq_length; exact Hc).
    rewrite seq_nth by exact Hc. f_equal. lia. }
  unfold leakByte2. cbv zeta. rewrite Vw by lia. rewrite tag_share_at.
  rewrite nth_share_at by (unfold polys; rewrite polysOf_length; exact HN).
  unfold polys at 1. rewrite nth_polysOf by exact HN. unfold polyOf. rewrite heval_cons_sum.
  assert (Lr : length (skipn 1 (row t buf p)) = t - 1).
  { rewrite skipn_length, row_length; [reflexivity|]. unfold buf. rewrite take_stream_length. nia. }
  rewrite Lr. set (A := gsum _). set (B := gsum _).
  assert (E : A = B).
  { unfold A, B. f_equal. apply map_ext_in. intros c Hc. apply in_seq in Hc. f_equal. rewrite Vw by lia. rewrite tag_share_at, Tg by lia.
    rewrite nth_skipn. rewrite nth_row by lia. unfold buf. rewrite nth_take_stream by nia. reflexivity. }
  rewrite E. rewrite gadd_assoc', gadd_self. apply gadd_0_r.
Qed.
