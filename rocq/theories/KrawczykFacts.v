(** Lemmas about the krawczyk model. *)
From Coq Require Import List NArith ZArith Lia Arith Bool Permutation.
From Coq.Init Require Import Byte.
From Verif Require Import GoSem Bytes Spec GF PolyFacts GoFacts Vector Csprng Pool Shamir Libs Krawczyk SplitFacts CombineFacts SpecKr.
Import ListNotations.

(** ** stream cipher *)
Lemma xorStream_app ks a : forall off b, xorStreamFrom ks off (a ++ b) = xorStreamFrom ks off a ++ xorStreamFrom ks (off + length a) b.
Proof.
  induction a as [|x a IH]; intros off b; cbn [app xorStreamFrom length]; [f_equal; lia|].
  rewrite IH. replace (S off + length a) with (off + S (length a)) by lia. reflexivity.
Qed.

Lemma xorStream_twice ks l : forall off, xorStreamFrom ks off (xorStreamFrom ks off l) = l.
Proof.
  induction l as [|x l IH]; intros off; cbn [xorStreamFrom]; [reflexivity|].
  rewrite IH, bxor_cancel_r. reflexivity.
Qed.

Lemma xorStream_firstn ks n : forall off l, firstn n (xorStreamFrom ks off l) = xorStreamFrom ks off (firstn n l).
Proof. induction n as [|n IH]; intros off [|x l]; cbn [firstn xorStreamFrom]; try reflexivity. rewrite IH. reflexivity. Qed.

Lemma decryptLoop_ok ks rd : (forall i, 0 < rd i) -> forall fuel i off l, length l <= fuel ->
  decryptLoop fuel ks rd i off l = Ret (xorStreamFrom ks off l).
Proof.
  intros Hrd. induction fuel as [|f IH]; intros i off l Hl.
  - destruct l; [reflexivity|cbn in Hl; lia].
  - destruct l as [|b l]; [reflexivity|]. cbn [decryptLoop].
    rewrite IH; [|rewrite skipn_length; cbn [length] in *; specialize (Hrd i); lia].
    cbn [bind]. rewrite <- xorStream_app, firstn_skipn. reflexivity.
Qed.

Lemma encrypt_ok E m key : aesKeyOk key = true -> encrypt E m key = Ret (xorStreamFrom (ofbStream E key (zeros 16)) 0 m).
Proof. intros H. unfold encrypt. rewrite H. reflexivity. Qed.

Lemma decrypt_ok E rd c key : (forall i, 0 < rd i) -> aesKeyOk key = true ->
  decrypt E rd c key = Ret (xorStreamFrom (ofbStream E key (zeros 16)) 0 c).
Proof. intros Hrd H. unfold decrypt. rewrite H. apply decryptLoop_ok; [exact Hrd|lia]. Qed.

Lemma ofbBlock_iter E key i : ofbBlock E key (zeros 16) i = Nat.iter (i + 1) (E key) (repeat x00 16).
Proof. induction i as [|i IH]; [reflexivity|]. cbn [ofbBlock]. rewrite IH. reflexivity. Qed.

Lemma nth_xorStreamFrom ks l : forall off i, i < length l -> nth i (xorStreamFrom ks off l) x00 = bxor (nth i l x00) (ks (off + i)).
Proof.
  induction l as [|x l IH]; intros off i Hi; cbn [length] in Hi; [lia|]. destruct i as [|i]; cbn [xorStreamFrom nth].
  - rewrite Nat.add_0_r. reflexivity.
  - rewrite IH by lia. do 2 f_equal. lia.
Qed.

Lemma ofb_cipher_iff E key m c : ofb_cipher E key m c <-> c = xorStreamFrom (ofbStream E key (zeros 16)) 0 m.
Proof.
  assert (A : forall i, i < length m -> nth i (xorStreamFrom (ofbStream E key (zeros 16)) 0 m) x00 =
    gadd (nth i m x00) (nth (i mod 16) (Nat.iter (i / 16 + 1) (E key) (repeat x00 16)) x00)).
  { intros i Hi. rewrite nth_xorStreamFrom by exact Hi. change bxor with gadd. f_equal. unfold ofbStream. rewrite ofbBlock_iter. reflexivity. }
  split.
  - intros (L & H). apply nth_ext with x00 x00; [rewrite xorStreamFrom_length; exact L|]. intros i Hi. rewrite L in Hi. rewrite H, A by exact Hi. reflexivity.
  - intros ->. split; [apply xorStreamFrom_length|exact A].
Qed.

(** ** little-endian lengths *)
Lemma leBytes_length k n : length (leBytes k n) = k.
Proof. revert n; induction k as [|k IH]; intros n; cbn; [reflexivity|]. rewrite IH. reflexivity. Qed.

Lemma leNum_leBytes k : forall n, leNum (leBytes k n) = (n mod 256 ^ N.of_nat k)%N.
Proof.
  induction k as [|k IH]; intros n; cbn [leBytes leNum].
  - change (256 ^ N.of_nat 0)%N with 1%N. rewrite N.mod_1_r. reflexivity.
  - rewrite IH, b2n_n2b. rewrite Nat2N.inj_succ, N.pow_succ_r'.
    rewrite N.mod_mul_r; [reflexivity|discriminate|apply N.pow_nonzero; discriminate].
Qed.

(** ** Reed-Solomon *)
Definition pts (n : nat) : list byte := map rsPoint (seq 0 n).

Lemma rsPoint_inj i j : i < 256 -> j < 256 -> rsPoint i = rsPoint j -> i = j.
Proof. apply i2b_inj. Qed.

Lemma map_rsPoint_NoDup l : NoDup l -> (forall i, In i l -> i < 256) -> NoDup (map rsPoint l).
Proof.
  induction l as [|a l IH]; intros ND H; [constructor|]. inversion ND as [|? ? Hn ND']; subst. cbn [map]. constructor.
  - intros X. apply in_map_iff in X as (b & E & Hb). apply rsPoint_inj in E; [subst; contradiction|apply H; right; exact Hb|apply H; left; reflexivity].
  - apply IH; [exact ND'|]. intros i Hi. apply H. right. exact Hi.
Qed.

Lemma nth_map_rsPoint l i : i < length l -> nth i (map rsPoint l) x00 = rsPoint (nth i l 0).
Proof. apply nth_map'. Qed.

(** the polynomials (one per byte position) of the code word of the data shards [ds] *)
Definition cwAt (d : nat) (ds : list (list byte)) (k : nat) (x : byte) : byte :=
  lagrange (pts d) (map (fun r => nth k r x00) ds) x.

(** all shards *)
Definition cw (d per : nat) (ds : list (list byte)) (j : nat) : list byte :=
  map (fun k => cwAt d ds k (rsPoint j)) (seq 0 per).

Lemma pts_length n : length (pts n) = n.
Proof. unfold pts. rewrite map_length, seq_length. reflexivity. Qed.
Lemma pts_NoDup n : n <= 256 -> NoDup (pts n).
Proof. intros H. apply map_rsPoint_NoDup; [apply seq_NoDup|]. intros i Hi. apply in_seq in Hi. lia. Qed.
Lemma nth_pts n i : i < n -> nth i (pts n) x00 = rsPoint i.
Proof. intros H. unfold pts. rewrite nth_map_rsPoint by (rewrite seq_length; exact H). rewrite seq_nth by exact H. reflexivity. Qed.

Lemma cw_length d per ds j : length (cw d per ds j) = per.
Proof. unfold cw. rewrite map_length, seq_length. reflexivity. Qed.

Lemma cw_data d per ds j : d <= 256 -> length ds = d -> j < d -> length (nth j ds []) = per -> cw d per ds j = nth j ds [].
Proof.
  intros Hd Hl Hj Hp. apply nth_ext with x00 x00; [rewrite cw_length; symmetry; exact Hp|].
  intros k Hk. rewrite cw_length in Hk. unfold cw. rewrite nth_map_seq by exact Hk. unfold cwAt.
  rewrite <- (nth_pts d j) by exact Hj. rewrite lagrange_at; [|apply pts_NoDup, Hd|rewrite pts_length; exact Hj].
  rewrite nth_map' with (d' := []) by lia. reflexivity.
Qed.

(** any [d] shards of a code word determine every other one *)
Lemma cw_from d per ds src rows j : d <= 256 -> length src = d -> NoDup src -> (forall i, In i src -> i < 256) ->
  rows = map (cw d per ds) src -> rsShardFrom src rows per j = cw d per ds j.
Proof.
  intros Hd Hs ND Hr ->. unfold rsShardFrom, cw. apply map_ext_in. intros k Hk. apply in_seq in Hk.
  apply (polyfun_unique d) with (rs := map rsPoint src).
  - pose proof (lagrange_polyfun (map rsPoint src) (map (fun r => nth k r x00) (map (cw d per ds) src))) as P.
    rewrite map_length, Hs in P. exact P.
  - unfold cwAt. pose proof (lagrange_polyfun (pts d) (map (fun r => nth k r x00) ds)) as P. rewrite pts_length in P. exact P.
  - apply map_rsPoint_NoDup; assumption.
  - rewrite map_length. lia.
  - intros r Hin. apply In_nth with (d := x00) in Hin as (m & Hm & <-).
    rewrite lagrange_at; [|apply map_rsPoint_NoDup; assumption|exact Hm].
    rewrite map_length in Hm. rewrite nth_map' with (d' := []) by (rewrite map_length; exact Hm).
    rewrite nth_map' with (d' := 0) by exact Hm. rewrite nth_map_rsPoint by exact Hm.
    unfold cw. rewrite nth_map_seq by lia. reflexivity.
Qed.

(** [rsSplit] *)
Definition rsPad (d : nat) (l : list byte) : list byte := l ++ zeros (d * rsPerShard d (length l) - length l).
Definition rsData (d : nat) (l : list byte) : list (list byte) :=
  map (fun i => row (rsPerShard d (length l)) (rsPad d l) i) (seq 0 d).

Lemma rsPerShard_bounds d len : 0 < d -> len <= d * rsPerShard d len < len + d.
Proof.
  intros Hd. unfold rsPerShard. pose proof (Nat.div_mod (len + d - 1) d ltac:(lia)) as E.
  pose proof (Nat.mod_upper_bound (len + d - 1) d ltac:(lia)). lia.
Qed.

Lemma rsPerShard_pos d len : 0 < d -> 0 < len -> 0 < rsPerShard d len.
Proof. intros Hd Hl. pose proof (rsPerShard_bounds d len Hd). nia. Qed.

Lemma rsPad_length d l : 0 < d -> length (rsPad d l) = d * rsPerShard d (length l).
Proof. intros Hd. pose proof (rsPerShard_bounds d (length l) Hd). unfold rsPad. rewrite app_length, zeros_length. lia. Qed.

Lemma rsData_length d l : length (rsData d l) = d.
Proof. unfold rsData. rewrite map_length, seq_length. reflexivity. Qed.

Lemma rsData_row_length d l i : 0 < d -> i < d -> length (nth i (rsData d l) []) = rsPerShard d (length l).
Proof.
  intros Hd Hi. unfold rsData. rewrite nth_map_seq by exact Hi. apply row_length. rewrite rsPad_length by exact Hd. nia.
Qed.

Lemma rsSplit_ok d total l : l <> [] ->
  rsSplit d total l = Ret (rsData d l ++ repeat (zeros (rsPerShard d (length l))) (total - d)).
Proof.
  intros H. unfold rsSplit. destruct (Nat.eqb_spec (length l) 0) as [Z|Z]; [destruct l; [congruence|cbn in Z; lia]|]. reflexivity.
Qed.

Lemma find_first {A} (f : A -> bool) a l : f a = true -> find f (a :: l) = Some a.
Proof. intros H. cbn. rewrite H. reflexivity. Qed.

Lemma rsShardSize_uniform shards p : (forall s, In s shards -> length s = p \/ length s = 0) ->
  rsShardSize shards = p \/ (forall s, In s shards -> length s = 0).
Proof.
  intros H. unfold rsShardSize. destruct (find _ shards) as [s|] eqn:F.
  - apply find_some in F as (Hin & Hn). apply negb_true_iff, Nat.eqb_neq in Hn. left. destruct (H s Hin); lia.
  - right. intros s Hs. pose proof (find_none _ _ F s Hs) as N. apply negb_false_iff, Nat.eqb_eq in N. exact N.
Qed.

Lemma rsEncode_ok d total ds per : 0 < d -> d <= total -> total <= 256 -> 0 < per -> length ds = d ->
  (forall i, i < d -> length (nth i ds []) = per) ->
  rsEncode d total (ds ++ repeat (zeros per) (total - d)) = Ret (map (cw d per ds) (seq 0 total)).
Proof.
  intros Hd Hdt Ht Hp Hl Hr.
  assert (All : forall s, In s (ds ++ repeat (zeros per) (total - d)) -> length s = per).
  { intros s Hs. apply in_app_or in Hs as [Hs|Hs].
    - apply In_nth with (d := []) in Hs as (i & Hi & <-). apply Hr. lia.
    - apply repeat_spec in Hs. subst. apply zeros_length. }
  assert (Size : rsShardSize (ds ++ repeat (zeros per) (total - d)) = per).
  { destruct (rsShardSize_uniform _ per (fun s Hs => or_introl (All s Hs))) as [X|X]; [exact X|exfalso].
    destruct ds as [|a ds]; [cbn in Hl; lia|]. pose proof (X a (or_introl eq_refl)). pose proof (All a (or_introl eq_refl)). lia. }
  unfold rsEncode. rewrite app_length, repeat_length, Hl. replace (d + (total - d)) with total by lia. rewrite Nat.eqb_refl. cbn [negb].
  unfold rsCheckShards. rewrite Size. destruct (Nat.eqb_spec per 0) as [Z|_]; [lia|].
  replace (forallb _ _) with true; [|symmetry; apply forallb_forall; intros s Hs; rewrite (All s Hs), Nat.eqb_refl; reflexivity].
  rewrite firstn_app, <- Hl, Nat.sub_diag, firstn_O, app_nil_r, firstn_all.
  f_equal. rewrite <- (Nat.sub_add (length ds) total) at 2 by lia. rewrite (Nat.add_comm (total - length ds)).
  rewrite seq_app, map_app. f_equal.
  rewrite (list_as_map ds []) at 1. apply map_ext_in. intros i Hi. apply in_seq in Hi. symmetry. apply cw_data; try lia.
  apply Hr. lia.
Qed.

Lemma filter_length_le' {A} (f : A -> bool) l : length (filter f l) <= length l.
Proof. induction l as [|a l IH]; cbn; [lia|]. destruct (f a); cbn; lia. Qed.

(** [rsReconstructData] on a partial code word *)
Lemma firstn_In' {A} n (l : list A) x : In x (firstn n l) -> In x l.
Proof. intros H. rewrite <- (firstn_skipn n l). apply in_or_app. left. exact H. Qed.

Lemma firstn_NoDup {A} n (l : list A) : NoDup l -> NoDup (firstn n l).
Proof.
  revert n; induction l as [|a l IH]; intros [|n] H; cbn; try constructor; inversion H; subst.
  - intros X. apply firstn_In' in X. contradiction.
  - apply IH. assumption.
Qed.

Lemma rsReconstruct_ok d total per ds shards : 0 < d -> d <= total -> total <= 256 -> 0 < per -> length ds = d ->
  (forall i, i < d -> length (nth i ds []) = per) ->
  length shards = total ->
  (forall i, i < total -> nth i shards [] = cw d per ds i \/ nth i shards [] = []) ->
  d <= length (filter (fun i => negb (length (nth i shards []) =? 0)) (seq 0 total)) ->
  exists o, rsReconstructData d total shards = Ret o /\ length o = total /\ firstn d o = ds.
Proof.
  intros Hd Hdt Ht Hp Hl Hr Hsh Hcw Hcnt.
  set (present := filter (fun i => negb (length (nth i shards []) =? 0)) (seq 0 total)) in *.
  assert (Pin : forall i, In i present -> i < total /\ nth i shards [] = cw d per ds i).
  { intros i Hi. apply filter_In in Hi as (Hi & Hn). apply in_seq in Hi. split; [lia|]. destruct (Hcw i ltac:(lia)) as [X|X]; [exact X|].
    rewrite X in Hn. discriminate. }
  assert (Pin' : forall i, i < total -> ~ In i present -> nth i shards [] = []).
  { intros i Hi Hn. destruct (Hcw i Hi) as [X|X]; [|exact X]. exfalso. apply Hn. apply filter_In. split; [apply in_seq; lia|].
    rewrite X, cw_length. apply negb_true_iff, Nat.eqb_neq. lia. }
  assert (PND : NoDup present) by (apply NoDup_filter, seq_NoDup).
  assert (All : forall s, In s shards -> length s = per \/ length s = 0).
  { intros s Hs. apply In_nth with (d := []) in Hs as (i & Hi & <-). rewrite Hsh in Hi.
    destruct (Hcw i Hi) as [->| ->]; [left; apply cw_length|right; reflexivity]. }
  assert (Size : rsShardSize shards = per).
  { destruct (rsShardSize_uniform _ _ All) as [X|X]; [exact X|exfalso].
    destruct present as [|i pr]; [cbn in Hcnt; lia|]. destruct (Pin i (or_introl eq_refl)) as (Hi & E).
    pose proof (X (nth i shards []) ltac:(apply nth_In; lia)) as L. rewrite E, cw_length in L. lia. }
  unfold rsReconstructData. rewrite Hsh, Nat.eqb_refl. cbn [negb]. unfold rsCheckShards. rewrite Size.
  destruct (Nat.eqb_spec per 0) as [Z|_]; [lia|].
  replace (forallb _ _) with true; [|symmetry; apply forallb_forall; intros s Hs; destruct (All s Hs) as [->| ->]; rewrite Nat.eqb_refl; [reflexivity|apply orb_true_r]].
  cbv zeta. fold present.
  assert (Dall : forall o, length o = total -> (forall i, i < d -> nth i o [] = cw d per ds i) -> firstn d o = ds).
  { intros o Ho Hi. apply nth_ext with [] []; [rewrite firstn_length; lia|]. intros i Hlt. rewrite firstn_length in Hlt.
    rewrite nth_firstn by lia. rewrite Hi by lia. apply cw_data; try lia. apply Hr. lia. }
  destruct (Nat.eqb_spec (length present) total) as [E1|E1]; [|destruct (Nat.eqb_spec (length (filter (fun i => i <? d) present)) d) as [E2|E2]]; cbn [orb].
  - exists shards. split; [reflexivity|]. split; [exact Hsh|]. apply Dall; [exact Hsh|]. intros i Hi. apply Pin.
    apply (NoDup_length_incl PND (l' := seq 0 total)); [rewrite seq_length; lia| |apply in_seq; lia].
    intros j Hj. apply filter_In in Hj as (Hj & _). exact Hj.
  - exists shards. split; [reflexivity|]. split; [exact Hsh|]. apply Dall; [exact Hsh|]. intros i Hi. apply Pin.
    assert (X : In i (filter (fun i => i <? d) present)).
    { apply (NoDup_length_incl (NoDup_filter _ PND) (l' := seq 0 d)); [rewrite seq_length; lia| |apply in_seq; lia].
      intros j Hj. apply filter_In in Hj as (_ & Hj). apply Nat.ltb_lt in Hj. apply in_seq. lia. }
    apply filter_In in X as (X & _). exact X.
  - destruct (Nat.ltb_spec (length present) d) as [X|_]; [lia|].
    eexists. split; [reflexivity|]. split; [rewrite map_length, seq_length; reflexivity|]. apply Dall; [rewrite map_length, seq_length; reflexivity|].
    intros i Hi. rewrite nth_map_seq by lia. apply Nat.ltb_lt in Hi as Hi'. rewrite Hi'. cbn [andb].
    destruct (Nat.eqb_spec (length (nth i shards [])) 0) as [Z|Z].
    + apply cw_from; try lia.
      * rewrite firstn_length. lia.
      * apply firstn_NoDup, PND.
      * intros j Hj. apply firstn_In' in Hj. apply Pin in Hj as (Hj & _). lia.
      * apply map_ext_in. intros j Hj. apply firstn_In' in Hj. apply Pin in Hj as (_ & Hj). exact Hj.
    + destruct (Hcw i ltac:(lia)) as [X|X]; [exact X|]. rewrite X in Z. cbn in Z. lia.
Qed.

Lemma rsReconstruct_few d total per ds shards : d <= total -> 0 < per ->
  length shards = total ->
  (forall i, i < total -> nth i shards [] = cw d per ds i \/ nth i shards [] = []) ->
  0 < length (filter (fun i => negb (length (nth i shards []) =? 0)) (seq 0 total)) < d ->
  rsReconstructData d total shards = Fail ERSTooFewShards.
Proof.
  intros Hdt Hp Hsh Hcw Hcnt.
  set (present := filter (fun i => negb (length (nth i shards []) =? 0)) (seq 0 total)) in *.
  assert (All : forall s, In s shards -> length s = per \/ length s = 0).
  { intros s Hs. apply In_nth with (d := []) in Hs as (i & Hi & <-). rewrite Hsh in Hi.
    destruct (Hcw i Hi) as [->| ->]; [left; apply cw_length|right; reflexivity]. }
  assert (Size : rsShardSize shards = per).
  { destruct (rsShardSize_uniform _ _ All) as [X|X]; [exact X|exfalso].
    destruct present as [|i pr] eqn:Ep; [cbn in Hcnt; lia|].
    assert (Hi : In i present) by (rewrite Ep; left; reflexivity). apply filter_In in Hi as (Hi & Hn). apply in_seq in Hi.
    pose proof (X (nth i shards []) ltac:(apply nth_In; lia)) as L. rewrite L in Hn. discriminate. }
  unfold rsReconstructData. rewrite Hsh, Nat.eqb_refl. cbn [negb]. unfold rsCheckShards. rewrite Size.
  destruct (Nat.eqb_spec per 0) as [Z|_]; [lia|].
  replace (forallb _ _) with true; [|symmetry; apply forallb_forall; intros s Hs; destruct (All s Hs) as [->| ->]; rewrite Nat.eqb_refl; [reflexivity|apply orb_true_r]].
  cbv zeta. fold present.
  destruct (Nat.eqb_spec (length present) total) as [X|_]; [lia|].
  assert (length (filter (fun i => i <? d) present) <= length present) by apply filter_length_le'.
  destruct (Nat.eqb_spec (length (filter (fun i => i <? d) present)) d) as [X|_]; [lia|]. cbn [orb].
  destruct (Nat.ltb_spec (length present) d) as [_|X]; [reflexivity|lia].
Qed.

(** [rsJoin] *)
Lemma concat_rows per n (l : list byte) : length l = n * per -> concat (map (row per l) (seq 0 n)) = l.
Proof.
  revert l; induction n as [|n IH]; intros l Hl.
  - destruct l; [reflexivity|cbn in Hl; lia].
  - cbn [seq map concat]. rewrite <- (firstn_skipn per l) at 3. f_equal.
    + unfold row. rewrite Nat.mul_0_r. reflexivity.
    + rewrite <- (IH (skipn per l)) by (rewrite skipn_length; cbn in Hl; lia).
      rewrite <- seq_shift, map_map. f_equal. apply map_ext. intros i. unfold row. rewrite <- skipn_add. do 2 f_equal. lia.
Qed.

Lemma concat_rsData d l : 0 < d -> concat (rsData d l) = rsPad d l.
Proof. intros Hd. apply concat_rows. apply rsPad_length, Hd. Qed.

Lemma rsJoin_ok d l shards : 0 < d -> d <= length shards -> firstn d shards = rsData d l -> rsJoin d shards (length l) = Ret l.
Proof.
  intros Hd Hs E. unfold rsJoin. destruct (Nat.ltb_spec (length shards) d) as [X|_]; [lia|].
  rewrite E, concat_rsData by exact Hd. cbv zeta. pose proof (rsPad_length d l Hd) as L. pose proof (rsPerShard_bounds d (length l) Hd).
  destruct (Nat.ltb_spec (length (rsPad d l)) (length l)) as [X|_]; [lia|].
  unfold rsPad. rewrite firstn_app, Nat.sub_diag, firstn_O, app_nil_r, firstn_all. reflexivity.
Qed.

Lemma nth_repeat_lt {A} (a d : A) n i : i < n -> nth i (repeat a n) d = a.
Proof. revert i; induction n as [|n IH]; intros [|i] H; cbn; try lia; [reflexivity|]. apply IH. lia. Qed.

(** ** krSplitWith *)
Definition krCipher (E : blockCipher) (key secret : list byte) : list byte := xorStreamFrom (ofbStream E key (zeros 16)) 0 secret.
Definition krPiece (E : blockCipher) (key secret : list byte) (t i : nat) : list byte :=
  let c := krCipher E key secret in cw t (rsPerShard t (length c)) (rsData t c) i.
Definition krShare (E : blockCipher) (key secret : list byte) (t : nat) (ms : list (list byte)) (i : nat) : list byte :=
  nth i ms [] ++ krPiece E key secret t i ++ [i2b i].
Definition krMeta (key : list byte) (L : nat) : list byte := key ++ leBytes LenLen (N.of_nat L mod 4294967296).

Lemma krCipher_length E key s : length (krCipher E key s) = length s.
Proof. apply xorStreamFrom_length. Qed.
Lemma krPiece_length E key s t i : length (krPiece E key s t i) = rsPerShard t (length s).
Proof. unfold krPiece. rewrite cw_length, krCipher_length. reflexivity. Qed.
Lemma krMeta_length key L : length key = 16 -> length (krMeta key L) = 20.
Proof. intros H. unfold krMeta. rewrite app_length, leBytes_length, H. reflexivity. Qed.

Lemma appendIds_ok enc : foreach (seq 0 (length enc)) (fun i e => do s <- idx e i; upd e i (s ++ [i2b i])) enc
  = Ret (map (fun i => nth i enc [] ++ [i2b i]) (seq 0 (length enc))).
Proof.
  apply (foreach_upd_map [] _ (fun i s => s ++ [i2b i])); [reflexivity|]. intros i o Hi Ho.
  rewrite (idx_ok o i []) by lia. cbn [bind]. apply upd_ok. lia.
Qed.

Lemma splice_all {A} (l sub : list A) : length l = length sub -> splice l 0 sub = sub.
Proof. intros H. unfold splice. cbn [firstn app Nat.add]. rewrite <- H, skipn_all. apply app_nil_r. Qed.

Lemma krAssemble_ok n ms enc lm le : 0 < n -> length ms = n -> length enc = n ->
  (forall i, i < n -> length (nth i ms []) = lm) -> (forall i, i < n -> length (nth i enc []) = le) ->
  krAssemble n ms enc = Ret (map (fun i => nth i ms [] ++ nth i enc []) (seq 0 n)).
Proof.
  intros Hn Hm He Lm Le. unfold krAssemble. rewrite (idx_ok enc 0 []) by lia. rewrite (idx_ok ms 0 []) by lia. cbn [bind].
  rewrite Lm, Le by exact Hn.
  set (body := fun (i : nat) (results : list (list byte)) => _).
  destruct (foreach_seq (fun k o => length o = n /\ forall i, i < n -> nth i o [] = if i <? k then nth i ms [] ++ nth i enc [] else zeros (le + lm))
    body n 0 (newByteMatrix n (le + lm))) as (o & E & Ho & Hi).
  - unfold newByteMatrix. split; [apply repeat_length|]. intros i Hi. rewrite nth_repeat_lt by exact Hi. reflexivity.
  - intros i o Hi (Ho & Inv). eexists. split.
    + unfold body. rewrite (idx_ok o i []) by lia. rewrite (idx_ok ms i []) by lia. cbn [bind].
      rewrite (Inv i) by lia. destruct (Nat.ltb_spec i i) as [X|_]; [lia|].
      rewrite slice_ok by (rewrite ?zeros_length; lia). cbn [bind].
      rewrite (idx_ok enc i []) by lia. cbn [bind].
      rewrite gocopy_same by (rewrite firstn_length, skipn_length, zeros_length, Lm; lia).
      rewrite slice_tail by (rewrite splice_length; rewrite ?zeros_length, ?Lm; lia). cbn [bind].
      rewrite gocopy_same by (rewrite skipn_length, splice_length; rewrite ?zeros_length, ?Lm, ?Le; lia).
      apply upd_ok. lia.
    + split; [rewrite set_nth_length; lia|]. intros j Hj. rewrite nth_set_nth by lia.
      destruct (Nat.eqb_spec j i) as [->|N].
      * destruct (Nat.ltb_spec i (S i)) as [_|X]; [|lia].
        unfold splice at 1. rewrite skipn_all2 by (rewrite splice_length; rewrite ?zeros_length, ?Lm, ?Le; lia). rewrite app_nil_r. f_equal.
        unfold splice. cbn [firstn app]. rewrite firstn_app, Lm, Nat.sub_diag, firstn_O, app_nil_r by lia.
        apply firstn_all2. rewrite Lm; lia.
      * rewrite Inv by exact Hj. destruct (Nat.ltb_spec j i), (Nat.ltb_spec j (S i)); try reflexivity; lia.
  - rewrite E. f_equal. apply nth_ext with [] []; [rewrite map_length, seq_length; exact Ho|]. intros i Hlt. rewrite Ho in Hlt.
    rewrite Hi, nth_map_seq by exact Hlt. destruct (Nat.ltb_spec i (0 + n)); [reflexivity|lia].
Qed.

Lemma krCheck_None len parts threshold : krCheck len parts threshold = None <->
  (Z.of_nat len <= 4294967295 /\ threshold <> 0 /\ parts <> 0 /\ threshold <= parts /\ parts <= 255)%Z.
Proof.
  unfold krCheck. destruct (Z.ltb_spec 4294967295 (Z.of_nat len)); [split; [discriminate|lia]|].
  destruct (Z.eqb_spec threshold 0), (Z.eqb_spec parts 0); cbn [orb]; try (split; [discriminate|lia]).
  destruct (Z.ltb_spec parts threshold); [split; [discriminate|lia]|].
  destruct (Z.ltb_spec 255 threshold), (Z.ltb_spec 255 parts); cbn [orb]; split; try discriminate; try lia; reflexivity.
Qed.

Lemma rsNew_None zp d p : (0 < d -> 0 <= p -> d + p <= 256 -> (zp = true \/ 0 < p) -> rsNew zp d p = None)%Z.
Proof.
  intros H1 H2 H3 H4. unfold rsNew. destruct (Z.leb_spec d 0); [lia|]. destruct (Z.ltb_spec p 0); [lia|]. cbn [orb].
  destruct (Z.eqb_spec p 0); cbn [andb].
  - destruct H4 as [->|]; [|lia]. cbn [negb]. destruct (Z.ltb_spec 256 (d + p)); [lia|reflexivity].
  - destruct (Z.ltb_spec 256 (d + p)); [lia|reflexivity].
Qed.

Lemma krSplitWith_ok E zp key share secret parts threshold ms : kr_valid_args zp secret parts threshold -> length key = 16 ->
  share (krMeta key (length secret)) parts threshold = Ret ms -> length ms = Z.to_nat parts ->
  (forall i, i < Z.to_nat parts -> length (nth i ms []) = 21) ->
  krSplitWith E zp key share secret parts threshold =
  Ret (map (krShare E key secret (Z.to_nat threshold) ms) (seq 0 (Z.to_nat parts))).
Proof.
  intros (Hs & HL & H2 & H3 & H4 & Hz) Hk Hsh Hm Lm. unfold krSplitWith.
  replace (krCheck (length secret) parts threshold) with (@None err) by (symmetry; apply krCheck_None; lia).
  rewrite encrypt_ok by (unfold aesKeyOk; rewrite Hk; reflexivity). cbn [bind]. fold (krCipher E key secret).
  rewrite rsNew_None by (first [lia | destruct Hz; [left; assumption|right; lia]]).
  set (t := Z.to_nat threshold). set (n := Z.to_nat parts) in *. set (c := krCipher E key secret).
  assert (Lc : length c = length secret) by apply krCipher_length.
  assert (Hc : c <> []) by (destruct c, secret; cbn in *; congruence).
  assert (Pos : 0 < length c) by (destruct c; [congruence|cbn; lia]).
  rewrite rsSplit_ok by exact Hc. cbn [bind].
  assert (0 < t) by lia.
  rewrite rsEncode_ok; try lia; [|apply rsPerShard_pos; lia|apply rsData_length|intros i Hi; apply rsData_row_length; lia].
  cbn [bind]. rewrite appendIds_ok. cbn [bind]. rewrite map_length, seq_length.
  fold (krMeta key (length c)). rewrite Lc, Hsh. cbn [bind].
  rewrite krAssemble_ok with (lm := 21) (le := rsPerShard t (length secret) + 1); [| lia | exact Hm | rewrite map_length, seq_length; reflexivity | exact Lm |].
  - f_equal. apply map_ext_in. intros i Hi. apply in_seq in Hi. rewrite nth_map_seq by lia. rewrite nth_map_seq by lia.
    unfold krShare, krPiece. cbv zeta. fold c. rewrite Lc. reflexivity.
  - intros i Hi. rewrite nth_map_seq by lia. rewrite nth_map_seq by lia. rewrite app_length, cw_length. cbn [length]. reflexivity.
Qed.

(** errors and success of krSplitWith, for any share function with the contract of the shamir functions *)
Lemma aes16 key : length key = 16 -> aesKeyOk key = true.
Proof. intros H. unfold aesKeyOk. rewrite H. reflexivity. Qed.

Lemma krSplitWith_stuck E zp key share secret parts threshold : length key = 16 ->
  (exists e, kr_arg_error zp secret parts threshold e /\ e <> EThresholdSmall /\ krSplitWith E zp key share secret parts threshold = Fail e) \/
  (secret <> [] /\ (Z.of_nat (length secret) <= 4294967295)%Z /\ (1 <= threshold <= parts)%Z /\ (parts <= 255)%Z /\ (zp = true \/ threshold < parts)%Z /\
   exists enc, length enc = Z.to_nat parts /\
   krSplitWith E zp key share secret parts threshold =
     bind (share (krMeta key (length secret)) parts threshold) (fun ms => krAssemble (Z.to_nat parts) ms enc)).
Proof.
  intros Hk. unfold krSplitWith, kr_arg_error. cbv zeta.
  destruct (krCheck (length secret) parts threshold) as [e|] eqn:C.
  - left. exists e. unfold krCheck in C.
    destruct (Z.ltb_spec 4294967295 (Z.of_nat (length secret))); [injection C as <-; repeat split; [intuition|discriminate]|].
    destruct (Z.eqb_spec threshold 0), (Z.eqb_spec parts 0); cbn [orb] in C; try (injection C as <-; repeat split; [intuition|discriminate]).
    destruct (Z.ltb_spec parts threshold); [injection C as <-; repeat split; [intuition|discriminate]|].
    destruct (Z.ltb_spec 255 threshold), (Z.ltb_spec 255 parts); cbn [orb] in C; try discriminate; try lia; injection C as <-; (repeat split; [|discriminate]).
    + right. right. right. left. repeat split; lia.
    + right. right. right. left. repeat split; lia.
  - apply krCheck_None in C as (HL & H1 & H2 & H3 & H4). rewrite encrypt_ok by (apply aes16; exact Hk). cbn [bind].
    unfold rsNew. destruct (Z.leb_spec threshold 0); cbn [orb].
    { left. exists ERSInvShardNum. split; [|split; [discriminate|reflexivity]]. do 4 right. left. repeat split; try lia. }
    destruct (Z.ltb_spec (parts - threshold) 0); [lia|]. cbn [orb].
    destruct (Z.eqb_spec (parts - threshold) 0) as [Ez|Ez]; cbn [andb].
    + destruct zp; cbn [negb].
      * destruct (Z.ltb_spec 256 (threshold + (parts - threshold))); [lia|].
        destruct secret as [|b secret].
        { left. exists ERSShortData. split; [|split; [discriminate|reflexivity]]. do 5 right. left. repeat split; try lia. }
        right. repeat split; try lia; try discriminate.
        fold (krCipher E key (b :: secret)). set (c := krCipher E key (b :: secret)).
        assert (Lc : length c = length (b :: secret)) by apply krCipher_length.
        assert (Hc : c <> []) by (destruct c; cbn in *; congruence).
        rewrite rsSplit_ok by exact Hc. cbn [bind].
        rewrite rsEncode_ok; try lia; [|apply rsPerShard_pos; [lia|rewrite Lc; cbn; lia]|apply rsData_length|intros i Hi; apply rsData_row_length; lia].
        cbn [bind]. rewrite appendIds_ok. cbn [bind]. fold (krMeta key (length c)). rewrite Lc. eexists. split; [|reflexivity].
        rewrite !map_length, !seq_length. reflexivity.
      * left. exists ERSInvShardNum. split; [|split; [discriminate|reflexivity]]. do 4 right. left. repeat split; try lia.
    + destruct (Z.ltb_spec 256 (threshold + (parts - threshold))); [lia|].
        destruct secret as [|b secret].
        { left. exists ERSShortData. split; [|split; [discriminate|reflexivity]]. do 5 right. left. repeat split; try lia. }
        right. repeat split; try lia; try discriminate.
        fold (krCipher E key (b :: secret)). set (c := krCipher E key (b :: secret)).
        assert (Lc : length c = length (b :: secret)) by apply krCipher_length.
        assert (Hc : c <> []) by (destruct c; cbn in *; congruence).
        rewrite rsSplit_ok by exact Hc. cbn [bind].
        rewrite rsEncode_ok; try lia; [|apply rsPerShard_pos; [lia|rewrite Lc; cbn; lia]|apply rsData_length|intros i Hi; apply rsData_row_length; lia].
        cbn [bind]. rewrite appendIds_ok. cbn [bind]. fold (krMeta key (length c)). rewrite Lc. eexists. split; [|reflexivity].
        rewrite !map_length, !seq_length. reflexivity.
Qed.
