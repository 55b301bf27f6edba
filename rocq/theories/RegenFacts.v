(** Regenerate: closed form, termination and divergence. *)
From Coq Require Import List NArith ZArith Lia Arith Bool Permutation.
From Coq.Init Require Import Byte.
From Verif Require Import GoSem Bytes Spec Galois GF PolyFacts Vector GoFacts VectorFacts Csprng Pool Polynomial PolynomialFacts Shamir SplitFacts CombineFacts.
Import ListNotations.

(** the share of the interpolating polynomials at [x] *)
Definition regenShare (parts : list (list byte)) (L : nat) (x : byte) : list byte := interpAt parts (L - 1) x ++ [x].

Lemma redraw_cases fuel : forall u k nx m,
  redraw fuel u k nx m = Diverge \/ exists y k', redraw fuel u k nx m = Ret (y, k') /\ ~ In y m /\ k <= k'.
Proof.
  induction fuel as [|f IH]; intros u k nx m; cbn [redraw]; destruct (mem nx m) eqn:E.
  - left. reflexivity.
  - right. apply mem_false in E. eauto.
  - destruct (IH u (S k) (u k) m) as [D|(y & k' & R & H & Hk)]; [left; exact D|right]. exists y, k'. split; [exact R|]. split; [exact H|lia].
  - right. apply mem_false in E. eauto.
Qed.

Lemma dedup_step_cases fuel u l : forall m k,
  (foreach l (fun nx '(checkMap, k) => do '(nx', k') <- redraw fuel u k nx checkMap; Ret (nx' :: checkMap, k')) (m, k)) = Diverge \/
  exists m' k', (foreach l (fun nx '(checkMap, k) => do '(nx', k') <- redraw fuel u k nx checkMap; Ret (nx' :: checkMap, k')) (m, k)) = Ret (m', k') /\
    length m' = length m + length l /\ (NoDup m -> NoDup m').
Proof.
  induction l as [|x l IH]; intros m k.
  - right. exists m, k. split; [reflexivity|]. split; [cbn; lia|auto].
  - cbn [foreach]. destruct (redraw_cases fuel u k x m) as [D|(y & k' & R & Hy & _)].
    + left. rewrite D. reflexivity.
    + rewrite R. cbn [bind]. destruct (IH (y :: m) k') as [D|(m' & k'' & E & Lm & ND)]; [left; exact D|right].
      exists m', k''. split; [exact E|]. split; [cbn [length] in *; lia|]. intros N. apply ND. constructor; assumption.
Qed.

Lemma dedupLoop_cases fuel u m l :
  dedupLoop fuel u m l = Diverge \/
  exists m' k', dedupLoop fuel u m l = Ret (m', k') /\ length m' = length m + length l /\ (NoDup m -> NoDup m').
Proof. apply dedup_step_cases. Qed.

Lemma NoDup_bytes_256 (l : list byte) : NoDup l -> length l <= 256.
Proof.
  intros H. replace 256 with (length all_bytes) by reflexivity. apply NoDup_incl_length; [exact H|].
  intros x _. apply all_bytes_in.
Qed.

Lemma dedupLoop_hangs fuel u m l : NoDup m -> 256 < length m + length l -> dedupLoop fuel u m l = Diverge.
Proof.
  intros N H. destruct (dedupLoop_cases fuel u m l) as [D|(m' & k' & _ & Lm & ND)]; [exact D|].
  exfalso. pose proof (NoDup_bytes_256 m' (ND N)). lia.
Qed.

(** termination on sources in which every byte value recurs *)


Lemma redraw_reaches u m d : forall k nx, ~ In (u (k + d)) m ->
  exists f0, forall f, f0 <= f -> exists y k', redraw f u k nx m = Ret (y, k') /\
     (forall f', f0 <= f' -> redraw f' u k nx m = Ret (y, k')).
Proof.
  induction d as [|d IH]; intros k nx H.
  - destruct (mem nx m) eqn:E.
    + exists 1. intros f Hf. exists (u k), (S k). rewrite Nat.add_0_r in H. apply mem_false in H.
      assert (G : forall f, 1 <= f -> redraw f u k nx m = Ret (u k, S k)).
      { intros [|g] Hg; [lia|]. cbn [redraw]. rewrite E. destruct g; cbn [redraw]; rewrite H; reflexivity. }
      split; [apply G, Hf|exact G].
    + exists 0. intros f Hf. exists nx, k. assert (G : forall f, redraw f u k nx m = Ret (nx, k)) by (intros [|g]; cbn [redraw]; rewrite E; reflexivity). split; [apply G|intros f' _; apply G].
  - destruct (mem nx m) eqn:E.
    + destruct (IH (S k) (u k)) as (f0 & Hf0); [replace (S k + d) with (k + S d) by lia; exact H|].
      exists (S f0). intros [|f] Hf; [lia|]. destruct (Hf0 f) as (y & k' & R & G); [lia|]. exists y, k'.
      cbn [redraw]. rewrite E. split; [exact R|]. intros [|f'] Hf'; [lia|]. cbn [redraw]. rewrite E. apply G. lia.
    + exists 0. intros f Hf. exists nx, k. assert (G : forall f, redraw f u k nx m = Ret (nx, k)) by (intros [|g]; cbn [redraw]; rewrite E; reflexivity). split; [apply G|intros f' _; apply G].
Qed.

Lemma exists_fresh (m : list byte) : length m < 256 -> exists b, ~ In b m.
Proof.
  intros H. destruct (existsb (fun b => negb (mem b m)) all_bytes) eqn:E.
  - apply existsb_exists in E as (b & _ & Hb). exists b. apply mem_false, negb_true_iff, Hb.
  - exfalso. assert (incl all_bytes m).
    { intros b Hb. apply mem_In. destruct (mem b m) eqn:F; [reflexivity|].
      assert (existsb (fun b => negb (mem b m)) all_bytes = true); [|congruence].
      apply existsb_exists. exists b. rewrite F. auto. }
    pose proof (NoDup_incl_length all_bytes_NoDup H0). assert (length all_bytes = 256) by reflexivity. lia.
Qed.

Lemma dedup_terminates u l : recurring u -> forall m k, length m + length l <= 256 ->
  exists f0, forall f, f0 <= f -> exists r,
   (foreach l (fun nx '(checkMap, k) => do '(nx', k') <- redraw f u k nx checkMap; Ret (nx' :: checkMap, k')) (m, k)) = Ret r.
Proof.
  intros Hu. induction l as [|x l IH]; intros m k Hl.
  - exists 0. intros f _. eexists. reflexivity.
  - cbn [length] in Hl. destruct (exists_fresh m) as (b & Hb); [lia|].
    destruct (Hu b k) as (k1 & Hk1 & E1).
    destruct (redraw_reaches u m (k1 - k) k x) as (f0 & Hf0).
    { replace (k + (k1 - k)) with k1 by lia. rewrite E1. exact Hb. }
    destruct (Hf0 f0 (le_n _)) as (y & k' & _ & G).
    destruct (IH (y :: m) k') as (f1 & Hf1); [cbn [length]; lia|].
    exists (max f0 f1). intros f Hf. cbn [foreach]. rewrite (G f) by lia. cbn [bind]. apply Hf1. lia.
Qed.

Lemma dedupLoop_terminates u m l : recurring u -> length m + length l <= 256 ->
  exists f0, forall f, f0 <= f -> exists r, dedupLoop f u m l = Ret r.
Proof. intros Hu H. apply dedup_terminates; assumption. Qed.

(** the new shares, once the duplicate loop is over *)
Lemma regen_loop parts L newXs : (forall p, In p parts -> length p = L) -> NoDup (map tag parts) -> 2 <= L ->
  foreach (seq 0 (length newXs))
      (fun k newShares =>
         do nx <- idx newXs k;
         do sh <- upd (zeros L) (L - 1) nx;
         do sh <- interpolateAll (L - 1) parts (map tag parts) nx sh;
         upd newShares k sh) (repeat [] (length newXs))
  = Ret (map (regenShare parts L) newXs).
Proof.
  intros Hp ND HL.
  rewrite (foreach_upd_map [] _ (fun k _ => regenShare parts L (nth k newXs x00))).
  - f_equal. symmetry. apply map_as_seq.
  - rewrite repeat_length. reflexivity.
  - intros k o Hk Ho. rewrite (idx_ok newXs k x00) by exact Hk. cbn [bind].
    rewrite upd_ok by (rewrite zeros_length; lia). cbn [bind].
    destruct (interpolateAll_ok parts L (nth k newXs x00) (set_nth (zeros L) (L - 1) (nth k newXs x00))) as (s & E & Ls & V & W); try assumption; try lia.
    { rewrite set_nth_length by (rewrite zeros_length; lia). rewrite zeros_length. lia. }
    rewrite E. cbn [bind]. rewrite upd_ok by (rewrite Ho, repeat_length; exact Hk). do 2 f_equal.
    rewrite set_nth_length, zeros_length in Ls by (rewrite zeros_length; lia).
    apply nth_ext with x00 x00.
    + rewrite Ls. unfold regenShare. rewrite app_length, interpAt_length. cbn. lia.
    + intros j Hj. rewrite Ls in Hj. unfold regenShare. destruct (Nat.lt_ge_cases j (L - 1)) as [H|H].
      * rewrite V by exact H. rewrite app_nth1 by (rewrite interpAt_length; exact H). rewrite nth_interpAt by exact H. reflexivity.
      * rewrite W by exact H. rewrite app_nth2 by (rewrite interpAt_length; exact H). rewrite interpAt_length.
        assert (j = L - 1) by lia. subst j. rewrite Nat.sub_diag. rewrite nth_set_nth by (rewrite zeros_length; lia).
        rewrite Nat.eqb_refl. reflexivity.
Qed.

Lemma Regenerate_dedup fuel stream u parts num L r : (0 <= num)%Z -> 2 <= length parts -> 2 <= L ->
  (forall p, In p parts -> length p = L) -> NoDup (map tag parts) ->
  dedupLoop fuel u (map tag parts) (take_stream stream (Z.to_nat num)) = Ret r ->
  Regenerate fuel stream u parts num = Ret (map (regenShare parts L) (take_stream stream (Z.to_nat num))).
Proof.
  intros Hnum Hk HL Hp ND Hd. unfold Regenerate.
  assert (H0 : length (nth 0 parts []) = L) by (apply Hp, nth_In; lia).
  replace (checkParts parts) with (@None err).
  2:{ symmetry. apply checkParts_None. repeat split; try lia. intros p Hin. rewrite H0. apply Hp, Hin. }
  rewrite H0. cbv zeta. unfold make_len. destruct (Z.ltb_spec num 0); [lia|]. cbn [bind].
  rewrite collectTags_ok by (assumption || lia). cbn [bind]. rewrite Hd. cbn [bind].
  pose proof (regen_loop parts L (take_stream stream (Z.to_nat num)) Hp ND HL) as E. rewrite take_stream_length in E. exact E.
Qed.

Lemma Regenerate_diverge fuel stream u parts num L : (0 <= num)%Z -> 2 <= length parts -> 2 <= L ->
  (forall p, In p parts -> length p = L) -> NoDup (map tag parts) ->
  dedupLoop fuel u (map tag parts) (take_stream stream (Z.to_nat num)) = Diverge ->
  Regenerate fuel stream u parts num = Diverge.
Proof.
  intros Hnum Hk HL Hp ND Hd. unfold Regenerate.
  assert (H0 : length (nth 0 parts []) = L) by (apply Hp, nth_In; lia).
  replace (checkParts parts) with (@None err).
  2:{ symmetry. apply checkParts_None. repeat split; try lia. intros p Hin. rewrite H0. apply Hp, Hin. }
  rewrite H0. cbv zeta. unfold make_len. destruct (Z.ltb_spec num 0); [lia|]. cbn [bind].
  rewrite collectTags_ok by (assumption || lia). cbn [bind]. rewrite Hd. reflexivity.
Qed.

(** full case analysis of Regenerate in terms of Combine on the same parts *)
Lemma Regenerate_cases fuel stream u parts num :
  (exists e, Combine parts = Fail e /\ e <> EDuplicatePart /\ Regenerate fuel stream u parts num = Fail e) \/
  (okParts parts /\ (num < 0)%Z /\ Regenerate fuel stream u parts num = Panic PMakeLen) \/
  (Combine parts = Fail EDuplicatePart /\ (0 <= num)%Z /\ Regenerate fuel stream u parts num = Fail EDuplicatePart) \/
  (exists r, Combine parts = Ret r /\ (0 <= num)%Z /\
     (Regenerate fuel stream u parts num = Diverge \/
      Regenerate fuel stream u parts num =
        Ret (map (regenShare parts (length (nth 0 parts []))) (take_stream stream (Z.to_nat num))))).
Proof.
  destruct (Combine_cases parts) as [(H1 & E)|[(H1 & H2 & E)|[(H1 & H2 & H3 & E)|[(Hok & H2 & E)|(Hok & ND & E)]]]].
  - left. exists ETooFewParts. split; [exact E|]. split; [discriminate|]. unfold Combine in E. unfold Regenerate.
    destruct (checkParts parts) eqn:F; [injection E as ->; reflexivity|]. apply checkParts_None in F. destruct F; lia.
  - left. exists EPartsTooShort. split; [exact E|]. split; [discriminate|]. unfold Combine in E. unfold Regenerate.
    destruct (checkParts parts) eqn:F; [injection E as ->; reflexivity|]. apply checkParts_None in F as (_ & ? & _); lia.
  - left. exists EPartsLength. split; [exact E|]. split; [discriminate|]. unfold Combine in E. unfold Regenerate.
    destruct (checkParts parts) eqn:F; [injection E as ->; reflexivity|]. apply checkParts_None in F as (_ & _ & A).
    destruct H3 as (p & Hp & Hn). exfalso. apply Hn, A, Hp.
  - right. pose proof Hok as Hc. apply checkParts_None in Hc. destruct Hok as (A1 & A2 & A3).
    destruct (Z.lt_ge_cases num 0) as [Hn|Hn].
    + left. split; [repeat split; assumption|]. split; [exact Hn|]. unfold Regenerate. rewrite Hc. cbv zeta. unfold make_len.
      apply Z.ltb_lt in Hn. rewrite Hn. reflexivity.
    + right; left. split; [exact E|]. split; [exact Hn|]. unfold Regenerate. rewrite Hc. cbv zeta. unfold make_len.
      destruct (Z.ltb_spec num 0); [lia|]. cbn [bind]. rewrite collectTags_dup by (assumption || lia). reflexivity.
  - right. pose proof Hok as Hc. apply checkParts_None in Hc. destruct Hok as (A1 & A2 & A3).
    destruct (Z.lt_ge_cases num 0) as [Hn|Hn].
    + left. split; [repeat split; assumption|]. split; [exact Hn|]. unfold Regenerate. rewrite Hc. cbv zeta. unfold make_len.
      apply Z.ltb_lt in Hn. rewrite Hn. reflexivity.
    + right; right. eexists. split; [exact E|]. split; [exact Hn|].
      destruct (dedupLoop_cases fuel u (map tag parts) (take_stream stream (Z.to_nat num))) as [D|(m & k & R & _)].
      * left. eapply Regenerate_diverge; eassumption.
      * right. eapply Regenerate_dedup; eassumption.
Qed.

(** on shares of a sharing, regenerated shares are shares of the same sharing *)
Lemma regenShare_sharing polys xs t x : NoDup xs -> Forall (fun p => length p = t) polys -> t <= length xs ->
  regenShare (map (share_at polys) xs) (length polys + 1) x = share_at polys x.
Proof.
  intros ND F Ht. unfold regenShare. change (share_at polys x) with (map (fun p => peval p x) polys ++ [x]). f_equal. unfold interpAt. rewrite map_tag_shares, Nat.add_sub.
  rewrite (map_as_seq (fun p => peval p x) polys []). apply map_ext_in. intros j Hj. apply in_seq in Hj.
  rewrite (interp_sharing polys xs t) by (assumption || lia). symmetry. apply peval_heval.
Qed.

(** the new share at the tag of a part is that part *)
Lemma regenShare_part parts L p : (forall q, In q parts -> length q = L) -> 0 < L -> NoDup (map tag parts) -> In p parts ->
  regenShare parts L (tag p) = p.
Proof.
  intros Hl HL ND Hp. pose proof (Hl p Hp) as Lp. apply nth_ext with x00 x00.
  - unfold regenShare. rewrite app_length, interpAt_length. cbn. lia.
  - intros j Hj. unfold regenShare in *. rewrite app_length, interpAt_length in Hj. cbn [length] in Hj.
    destruct (Nat.lt_ge_cases j (L - 1)) as [H|H].
    + rewrite app_nth1 by (rewrite interpAt_length; exact H). rewrite nth_interpAt by exact H. apply interp_at_part; assumption.
    + rewrite app_nth2 by (rewrite interpAt_length; exact H). rewrite interpAt_length. assert (j = L - 1) by lia. subst j.
      rewrite Nat.sub_diag. cbn [nth]. unfold tag. rewrite last_nth, Lp. reflexivity.
Qed.
