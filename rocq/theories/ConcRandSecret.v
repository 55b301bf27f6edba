(** Secrecy of concurrent calls (C71). *)
From Coq Require Import List NArith ZArith Lia Arith Bool Permutation.
From Coq.Init Require Import Byte.
From Verif Require Import GoSem Bytes Spec Vector Csprng Pool Polynomial Shamir SplitP Libs Krawczyk MathRand GoFacts GF VectorFacts SplitFacts CombineFacts RegenFacts Derived PolynomialFacts Secrecy SplitPFacts SplitPMore SplitPTop
  CountFacts JointFacts MathRandFacts ConcRand SpecConcRand ConcRandFacts.
Import ListNotations.

Lemma shift_views P M N t xs s s' :
  shiftable P M N t -> NoDup xs -> ~ In x00 xs -> length xs < t -> length s = N -> length s' = N ->
  exists delta, length delta = M /\ forall r, length r = M -> map (share_at (P s r)) xs = map (share_at (P s' (xor_bytes r delta))) xs.
Proof.
  intros HP ND H0 Ht Ls Ls'.
  destruct (shift_core P M N t xs s s' (fun _ => []) HP ND H0 Ht Ls Ls') as (delta & Ld & E).
  exists delta. split; [exact Ld|]. intros r Hr. apply map_ext_in. intros x Hx.
  apply In_nth with (d := x00) in Hx as (i & Hi & <-).
  destruct HP as (H1 & _). assert (Lx : length (xor_bytes r delta) = M) by (rewrite xor_bytes_length; lia).
  apply (share_at_ext N); [apply H1; assumption|apply H1; assumption|].
  intros p Hp. rewrite E by assumption. destruct i; cbn [nth]; rewrite gadd_0_r; reflexivity.
Qed.

Definition shown (is : list nat) (o : outcome (list (list byte))) : option (list (list byte)) :=
  match o with Ret shares => Some (pick [] shares is) | _ => None end.

Lemma xor_zeros l : xor_bytes l (zeros (length l)) = l.
Proof. induction l as [|a l IH]; [reflexivity|]. cbn [length zeros repeat xor_bytes]. unfold zeros in IH. rewrite IH. f_equal. change (gadd a x00 = a). apply gadd_0_r. Qed.

Lemma same_mask {X} (f : list byte -> X) M : exists delta, length delta = M /\ forall r, length r = M -> f r = f (xor_bytes r delta).
Proof. exists (zeros M). split; [apply zeros_length|]. intros r <-. rewrite xor_zeros. reflexivity. Qed.

Section Masks.
Context (perm : list nat) (s s' : list byte) (parts threshold : Z) (is : list nat).
Hypotheses (P : Permutation perm (seq 0 255)) (V : valid_args s parts threshold) (Hl : length s = length s')
  (C : coalition (Z.to_nat parts) (Z.to_nat threshold) is).
Let t := Z.to_nat threshold.

Lemma V' : valid_args s' parts threshold.
Proof. destruct V as (Hs & H). split; [|exact H]. intros ->. destruct s; [congruence|discriminate]. Qed.

Lemma mask_Split ar growcap : grow_ok growcap -> exists delta, length delta = t * length s /\ forall r, length r = t * length s ->
  shown is (Split ar growcap perm (got r) [] [] noBufs s parts threshold)
  = shown is (Split ar growcap perm (got (xor_bytes r delta)) [] [] noBufs s' parts threshold).
Proof.
  intros G. destruct C as (C1 & C2 & C3). pose proof V as (Hs & H2 & H3 & H4). destruct (perm_coords perm P) as (ND & NF & L255).
  destruct (pick_tags_facts (Z.to_nat parts) (map i2b perm) is) as (N1 & N2); try assumption; [lia|].
  destruct (shift_views (polysOf t) (t * length s) (length s) t (pick x00 (tagsOf (Z.to_nat parts) (map i2b perm)) is) s s') as (delta & Ld & E);
    try assumption; try reflexivity; try (symmetry; exact Hl).
  - apply shiftable_polysOf. unfold t. lia.
  - rewrite pick_length. exact C3.
  - exists delta. split; [exact Ld|]. intros r Hr. rewrite map_length in L255.
    assert (Hpk : forall polys, pick [] (map (share_at polys) (tagsOf (Z.to_nat parts) (map i2b perm))) is
        = map (share_at polys) (pick x00 (tagsOf (Z.to_nat parts) (map i2b perm)) is)).
    { intros polys. apply pick_map. rewrite tagsOf_length by (rewrite map_length; lia). exact C2. }
    change got with stream_of.
    rewrite (Split_ok ar growcap perm _ [] [] noBufs s parts threshold G (proj1 (valid_checkArgs _ _ _) V)) by lia.
    rewrite (Split_ok ar growcap perm _ [] [] noBufs s' parts threshold G (proj1 (valid_checkArgs _ _ _) V')) by lia.
    rewrite !take_stream_of by (rewrite ?xor_bytes_length; unfold t in *; lia). cbn [shown]. rewrite !Hpk. f_equal. apply E. exact Hr.
Qed.

Lemma mask_Generic : exists delta, length delta = (t - 1) * length s /\ forall r, length r = (t - 1) * length s ->
  shown is (SplitGeneric perm (got r) s parts threshold)
  = shown is (SplitGeneric perm (got (xor_bytes r delta)) s' parts threshold).
Proof.
  destruct C as (C1 & C2 & C3). pose proof V as (Hs & H2 & H3 & H4). destruct (perm_coords perm P) as (ND & NF & L255).
  destruct (pick_tags_facts (Z.to_nat parts) (map i2b perm) is) as (N1 & N2); try assumption; [lia|].
  destruct (shift_views (polysGen t) ((t - 1) * length s) (length s) t (pick x00 (tagsOf (Z.to_nat parts) (map i2b perm)) is) s s') as (delta & Ld & E);
    try assumption; try reflexivity; try (symmetry; exact Hl).
  - apply shiftable_polysGen. unfold t. lia.
  - rewrite pick_length. exact C3.
  - exists delta. split; [exact Ld|]. intros r Hr. rewrite map_length in L255.
    assert (Hpk : forall polys, pick [] (map (share_at polys) (tagsOf (Z.to_nat parts) (map i2b perm))) is
        = map (share_at polys) (pick x00 (tagsOf (Z.to_nat parts) (map i2b perm)) is)).
    { intros polys. apply pick_map. rewrite tagsOf_length by (rewrite map_length; lia). exact C2. }
    change got with stream_of.
    rewrite (SplitGeneric_ok perm _ s parts threshold (proj1 (valid_checkArgs _ _ _) V)) by lia.
    rewrite (SplitGeneric_ok perm _ s' parts threshold (proj1 (valid_checkArgs _ _ _) V')) by lia.
    rewrite !take_stream_of by (rewrite ?xor_bytes_length; unfold t in *; lia). cbn [shown]. rewrite !Hpk. f_equal. apply E. exact Hr.
Qed.

Definition pOut (o : option (outcome (list (list byte)))) : outcome (list (list byte)) := match o with Some o => o | None => Diverge end.

Lemma mask_P sched : (N.of_nat (length s) <= 4294967296 - 1024)%N ->
  exists delta, length delta = length s * (t - 1) /\ forall r, length r = length s * (t - 1) ->
  shown is (pOut (SplitPRun perm (got r) s parts threshold sched))
  = shown is (pOut (SplitPRun perm (got (xor_bytes r delta)) s' parts threshold sched)).
Proof.
  intros HL. destruct C as (C1 & C2 & C3). pose proof V as (Hs & H2 & H3 & H4). destruct (valid_deg _ _ _ V) as (D1 & D2).
  assert (Hsl : secretLen s = N.of_nat (length s)) by (unfold secretLen, u32; apply N.mod_small; lia).
  destruct (perm_coords perm P) as (ND & NF & L255).
  destruct (pick_tags_facts (Z.to_nat parts) (map i2b perm) is) as (N1 & N2); try assumption; [lia|].
  rewrite map_length in L255. change got with stream_of. unfold pOut.
  destruct (SplitPRun perm (stream_of []) s parts threshold sched) as [[shares| | | |]|] eqn:E0.
  { destruct (SplitPRun_order perm _ s parts threshold sched shares P ltac:(lia) E0) as (order & Po & Ho).
    rewrite Hsl, Nat2N.id in Po.
    assert (Hpk : forall polys, pick [] (map (share_at polys) (tagsOf (Z.to_nat parts) (map i2b perm))) is
        = map (share_at polys) (pick x00 (tagsOf (Z.to_nat parts) (map i2b perm)) is)).
    { intros polys. apply pick_map. rewrite tagsOf_length by (rewrite map_length; lia). exact C2. }
    destruct (shift_views (fun s r => polysP s (z2b (threshold - 1)) (stream_of r) order) (length s * (t - 1)) (length s) t
        (pick x00 (tagsOf (Z.to_nat parts) (map i2b perm)) is) s s') as (delta & Ld & E);
      try assumption; try reflexivity; try (symmetry; exact Hl).
    - unfold t. replace (length s * (Z.to_nat threshold - 1)) with (b2i (z2b (threshold - 1)) * length s) by (rewrite D1; lia).
      replace (Z.to_nat threshold) with (S (b2i (z2b (threshold - 1)))) by lia.
      apply shiftable_polysP; [lia|exact Po].
    - rewrite pick_length. exact C3.
    - exists delta. split; [exact Ld|]. intros r Hr. rewrite Ho by reflexivity. rewrite (Ho _ s') by (symmetry; exact Hl).
      cbn [shown]. rewrite !Hpk. f_equal. apply E. exact Hr. }
  all: assert (None1 : forall st sec sh, length sec = length s -> SplitPRun perm st sec parts threshold sched <> Some (Ret sh));
    [intros st sec sh Hsec F; assert (Hs3 : (secretLen sec <= 4294967296 - 1024)%N) by (unfold secretLen, u32; rewrite Hsec, N.mod_small; lia);
     destruct (SplitPRun_order perm _ sec parts threshold sched sh P Hs3 F) as (order & _ & Ho);
     rewrite (Ho (stream_of []) s (eq_sym Hsec)) in E0; discriminate|].
  all: assert (None2 : forall st sec, length sec = length s -> shown is match SplitPRun perm st sec parts threshold sched with Some o => o | None => Diverge end = None)
    by (intros st sec Hsec; destruct (SplitPRun perm st sec parts threshold sched) as [[sh| | | |]|] eqn:F; try reflexivity; exfalso; exact (None1 _ _ _ Hsec F)).
  all: exists (zeros (length s * (t - 1))); split; [apply zeros_length|]; intros r Hr; rewrite !None2 by lia; reflexivity.
Qed.
End Masks.

(** the two sides of a request run in step *)
Definition request_size (q : request) : nat := Z.to_nat (q_threshold q) * length (q_left q).

Section Serve.
Context (ar : arch) (growcap : nat -> nat -> nat) (G : grow_ok growcap).

Lemma rel_serve (Bd : nat -> Prop) q : fair_request q -> (forall l, l <= request_size q -> Bd l) ->
  forall n, rel Bd eq n (serve ar growcap true q) (serve ar growcap false q).
Proof.
  intros (V & Hl & HC & HL) HB n. destruct q as [by_ s s' parts threshold is]. unfold request_size in HB. cbn [q_by q_left q_right q_parts q_threshold q_show] in *.
  pose proof (V' s s' parts threshold V Hl) as W.
  apply valid_checkArgs in V as CA. apply valid_checkArgs in W as CA'. pose proof V as (Hs & H2 & H3 & H4).
  set (t := Z.to_nat threshold) in *.
  unfold serve; cbn [q_by q_left q_right q_parts q_threshold q_show]. destruct by_ as [| |sched].
  - unfold rSplit. rewrite CA, CA'. apply rel_perm. intros perm m P. destruct m as [|m]; [exact I|]. rewrite rel_S. fold t. rewrite <- Hl.
    split; [reflexivity|]. split; [apply HB; lia|].
    assert (Mk : exists delta, length delta = t * length s /\ forall r, length r = t * length s ->
       shown is (Split ar growcap perm (got r) [] [] noBufs s parts threshold)
       = shown is (Split ar growcap perm (got (xor_bytes r delta)) [] [] noBufs s' parts threshold)).
    { destruct HC as [C| <-]; [apply mask_Split; assumption|]. apply (same_mask (fun r => shown is (Split ar growcap perm (got r) [] [] noBufs s parts threshold))). }
    destruct Mk as (delta & Ld & E). exists delta. split; [exact Ld|]. intros c Lc. destruct m as [|m]; [exact I|]. rewrite rel_S. do 2 f_equal. apply E, Lc.
  - unfold rSplitGeneric. rewrite CA, CA'. apply rel_perm. intros perm m P. destruct m as [|m]; [exact I|]. rewrite rel_S. fold t. rewrite <- Hl.
    split; [reflexivity|]. split; [apply HB; apply Nat.mul_le_mono_r; lia|].
    assert (Mk : exists delta, length delta = (t - 1) * length s /\ forall r, length r = (t - 1) * length s ->
       shown is (SplitGeneric perm (got r) s parts threshold)
       = shown is (SplitGeneric perm (got (xor_bytes r delta)) s' parts threshold)).
    { destruct HC as [C| <-]; [apply mask_Generic; assumption|]. apply (same_mask (fun r => shown is (SplitGeneric perm (got r) s parts threshold))). }
    destruct Mk as (delta & Ld & E). exists delta. split; [exact Ld|]. intros c Lc. destruct m as [|m]; [exact I|]. rewrite rel_S. do 2 f_equal. apply E, Lc.
  - unfold rSplitP. rewrite CA, CA'. apply rel_perm. intros perm m P. fold t. rewrite <- Hl.
    assert (Mk : exists delta, length delta = length s * (t - 1) /\ forall r, length r = length s * (t - 1) ->
       shown is (pOut (SplitPRun perm (got r) s parts threshold sched))
       = shown is (pOut (SplitPRun perm (got (xor_bytes r delta)) s' parts threshold sched))).
    { destruct HC as [C| <-]; [apply mask_P; assumption|]. apply (same_mask (fun r => shown is (pOut (SplitPRun perm (got r) s parts threshold sched)))). }
    destruct Mk as (delta & Ld & E). apply (rel_reads Bd eq) with (mask := delta).
    + apply HB. destruct s; [congruence|]. cbn [length]. nia.
    + exact Ld.
    + reflexivity.
    + reflexivity.
    + intros bytes k Lb. destruct k as [|k]; [exact I|]. rewrite rel_S. do 2 f_equal. apply E, Lb.
Qed.
End Serve.

Lemma Forall2_nth_error {X Y} (R : X -> Y -> Prop) l l' : Forall2 R l l' -> forall i,
  match nth_error l i, nth_error l' i with Some a, Some b => R a b | None, None => True | _, _ => False end.
Proof. intros H. induction H as [|a b l l' Hab H IH]; intros [|i]; cbn [nth_error]; auto; apply IH. Qed.
Lemma Forall2_set {X Y} (R : X -> Y -> Prop) l l' : Forall2 R l l' -> forall i a b, R a b -> Forall2 R (firstn i l ++ a :: skipn (S i) l) (firstn i l' ++ b :: skipn (S i) l').
Proof.
  intros H. induction H as [|x y l l' Hxy H IH]; intros [|i] a b Hab; cbn [firstn skipn app]; repeat constructor; auto.
  apply (IH i a b Hab).
Qed.

Section Game.
Context (ar : arch) (growcap : nat -> nat -> nat) (G : grow_ok growcap) (att : list seen -> action) (guess : list seen -> bool) (B : nat).
Hypothesis Fair : forall h, match att h with Begin q => fair_request q /\ request_size q <= B | Advance _ => True end.

Lemma game_equal : forall n M h ths ths' words, Forall2 (rel (fun l => l <= B) eq n) ths ths' -> n * B <= M ->
  count (fun r => guess (game ar growcap true att n {| w_threads := ths; w_words := words; w_tape := r |} h)) (all_strings M) =
  count (fun r => guess (game ar growcap false att n {| w_threads := ths'; w_words := words; w_tape := r |} h)) (all_strings M).
Proof.
  induction n as [|n IH]; intros M h ths ths' words HR HM; [reflexivity|].
  assert (HR1 : Forall2 (rel (fun l => l <= B) eq n) ths ths').
  { clear -HR. induction HR; constructor; auto. apply rel_le. assumption. }
  cbn [game]. pose proof (Fair h) as Fh. destruct (att h) as [q|i] eqn:Ea.
  - cbn [act w_threads w_words w_tape]. apply IH; [|cbn [Nat.mul] in HM; lia].
    apply Forall2_app; [exact HR1|]. constructor; [|constructor]. destruct Fh as (Fq & Sq). apply rel_serve; [exact G|exact Fq|intros l Hl; lia].
  - cbn [act w_threads w_words w_tape]. pose proof (Forall2_nth_error _ _ _ HR i) as Hi.
    destruct (nth_error ths i) as [p|], (nth_error ths' i) as [p'|]; try contradiction; [|apply IH; [exact HR1|cbn [Nat.mul] in HM; lia]].
    rewrite rel_S in Hi. destruct p as [o|k|l k|sd k], p' as [o'|k'|l' k'|sd' k']; try contradiction.
    + subst o'. destruct o; apply IH; auto; cbn [Nat.mul] in HM; lia.
    + unfold setThread. cbn [w_threads]. apply IH; [|cbn [Nat.mul] in HM; lia]. apply Forall2_set; [exact HR1|apply Hi].
    + destruct Hi as (<- & HB & mask & Lm & Hk). cbn [Nat.mul] in HM.
      replace M with (l + (M - l)) by lia. rewrite !count_strings.
      assert (E : forall left T (kk : list byte -> rprog (option (list (list byte)))) r1, In r1 (all_strings l) ->
        count (fun r2 => guess (game ar growcap left att n
           {| w_threads := setThread {| w_threads := T; w_words := words; w_tape := r1 ++ r2 |} i (kk (firstn l (r1 ++ r2)));
              w_words := words; w_tape := skipn l (r1 ++ r2) |} (SRead l :: h))) (all_strings (M - l)) =
        count (fun r2 => guess (game ar growcap left att n
           {| w_threads := firstn i T ++ kk r1 :: skipn (S i) T; w_words := words; w_tape := r2 |} (SRead l :: h))) (all_strings (M - l))).
      { intros left T kk r1 H1. apply all_strings_in in H1. apply count_ext. intros r2 _. unfold setThread. cbn [w_threads].
        rewrite firstn_app, skipn_app, <- H1, firstn_all, skipn_all, Nat.sub_diag, app_nil_r. reflexivity. }
      rewrite (map_ext_in _ _ _ (fun r1 => E true ths k r1)), (map_ext_in _ _ _ (fun r1 => E false ths' k' r1)).
      set (Fc := fun r1 => count (fun r2 => guess (game ar growcap false att n
           {| w_threads := firstn i ths' ++ k' r1 :: skipn (S i) ths'; w_words := words; w_tape := r2 |} (SRead l :: h))) (all_strings (M - l))).
      transitivity (list_sum (map (fun r1 => Fc (xor_bytes r1 mask)) (all_strings l))).
      * f_equal. apply map_ext_in. intros r1 H1. apply all_strings_in in H1. unfold Fc. apply IH; [|lia].
        apply Forall2_set; [exact HR1|]. apply Hk, H1.
      * apply (equal_sums (list_eq_dec byte_eq_dec) (fun r1 => xor_bytes r1 mask) (fun r1 => r1) (all_strings l) Fc).
        intros test. apply (xor_count l _ _ mask Lm). reflexivity.
    + destruct Hi as (_ & Hk). unfold setThread. cbn [w_threads]. apply IH; [|cbn [Nat.mul] in HM; lia]. apply Forall2_set; [exact HR1|apply Hk].
Qed.
End Game.
