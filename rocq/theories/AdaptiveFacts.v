(** Secrecy of splits and regenerated shares against an attacker who collects shares one by one (C83). *)
From Coq Require Import List NArith ZArith Lia Arith Bool Permutation.
From Coq.Init Require Import Byte.
From Verif Require Import GoSem Bytes Spec Vector Pool Polynomial Shamir SplitP GoFacts GF PolyFacts PolynomialFacts SplitFacts CombineFacts RegenFacts Secrecy CountFacts
  SplitPFacts SplitPMore SplitPTop Derived Pf1 Pf13 SpecHist SpecJoint JointFacts SpecAdaptive.
Import ListNotations.

(** ** one split *)
Lemma secret_proper p left : proper p -> length (secret_of left p) = length (p_left p) /\ valid_args (secret_of left p) (p_parts p) (p_threshold p).
Proof.
  intros (P & V & HL & _). destruct left; cbn [secret_of]; [split; [reflexivity|exact V]|]. split; [symmetry; exact HL|].
  destruct V as (V1 & V2). split; [|exact V2]. intros Q. apply V1. apply length_zero_iff_nil. rewrite HL, Q. reflexivity.
Qed.

Definition tagsP (p : splitting) : list byte := tagsOf (Z.to_nat (p_parts p)) (map i2b (p_perm p)).

Lemma tagsP_facts p : proper p -> NoDup (tagsP p) /\ Z.to_nat (p_threshold p) <= length (tagsP p) /\ 2 <= Z.to_nat (p_threshold p) /\ 1 <= length (p_left p).
Proof.
  intros (P & (V1 & V2 & V3 & V4) & _). destruct (perm_coords _ P) as (ND & NF & L255). rewrite map_length in L255. unfold tagsP.
  split; [apply tagsOf_NoDup, ND|]. rewrite tagsOf_length by (rewrite map_length; lia). split; [lia|]. split; [lia|].
  destruct (p_left p); [congruence|cbn; lia].
Qed.

Lemma splitOf_cases ar growcap p : grow_ok growcap -> proper p ->
  (exists P, shiftable P (bytes_of p) (length (p_left p)) (Z.to_nat (p_threshold p)) /\
     forall left b stream, splitOf left ar growcap b stream p = Some (Ret (map (share_at (P (secret_of left p) (take_stream stream (bytes_of p)))) (tagsP p)))) \/
  (forall left b stream sh, splitOf left ar growcap b stream p <> Some (Ret sh)).
Proof.
  intros G Pr. pose proof Pr as (P & V & HL & HP). pose proof (secret_proper p true Pr) as _.
  destruct (perm_coords _ P) as (ND & NF & L255). rewrite map_length in L255.
  assert (V' : forall left, checkArgs (secret_of left p) (p_parts p) (p_threshold p) = None) by (intros left; apply valid_checkArgs, secret_proper, Pr).
  assert (Ls : forall left, length (secret_of left p) = length (p_left p)) by (intros left; apply secret_proper, Pr).
  pose proof V as (W1 & W2 & W3 & W4).
  unfold splitOf, bytes_of. destruct (p_api p) as [| |sched].
  - left. exists (polysOf (Z.to_nat (p_threshold p))). split; [apply shiftable_polysOf; lia|]. intros left b stream.
    rewrite (Split_ok ar growcap) by (try apply V'; assumption || lia). rewrite Ls. reflexivity.
  - left. exists (polysGen (Z.to_nat (p_threshold p))). split; [apply shiftable_polysGen; lia|]. intros left b stream.
    rewrite SplitGeneric_ok by (try apply V'; assumption || lia). rewrite Ls. reflexivity.
  - assert (SL : forall left, N.to_nat (secretLen (secret_of left p)) = length (p_left p)) by (intros left; unfold secretLen, u32; rewrite Ls, N.mod_small; lia).
    assert (SB : forall left, (secretLen (secret_of left p) <= 4294967296 - 1024)%N) by (intros left; specialize (SL left); lia).
    assert (DD : b2i (z2b (p_threshold p - 1)) = Z.to_nat (p_threshold p) - 1) by (destruct (valid_deg _ _ _ V) as (D1 & D2); lia).
    destruct (SplitPRun (p_perm p) (stream_of []) (secret_of true p) (p_parts p) (p_threshold p) sched) as [[shares|e|pn| |]|] eqn:E0.
    { left. destruct (SplitPRun_order _ _ _ _ _ _ _ P (SB true) E0) as (order & Po & Ho). rewrite SL in Po.
      exists (fun s r => polysP s (z2b (p_threshold p - 1)) (stream_of r) order). split.
      - replace (Z.to_nat (p_threshold p)) with (S (b2i (z2b (p_threshold p - 1)))) by lia.
        replace (S (b2i (z2b (p_threshold p - 1))) - 1) with (b2i (z2b (p_threshold p - 1))) by lia. apply shiftable_polysP; [lia|exact Po].
      - intros left b stream. rewrite Ho by (rewrite !Ls; reflexivity). unfold tagsP. do 4 f_equal.
        apply (polysP_ext (secret_of left p) _ _ _ order (length (p_left p))); [|rewrite SL; exact Po|rewrite SL; lia].
        intros i Hi. unfold stream_of. rewrite (nth_indep _ _ (stream 0)), DD in * by (rewrite take_stream_length, DD in *; exact Hi).
        unfold take_stream. rewrite (map_nth stream), seq_nth by exact Hi. reflexivity. }
    all: right; intros left b st sh F; destruct (SplitPRun_order _ _ _ _ _ _ _ P (SB left) F) as (order & _ & Ho);
      rewrite (Ho (stream_of []) (secret_of true p)) in E0 by (rewrite !Ls; reflexivity); discriminate.
Qed.

(** the piece of the random string a split takes *)
Definition seg (r : list byte) (from n : nat) : list byte := firstn n (skipn from r).
Lemma seg_length r from n : from + n <= length r -> length (seg r from n) = n.
Proof. intros H. unfold seg. rewrite firstn_length, skipn_length. lia. Qed.
Lemma seg_stream r from n : from + n <= length r -> take_stream (fun i => stream_of r (from + i)) n = seg r from n.
Proof.
  intros H. apply nth_ext with x00 x00; [rewrite take_stream_length, seg_length; lia|]. intros i Hi. rewrite take_stream_length in Hi.
  unfold take_stream. rewrite nth_map_seq by exact Hi. unfold seg, stream_of. rewrite nth_firstn by exact Hi. rewrite nth_skipn. reflexivity.
Qed.
Lemma seg_xor a b from n : seg (xor_bytes a b) from n = xor_bytes (seg a from n) (seg b from n).
Proof. unfold seg. rewrite skipn_xor_bytes, firstn_xor_bytes. reflexivity. Qed.

(** ** the same list with one element replaced *)
Lemma nth_error_replace {A} (l : list A) : forall k i v, k < length l -> nth_error (replace l k v) i = if i =? k then Some v else nth_error l i.
Proof.
  unfold replace. induction l as [|a l IH]; intros k i v H; [cbn in H; lia|]. destruct k as [|k].
  - cbn [firstn skipn app]. destruct i; reflexivity.
  - cbn [firstn]. change (skipn (S (S k)) (a :: l)) with (skipn (S k) l). destruct i as [|i]; [reflexivity|]. cbn [app nth_error]. rewrite IH by (cbn in H; lia). reflexivity.
Qed.
Lemma nth_error_lt {A} (l : list A) k x : nth_error l k = Some x -> k < length l.
Proof. intros H. apply nth_error_Some. rewrite H. discriminate. Qed.
Lemma replace_Forall2 {A} (R : A -> A -> Prop) l l' : Forall2 R l l' -> forall k v v', k < length l -> R v v' -> Forall2 R (replace l k v) (replace l' k v').
Proof.
  unfold replace. induction 1 as [|a a' l l' Ra Rl IH]; intros k v v' H Rv; [cbn in H; lia|]. destruct k as [|k].
  - cbn [firstn skipn app]. constructor; assumption.
  - cbn [firstn]. change (skipn (S (S k)) (a :: l)) with (skipn (S k) l). change (skipn (S (S k)) (a' :: l')) with (skipn (S k) l'). constructor; [exact Ra|]. apply IH; [cbn in H; lia|exact Rv].
Qed.
Lemma Forall2_nth_error {A B} (R : A -> B -> Prop) l l' : Forall2 R l l' -> forall k,
  match nth_error l k, nth_error l' k with Some a, Some b => R a b | None, None => True | _, _ => False end.
Proof. induction 1 as [|a a' l l' Ra Rl IH]; intros [|k]; cbn [nth_error]; [exact I|exact I|exact Ra|apply IH]. Qed.

(** ** errors of Regenerate depend on the lengths only *)
Lemma checkParts_lengths a b : map (@length byte) a = map (@length byte) b -> checkParts a = checkParts b.
Proof.
  intros H. unfold checkParts. assert (L : length a = length b) by (rewrite <- (map_length (@length byte) a), H, map_length; reflexivity). rewrite L.
  assert (L0 : length (nth 0 a []) = length (nth 0 b [])) by (destruct a, b; cbn in H |- *; congruence). rewrite L0. cbv zeta.
  assert (F : forall k (x y : list (list byte)), map (@length byte) x = map (@length byte) y -> forallb (fun p => length p =? k) x = forallb (fun p => length p =? k) y).
  { intros k. induction x as [|u x IH]; intros [|v y] E; try discriminate; [reflexivity|]. cbn in E |- *. injection E as E1 E2. rewrite E1, (IH y E2). reflexivity. }
  rewrite (F _ (skipn 1 a) (skipn 1 b)); [reflexivity|]. rewrite <- !skipn_map. rewrite H. reflexivity.
Qed.
Lemma regen_error fuel s u a num e : checkParts a = None -> Regenerate fuel s u a num = Fail e -> e = EDuplicatePart.
Proof.
  intros C E. destruct (Regenerate_cases fuel s u a num) as [(e' & H1 & H2 & H3)|[(H1 & H2 & H3)|[(H1 & H2 & H3)|(x & H1 & H2 & [H3|H3])]]]; rewrite H3 in E; try discriminate.
  - apply checkParts_None in C. destruct C as (C1 & C2 & C3).
    destruct (Combine_cases a) as [(K1 & K)|[(K1 & K2 & K)|[(K1 & K2 & K3 & K)|[(Kok & K2 & K)|(Kok & ND & K)]]]].
    + lia.
    + lia.
    + exfalso. destruct K3 as (q & Hq & Nq). apply Nq, C3, Hq.
    + congruence.
    + congruence.
  - congruence.
Qed.
Lemma regen_errors fuel s u a b num e e' : map (@length byte) a = map (@length byte) b ->
  Regenerate fuel s u a num = Fail e -> Regenerate fuel s u b num = Fail e' -> e = e'.
Proof.
  intros L E E'. pose proof (checkParts_lengths a b L) as C. destruct (checkParts a) as [x|] eqn:K.
  - unfold Regenerate in E, E'. rewrite K in E. rewrite <- C in E'. congruence.
  - rewrite (regen_error _ _ _ _ _ _ K E). symmetry. apply (regen_error _ _ _ _ _ _ (eq_sym C) E').
Qed.

Section Game.
  Variables (ar : arch) (growcap : nat -> nat -> nat).
  Hypothesis G : grow_ok growcap.

  (** the shares a split gives in world [left] with random bytes [s], and the share with any tag that fits to them *)
  Definition sharesSeg (left : bool) (p : splitting) (s : list byte) : list (list byte) :=
    match splitOf left ar growcap empty (stream_of s) p with Some (Ret sh) => sh | _ => [] end.
  Definition full (left : bool) (p : splitting) (s : list byte) (x : byte) : list byte := regenShare (sharesSeg left p s) (length (p_left p) + 1) x.
  Definition fullAt (left : bool) (r : list byte) (g : sharing) (x : byte) : list byte :=
    full left (g_split g) (seg r (g_from g) (bytes_of (g_split g))) x.

  Definition sharing_polys (p : splitting) (polys : list (list byte)) : Prop :=
    length polys = length (p_left p) /\ Forall (fun q => length q = Z.to_nat (p_threshold p)) polys.

  Lemma split_full p : proper p ->
    (exists P, shiftable P (bytes_of p) (length (p_left p)) (Z.to_nat (p_threshold p)) /\
       (forall left b stream, splitOf left ar growcap b stream p = Some (Ret (map (share_at (P (secret_of left p) (take_stream stream (bytes_of p)))) (tagsP p)))) /\
       forall left s, length s = bytes_of p -> sharing_polys p (P (secret_of left p) s) /\ forall x, full left p s x = share_at (P (secret_of left p) s) x) \/
    (forall left b stream sh, splitOf left ar growcap b stream p <> Some (Ret sh)).
  Proof.
    intros Pr. destruct (splitOf_cases ar growcap p G Pr) as [(P & S & E)|N]; [left|right; exact N]. exists P. split; [exact S|]. split; [exact E|].
    intros left s Ls. destruct S as (S1 & _). destruct (S1 (secret_of left p) s (proj1 (secret_proper p left Pr)) Ls) as (A & F). split; [split; assumption|].
    intros x. unfold full, sharesSeg. rewrite E, take_stream_of by exact Ls. destruct (tagsP_facts p Pr) as (ND & T1 & _). rewrite <- A.
    apply (regenShare_sharing _ _ (Z.to_nat (p_threshold p))); assumption.
  Qed.

  (** ** two runs side by side *)
  Definition rel (left left' : bool) (r r' : list byte) (g g' : sharing) : Prop :=
    g_split g = g_split g' /\ g_from g = g_from g' /\ g_shown g = g_shown g' /\ proper (g_split g) /\
    exists xs polys polys', g_issued g = map (share_at polys) xs /\ g_issued g' = map (share_at polys') xs /\
      sharing_polys (g_split g) polys /\ sharing_polys (g_split g) polys' /\
      (forall x, fullAt left r g x = share_at polys x) /\ (forall x, fullAt left' r' g' x = share_at polys' x).

  Definition agree (left left' : bool) (r r' : list byte) (g : sharing) : Prop :=
    forall x, In x (g_shown g) -> fullAt left r g x = fullAt left' r' g x.

  Lemma map_length_shares polys xs : map (@length byte) (map (share_at polys) xs) = repeat (length polys + 1) (length xs).
  Proof. induction xs as [|x xs IH]; [reflexivity|]. cbn [map length repeat]. rewrite share_at_length, IH. reflexivity. Qed.
  Lemma pick_lengths (a b : list (list byte)) is : map (@length byte) a = map (@length byte) b -> map (@length byte) (pick [] a is) = map (@length byte) (pick [] b is).
  Proof.
    intros H. unfold pick. rewrite !map_map. apply map_ext. intros i. rewrite <- (map_nth (@length byte) a [] i), <- (map_nth (@length byte) b [] i), H. reflexivity.
  Qed.

  Lemma step_sim left left' r r' b b' q st st' pos a w a' w' : length r = length r' ->
    (forall p, q = QSplit p -> proper p /\ pos + bytes_of p <= length r) -> Forall2 (rel left left' r r') st st' ->
    serve left ar growcap b (stream_of r) (st, pos) q = (a, w) -> serve left' ar growcap b' (stream_of r') (st', pos) q = (a', w') ->
    (forall g, In g (fst w) -> agree left left' r r' g) ->
    a = a' /\ Forall2 (rel left left' r r') (fst w) (fst w') /\ snd w = snd w'.
  Proof.
    intros Lr Hp R E E' Ag. destruct q as [p|k c|k j]; cbn [serve] in E, E'.
    - destruct (Hp p eq_refl) as (Pr & Bp). clear Hp. destruct (split_full p Pr) as [(P & S & Sp & Fu)|N].
      + rewrite Sp in E, E'. rewrite seg_stream in E by exact Bp. rewrite seg_stream in E' by lia. injection E as <- <-. injection E' as <- <-. cbn [fst snd].
        rewrite !map_tag_shares. split; [reflexivity|]. split; [|reflexivity]. apply Forall2_app; [exact R|]. constructor; [|constructor].
        split; [reflexivity|]. split; [reflexivity|]. split; [reflexivity|]. split; [exact Pr|].
        destruct (Fu left (seg r pos (bytes_of p)) (seg_length _ _ _ Bp)) as (F1 & F2). destruct (Fu left' (seg r' pos (bytes_of p))) as (F1' & F2'); [apply seg_length; lia|].
        exists (tagsP p), (P (secret_of left p) (seg r pos (bytes_of p))), (P (secret_of left' p) (seg r' pos (bytes_of p))).
        split; [reflexivity|]. split; [reflexivity|]. split; [exact F1|]. split; [exact F1'|]. split; [exact F2|exact F2'].
      + assert (E1 : (a, w) = (RHangs, (st, pos + bytes_of p))).
        { rewrite <- E. destruct (splitOf left ar growcap b (fun i => stream_of r (pos + i)) p) as [[sh|e|pn| |]|] eqn:F; try reflexivity. exfalso. exact (N _ _ _ _ F). }
        assert (E1' : (a', w') = (RHangs, (st', pos + bytes_of p))).
        { rewrite <- E'. destruct (splitOf left' ar growcap b' (fun i => stream_of r' (pos + i)) p) as [[sh|e|pn| |]|] eqn:F; try reflexivity. exfalso. exact (N _ _ _ _ F). }
        injection E1 as -> ->. injection E1' as -> ->. split; [reflexivity|]. split; [exact R|reflexivity].
    - pose proof (Forall2_nth_error _ _ _ R k) as Rk. destruct (nth_error st k) as [g|] eqn:Ek; destruct (nth_error st' k) as [g'|] eqn:Ek'; try contradiction.
      2:{ injection E as <- <-. injection E' as <- <-. auto. }
      pose proof Rk as (R1 & R2 & R3 & Pr & xs & polys & polys' & I & I' & (L & F) & (L' & F') & U & U'). rewrite <- R1 in E'.
      destruct (Nat.leb_spec (Z.to_nat (p_threshold (g_split g))) (length (rc_from c))) as [Hc|Hc].
      2:{ injection E as <- <-. injection E' as <- <-. auto. }
      destruct (tagsP_facts _ Pr) as (_ & _ & T2 & N1).
      rewrite I in E. rewrite I' in E'.
      pose proof (regen_step polys polys' xs (Z.to_nat (p_threshold (g_split g))) c T2 ltac:(lia) ltac:(lia) F F' Hc) as RS. cbv zeta in RS.
      destruct RS as [(ys & Q & Q')|[(e & e' & Q & Q')|[(pn & Q & Q')|(Q & Q')]]].
      + rewrite Q in E. rewrite Q' in E'. injection E as <- <-. injection E' as <- <-. rewrite !map_tag_shares. split; [reflexivity|]. split; [|reflexivity].
        cbn [fst snd]. apply replace_Forall2; [exact R|exact (nth_error_lt _ _ _ Ek)|].
        split; [reflexivity|]. split; [exact R2|]. split; [exact R3|]. split; [exact Pr|]. exists (xs ++ ys), polys, polys'. cbn [g_issued g_split].
        rewrite !map_app. split; [reflexivity|]. split; [reflexivity|]. split; [split; assumption|]. split; [split; assumption|]. split; [exact U|].
        intros x. rewrite <- U'. unfold fullAt. cbn [g_split g_from]. rewrite R1. reflexivity.
      + assert (e = e').
        { refine (regen_errors _ _ _ _ _ _ e e' _ Q Q'). apply pick_lengths. rewrite !map_length_shares, L, L'. reflexivity. }
        rewrite Q in E. rewrite Q' in E'. injection E as <- <-. injection E' as <- <-. subst e'. auto.
      + rewrite Q in E. rewrite Q' in E'. injection E as <- <-. injection E' as <- <-. auto.
      + rewrite Q in E. rewrite Q' in E'. injection E as <- <-. injection E' as <- <-. auto.
    - pose proof (Forall2_nth_error _ _ _ R k) as Rk. destruct (nth_error st k) as [g|] eqn:Ek; destruct (nth_error st' k) as [g'|] eqn:Ek'; try contradiction.
      2:{ injection E as <- <-. injection E' as <- <-. auto. }
      pose proof Rk as (R1 & R2 & R3 & Pr & xs & polys & polys' & I & I' & (L & F) & (L' & F') & U & U').
      rewrite I in E. rewrite I' in E'. rewrite nth_error_map in E, E'. destruct (nth_error xs j) as [x|]; cbn [option_map] in E, E'.
      2:{ injection E as <- <-. injection E' as <- <-. auto. }
      assert (T : forall ps, tag (share_at ps x) = x) by (intros ps; unfold tag, share_at; apply last_last).
      assert (MS : may_show g (share_at polys x) = may_show g' (share_at polys' x)) by (unfold may_show; rewrite !T, R1, R3; reflexivity).
      rewrite <- MS in E'. destruct (may_show g (share_at polys x)) eqn:Hm.
      2:{ injection E as <- <-. injection E' as <- <-. auto. }
      rewrite !T in E, E'. injection E as <- <-. injection E' as <- <-. cbn [fst snd] in Ag |- *.
      assert (Sx : share_at polys x = share_at polys' x).
      { set (g1 := {| g_split := g_split g; g_from := g_from g; g_issued := map (share_at polys) xs; g_shown := x :: g_shown g |}) in *.
        assert (A : agree left left' r r' g1).
        { apply Ag. apply (nth_error_In _ k). rewrite nth_error_replace by exact (nth_error_lt _ _ _ Ek). rewrite Nat.eqb_refl. reflexivity. }
        specialize (A x (or_introl eq_refl)). rewrite <- U, <- U'. unfold fullAt in A |- *. cbn [g_split g_from g1] in A. rewrite A, R1, R2. reflexivity. }
      rewrite Sx. split; [reflexivity|]. split; [|reflexivity].
      apply replace_Forall2; [exact R|exact (nth_error_lt _ _ _ Ek)|]. split; [exact R1|]. split; [exact R2|]. split; [cbn [g_shown]; rewrite R3; reflexivity|]. split; [exact Pr|].
      exists xs, polys, polys'. cbn [g_issued g_split]. split; [reflexivity|]. split; [reflexivity|]. split; [split; assumption|]. split; [split; assumption|]. split; [exact U|exact U'].
  Qed.

  (** sharings stay, and what was shown was shown *)
  Definition ext (g g' : sharing) : Prop := g_split g' = g_split g /\ g_from g' = g_from g /\ incl (g_shown g) (g_shown g').
  Lemma serve_ext left b random w q a w' : serve left ar growcap b random w q = (a, w') ->
    forall k g, nth_error (fst w) k = Some g -> exists g', nth_error (fst w') k = Some g' /\ ext g g'.
  Proof.
    destruct w as (st, pos). intros E k g Hk. cbn [fst] in Hk.
    assert (Id : exists g', nth_error st k = Some g' /\ ext g g') by (exists g; split; [exact Hk|]; split; [reflexivity|]; split; [reflexivity|apply incl_refl]).
    assert (Rep : forall i h v, nth_error st i = Some h -> ext h v -> exists g', nth_error (replace st i v) k = Some g' /\ ext g g').
    { intros i h v Hi He. rewrite nth_error_replace by exact (nth_error_lt _ _ _ Hi). destruct (Nat.eqb_spec k i) as [->|]; [|exact Id].
      exists v. split; [reflexivity|]. congruence. }
    destruct q as [p|i c|i j]; cbn [serve] in E.
    - destruct (splitOf left ar growcap b (fun x => random (pos + x)) p) as [[sh|e|pn| |]|]; injection E as <- <-; cbn [fst]; try exact Id.
      exists g. split; [|apply Id || (split; [reflexivity|]; split; [reflexivity|apply incl_refl])]. rewrite nth_error_app1 by exact (nth_error_lt _ _ _ Hk). exact Hk.
    - destruct (nth_error st i) as [h|] eqn:Hi; [|injection E as <- <-; exact Id]. destruct (_ <=? _); [|injection E as <- <-; exact Id].
      destruct (Regenerate _ _ _ _ _) as [new|e|pn| |]; injection E as <- <-; cbn [fst]; try exact Id.
      apply (Rep i h _ Hi). split; [reflexivity|]. split; [reflexivity|apply incl_refl].
    - destruct (nth_error st i) as [h|] eqn:Hi; [|injection E as <- <-; exact Id]. destruct (nth_error (g_issued h) j) as [s|]; [|injection E as <- <-; exact Id].
      destruct (may_show h s); injection E as <- <-; cbn [fst]; try exact Id.
      apply (Rep i h _ Hi). split; [reflexivity|]. split; [reflexivity|]. cbn [g_shown]. apply incl_tl, incl_refl.
  Qed.
  Lemma ext_trans g1 g2 g3 : ext g1 g2 -> ext g2 g3 -> ext g1 g3.
  Proof. intros (A & B & C) (A' & B' & C'). split; [congruence|]. split; [congruence|]. eapply incl_tran; eassumption. Qed.
  Lemma play_ext left b random att : forall n w h k g, nth_error (fst w) k = Some g ->
    exists g', nth_error (fst (snd (playOn left ar growcap att b n random w h))) k = Some g' /\ ext g g'.
  Proof.
    induction n as [|n IH]; intros w h k g Hk; cbn [playOn].
    - exists g. split; [exact Hk|]. split; [reflexivity|]. split; [reflexivity|apply incl_refl].
    - destruct (serve left ar growcap (b n) random w (att h)) as (a, w1) eqn:E. destruct (serve_ext _ _ _ _ _ _ _ E k g Hk) as (g1 & H1 & X1).
      destruct (IH w1 (a :: h) k g1 H1) as (g2 & H2 & X2). exists g2. split; [exact H2|]. eapply ext_trans; eassumption.
  Qed.

  Lemma agree_ext left left' r r' g g' : ext g g' -> agree left left' r r' g' -> agree left left' r r' g.
  Proof. intros (A & B & C) H x Hx. specialize (H x (C x Hx)). unfold fullAt in *. rewrite A, B in H. exact H. Qed.

  Lemma serve_pos left b random st pos q a w : serve left ar growcap b random (st, pos) q = (a, w) -> snd w = pos + match q with QSplit p => bytes_of p | _ => 0 end.
  Proof.
    intros E. destruct q as [p|i c|i j]; cbn [serve] in E.
    - destruct (splitOf left ar growcap b (fun x => random (pos + x)) p) as [[sh|e|pn| |]|]; injection E as <- <-; reflexivity.
    - rewrite Nat.add_0_r. destruct (nth_error st i) as [h|]; [|injection E as <- <-; reflexivity]. destruct (_ <=? _); [|injection E as <- <-; reflexivity].
      destruct (Regenerate _ _ _ _ _) as [new|e|pn| |]; injection E as <- <-; reflexivity.
    - rewrite Nat.add_0_r. destruct (nth_error st i) as [h|]; [|injection E as <- <-; reflexivity]. destruct (nth_error (g_issued h) j) as [s|]; [|injection E as <- <-; reflexivity].
      destruct (may_show h s); injection E as <- <-; reflexivity.
  Qed.

  Lemma sim left left' r r' att B b b' : proper_requests att B -> length r = length r' -> forall n st st' pos h,
    pos + n * B <= length r -> Forall2 (rel left left' r r') st st' ->
    (forall g, In g (fst (snd (playOn left ar growcap att b n (stream_of r) (st, pos) h))) -> agree left left' r r' g) ->
    fst (playOn left ar growcap att b n (stream_of r) (st, pos) h) = fst (playOn left' ar growcap att b' n (stream_of r') (st', pos) h) /\
    Forall2 (rel left left' r r') (fst (snd (playOn left ar growcap att b n (stream_of r) (st, pos) h))) (fst (snd (playOn left' ar growcap att b' n (stream_of r') (st', pos) h))).
  Proof.
    intros HA Lr. induction n as [|n IH]; intros st st' pos h Hn R Ag; cbn [playOn] in *; [split; [reflexivity|exact R]|].
    destruct (serve left ar growcap (b n) (stream_of r) (st, pos) (att h)) as (a, (st1, pos1)) eqn:E.
    destruct (serve left' ar growcap (b' n) (stream_of r') (st', pos) (att h)) as (a', (st1', pos1')) eqn:E'.
    pose proof (HA h) as Hh. pose proof (serve_pos _ _ _ _ _ _ _ _ E) as P1. cbn [snd] in P1.
    destruct (step_sim left left' r r' (b n) (b' n) (att h) st st' pos a (st1, pos1) a' (st1', pos1') Lr) as (A & R1 & P2); try assumption.
    - intros p Hp. rewrite Hp in Hh. split; [apply Hh|]. nia.
    - intros g Hg. cbn [fst] in Hg. apply In_nth_error in Hg as (k & Hk). destruct (play_ext left b (stream_of r) att n (st1, pos1) (a :: h) k g Hk) as (g' & Hg' & X).
      apply (agree_ext _ _ _ _ _ _ X). apply Ag. eapply nth_error_In, Hg'.
    - cbn [fst snd] in R1, P2. subst a' pos1'. apply IH; [|exact R1|exact Ag]. destruct (att h); [destruct Hh; nia|nia|nia].
  Qed.
End Game.
