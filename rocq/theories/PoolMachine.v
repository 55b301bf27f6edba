(** The invariant behind C74: where every buffer ever created is. *)
From Coq Require Import List NArith ZArith Lia Arith Bool Permutation.
From Coq.Init Require Import Byte.
From Verif Require Import GoSem Bytes Concurrency SpecConc ConcFacts ConcAll SpecConcAll SpecPools PoolFacts.
Import ListNotations.

Lemma gets_snoc tr e th pl : gets (tr ++ [e]) th pl = gets tr th pl + gets [e] th pl.
Proof. unfold gets. rewrite filter_app, app_length. reflexivity. Qed.
Lemma puts_snoc tr e th pl : puts (tr ++ [e]) th pl = puts tr th pl + puts [e] th pl.
Proof. unfold puts. rewrite filter_app, app_length. reflexivity. Qed.
Lemma created_snoc tr e pl : created (tr ++ [e]) pl = created tr pl ++ created [e] pl.
Proof. unfold created. apply flat_map_app. Qed.
Lemma dropped_snoc tr e pl : dropped (tr ++ [e]) pl = dropped tr pl ++ dropped [e] pl.
Proof. unfold dropped. apply flat_map_app. Qed.

Lemma inPool_app pl a b : inPool pl (a ++ b) = inPool pl a ++ inPool pl b.
Proof. apply filter_app. Qed.
Lemma concat_at (H : list lent) th h h' : nth_error H th = Some h ->
  exists rest, Permutation (concat H) (h ++ rest) /\ Permutation (concat (setNth H th h')) (h' ++ rest).
Proof.
  intros E. assert (L : th < length H) by (apply nth_error_Some; rewrite E; discriminate).
  destruct (setNth_split H th h' [] L) as (S1 & S2). rewrite (nth_error_nth H th [] E) in S1. exists (concat (firstn th H) ++ concat (skipn (S th) H)).
  rewrite S2. split; [apply (f_equal (@concat (nat * nat))) in S1; rewrite S1|]; rewrite !concat_app; cbn [concat]; rewrite !app_assoc; apply Permutation_app_tail, Permutation_app_comm.
Qed.

Lemma inPool_cons pl pl' b h : inPool pl ((pl', b) :: h) = if pl' =? pl then (pl', b) :: inPool pl h else inPool pl h.
Proof. reflexivity. Qed.
Lemma inPool_rem1 pl pl' b h : In (pl', b) h -> Permutation (inPool pl h) (if pl' =? pl then (pl', b) :: inPool pl (rem1 (pl', b) h) else inPool pl (rem1 (pl', b) h)).
Proof. intros I. rewrite <- inPool_cons. apply filter_perm, rem1_perm, I. Qed.

Lemma held_get (H : list lent) th h pl b pl0 : nth_error H th = Some h ->
  Permutation (inPool pl0 (concat (setNth H th ((pl, b) :: h)))) (if pl =? pl0 then (pl, b) :: inPool pl0 (concat H) else inPool pl0 (concat H)).
Proof.
  intros E. destruct (concat_at H th h ((pl, b) :: h) E) as (R & P1 & P2). rewrite <- inPool_cons. apply filter_perm. rewrite P2, P1. reflexivity.
Qed.
Lemma held_put (H : list lent) th h pl b pl0 : nth_error H th = Some h -> In (pl, b) h ->
  Permutation (inPool pl0 (concat H)) (if pl =? pl0 then (pl, b) :: inPool pl0 (concat (setNth H th (rem1 (pl, b) h))) else inPool pl0 (concat (setNth H th (rem1 (pl, b) h)))).
Proof.
  intros E I. destruct (concat_at H th h (rem1 (pl, b) h) E) as (R & P1 & P2). rewrite <- inPool_cons. apply filter_perm. rewrite P2, P1.
  change ((pl, b) :: rem1 (pl, b) h ++ R) with (((pl, b) :: rem1 (pl, b) h) ++ R). apply Permutation_app_tail, rem1_perm, I.
Qed.
Lemma nth_set (H : list lent) th h h' t : nth_error H th = Some h -> nth t (setNth H th h') [] = if t =? th then h' else nth t H [].
Proof.
  intros E. rewrite nth_setNth. assert (L : th < length H) by (apply nth_error_Some; rewrite E; discriminate). apply Nat.ltb_lt in L. rewrite L, andb_true_r. reflexivity.
Qed.
Lemma most_pool pl : 0 < most pl -> pl < 2.
Proof. destruct pl as [|[|pl]]; cbn; lia. Qed.

Section Inv.
  Context {A : Type}.
  Variable size n : nat.

  Record inv (tr : history) (s : gstate A) (H : list lent) : Prop := {
    i_len : length H = length (g_threads s) /\ length (g_threads s) = n /\ length (g_pools s) = 2;
    i_pq : forall th p h, nth_error (g_threads s) th = Some p -> nth_error H th = Some h -> pq most h p clean;
    i_lim : forall th h pl, nth_error H th = Some h -> length (inPool pl h) <= most pl;
    i_cnt : forall th pl, gets tr th pl = puts tr th pl + length (inPool pl (nth th H []));
    i_perm : forall pl, Permutation (created tr pl) (nth pl (g_pools s) [] ++ dropped tr pl ++ map snd (inPool pl (concat H)));
    i_low : forall pl b, In b (created tr pl) -> b < length (g_bufs s);
    i_own : forall pl pl' b, In b (created tr pl) -> In b (created tr pl') -> pl = pl';
    i_nodup : forall pl, NoDup (created tr pl);
    i_ev : forall t ev pl b, In (t, ev) tr -> about ev = Some (pl, b) -> In b (created tr pl);
    i_few : forall pl, length (created tr pl) <= length (dropped tr pl) + most pl * n;
    i_drop : forall pl, most pl * n <= size -> dropped tr pl = [] }.

  Lemma lim_concat pl : forall H : list lent, (forall th h, nth_error H th = Some h -> length (inPool pl h) <= most pl) -> length (inPool pl (concat H)) <= most pl * length H.
  Proof.
    induction H as [|h H IH]; intros L; [cbn; lia|]. cbn [concat length]. rewrite inPool_app, app_length.
    pose proof (L 0 h eq_refl). assert (length (inPool pl (concat H)) <= most pl * length H) by (apply IH; intros th h' E; exact (L (S th) h' E)). lia.
  Qed.

  (** a step that changes neither pools nor buffers *)
  Lemma inv_local tr s H th p p' bufs : inv tr s H -> nth_error (g_threads s) th = Some p -> length bufs = length (g_bufs s) ->
    (forall h, pq most h p clean -> pq most h p' clean) ->
    inv (tr ++ [(th, EvLocal)]) {| g_bufs := bufs; g_pools := g_pools s; g_threads := setNth (g_threads s) th p' |} H.
  Proof.
    intros [I1 I2 I3 I4 I5 I6 I7 I8 I9 I10 I11] P LB W.
    assert (C : forall pl, created (tr ++ [(th, EvLocal)]) pl = created tr pl) by (intros pl; rewrite created_snoc; apply app_nil_r).
    assert (D : forall pl, dropped (tr ++ [(th, EvLocal)]) pl = dropped tr pl) by (intros pl; rewrite dropped_snoc; apply app_nil_r).
    split; cbn [g_bufs g_pools g_threads].
    - rewrite setNth_length. exact I1.
    - intros t q h Q Eh. rewrite nth_error_setNth in Q. destruct ((t =? th) && _) eqn:B; [|exact (I2 t q h Q Eh)].
      apply andb_true_iff in B as (B & _). apply Nat.eqb_eq in B. subst t. injection Q as <-. apply W, (I2 th p h P Eh).
    - exact I3.
    - intros t pl. rewrite gets_snoc, puts_snoc, I4. cbn. rewrite !andb_false_r. cbn. lia.
    - intros pl. rewrite C, D. apply I5.
    - intros pl b. rewrite C, LB. apply I6.
    - intros pl pl' b. rewrite !C. apply I7.
    - intros pl. rewrite C. apply I8.
    - intros t ev pl b Ht E. rewrite C. apply in_app_or in Ht as [Ht|[Ht|[]]]; [exact (I9 t ev pl b Ht E)|]. injection Ht as <- <-. discriminate.
    - intros pl. rewrite C, D. apply I10.
    - intros pl. rewrite D. apply I11.
  Qed.

  (** what a step does to the pieces that only concern the thread *)
  Lemma pq_set s H th p h p' h' : (forall t q g, nth_error (g_threads s) t = Some q -> nth_error H t = Some g -> pq most g q clean) -> length H = length (g_threads s) ->
    nth_error (g_threads s) th = Some p -> nth_error H th = Some h -> pq most h' p' clean ->
    forall t q g, nth_error (setNth (@g_threads A s) th p') t = Some q -> nth_error (setNth H th h') t = Some g -> pq most g q clean.
  Proof.
    intros I2 L P E W t q g Q G. rewrite nth_error_setNth in Q. rewrite nth_error_setNth in G. assert (L1 : th < length (g_threads s)) by (apply nth_error_Some; rewrite P; discriminate).
    assert (L2 : th < length H) by lia. apply Nat.ltb_lt in L1, L2. rewrite L1 in Q. rewrite L2 in G. rewrite andb_true_r in Q, G.
    destruct (t =? th); [|exact (I2 t q g Q G)]. injection Q as <-. injection G as <-. exact W.
  Qed.
  Lemma lim_set (H : list lent) th h h' : (forall t g pl, nth_error H t = Some g -> length (inPool pl g) <= most pl) -> nth_error H th = Some h ->
    (forall pl, length (inPool pl h') <= most pl) -> forall t g pl, nth_error (setNth H th h') t = Some g -> length (inPool pl g) <= most pl.
  Proof.
    intros I3 E W t g pl G. rewrite nth_error_setNth in G. destruct ((t =? th) && _); [injection G as <-; apply W|exact (I3 t g pl G)].
  Qed.

  Lemma lim_get h pl b : (forall pl0, length (inPool pl0 h) <= most pl0) -> length (inPool pl h) < most pl -> forall pl0, length (inPool pl0 ((pl, b) :: h)) <= most pl0.
  Proof. intros L B pl0. rewrite inPool_cons. specialize (L pl0). destruct (Nat.eqb_spec pl pl0) as [->|]; cbn [length]; lia. Qed.

  Lemma inv_hit tr s H th pl k b ch : inv tr s H -> nth_error (g_threads s) th = Some (PGet pl k) -> nth pl (g_pools s) [] = b :: ch ->
    exists H', inv (tr ++ [(th, EvHit pl b)]) {| g_bufs := g_bufs s; g_pools := setNth (g_pools s) pl ch; g_threads := setNth (g_threads s) th (k b) |} H'.
  Proof.
    intros [I1 I2 I3 I4 I5 I6 I7 I8 I9 I10 I11] P E. destruct I1 as (L1 & L2 & L3).
    destruct (nth_error H th) as [h|] eqn:Eh; [|apply nth_error_None in Eh; assert (th < length (g_threads s)) by (apply nth_error_Some; rewrite P; discriminate); lia].
    destruct (I2 th _ h P Eh) as (Hlt & Hk). assert (Hpl : pl < 2) by (apply most_pool; lia).
    assert (C : forall pl0, created (tr ++ [(th, EvHit pl b)]) pl0 = created tr pl0) by (intros pl0; rewrite created_snoc; apply app_nil_r).
    assert (D : forall pl0, dropped (tr ++ [(th, EvHit pl b)]) pl0 = dropped tr pl0) by (intros pl0; rewrite dropped_snoc; apply app_nil_r).
    exists (setNth H th ((pl, b) :: h)). split; cbn [g_bufs g_pools g_threads].
    - rewrite !setNth_length. auto.
    - eapply pq_set; try eassumption. apply Hk.
    - eapply lim_set; try eassumption. apply lim_get; [intros pl0; exact (I3 th h pl0 Eh)|exact Hlt].
    - intros t pl0. rewrite gets_snoc, puts_snoc, I4, (nth_set H th h _ t Eh). cbn [gets puts filter length]. rewrite andb_false_r. cbn [length].
      rewrite (Nat.eqb_sym th t). destruct (Nat.eqb_spec t th) as [->|]; cbn [andb].
      + rewrite inPool_cons. rewrite (nth_error_nth H th [] Eh). destruct (pl =? pl0); cbn [length]; lia.
      + cbn [length]. lia.
    - intros pl0. rewrite C, D, nth_setNth, L3. pose proof (held_get H th h pl b pl0 Eh) as HP. specialize (I5 pl0).
      apply (Permutation_map snd) in HP. rewrite I5. rewrite HP. apply Nat.ltb_lt in Hpl. rewrite Hpl, andb_true_r. rewrite (Nat.eqb_sym pl0 pl).
      destruct (Nat.eqb_spec pl pl0) as [<-|]; [|reflexivity]. rewrite E. cbn [map snd app]. rewrite !app_assoc. apply Permutation_middle.
    - intros pl0 b0. rewrite C. apply I6.
    - intros pl0 pl' b0. rewrite !C. apply I7.
    - intros pl0. rewrite C. apply I8.
    - intros t ev pl0 b0 Ht Ea. rewrite C. apply in_app_or in Ht as [Ht|[Ht|[]]]; [exact (I9 t ev pl0 b0 Ht Ea)|]. injection Ht as <- <-. cbn in Ea. injection Ea as <- <-.
      eapply Permutation_in; [symmetry; apply I5|]. rewrite E. left. reflexivity.
    - intros pl0. rewrite C, D. apply I10.
    - intros pl0. rewrite D. apply I11.
  Qed.

  Lemma inv_miss tr s H th pl k : inv tr s H -> nth_error (g_threads s) th = Some (PGet pl k) -> nth pl (g_pools s) [] = [] ->
    exists H', inv (tr ++ [(th, EvMiss pl (length (g_bufs s)))]) {| g_bufs := g_bufs s ++ [[]]; g_pools := g_pools s; g_threads := setNth (g_threads s) th (k (length (g_bufs s))) |} H'.
  Proof.
    intros [I1 I2 I3 I4 I5 I6 I7 I8 I9 I10 I11] P E. destruct I1 as (L1 & L2 & L3). set (b := length (g_bufs s)) in *.
    destruct (nth_error H th) as [h|] eqn:Eh; [|apply nth_error_None in Eh; assert (th < length (g_threads s)) by (apply nth_error_Some; rewrite P; discriminate); lia].
    destruct (I2 th _ h P Eh) as (Hlt & Hk). assert (Hpl : pl < 2) by (apply most_pool; lia).
    assert (C : forall pl0, created (tr ++ [(th, EvMiss pl b)]) pl0 = created tr pl0 ++ if pl =? pl0 then [b] else []) by (intros pl0; rewrite created_snoc; cbn; rewrite app_nil_r; reflexivity).
    assert (D : forall pl0, dropped (tr ++ [(th, EvMiss pl b)]) pl0 = dropped tr pl0) by (intros pl0; rewrite dropped_snoc; apply app_nil_r).
    assert (LIM : forall t g pl0, nth_error (setNth H th ((pl, b) :: h)) t = Some g -> length (inPool pl0 g) <= most pl0).
    { eapply lim_set; try eassumption. apply lim_get; [intros pl0; exact (I3 th h pl0 Eh)|exact Hlt]. }
    assert (PERM : forall pl0, Permutation (created tr pl0 ++ if pl =? pl0 then [b] else [])
              (nth pl0 (g_pools s) [] ++ dropped tr pl0 ++ map snd (inPool pl0 (concat (setNth H th ((pl, b) :: h)))))).
    { intros pl0. pose proof (held_get H th h pl b pl0 Eh) as HP. apply (Permutation_map snd) in HP. rewrite HP, (I5 pl0). clear HP.
      destruct (Nat.eqb_spec pl pl0) as [X|X]; [rewrite <- X, E|rewrite app_nil_r; reflexivity]. cbn [map snd app]. rewrite <- app_assoc. apply Permutation_app_head. symmetry. apply Permutation_cons_append. }
    exists (setNth H th ((pl, b) :: h)). split; cbn [g_bufs g_pools g_threads].
    - rewrite !setNth_length. auto.
    - eapply pq_set; try eassumption. apply Hk.
    - exact LIM.
    - intros t pl0. rewrite gets_snoc, puts_snoc, I4, (nth_set H th h _ t Eh). cbn [gets puts filter length]. rewrite andb_false_r. cbn [length].
      rewrite (Nat.eqb_sym th t). destruct (Nat.eqb_spec t th) as [->|]; cbn [andb].
      + rewrite inPool_cons. rewrite (nth_error_nth H th [] Eh). destruct (pl =? pl0); cbn [length]; lia.
      + cbn [length]. lia.
    - intros pl0. rewrite C, D. apply PERM.
    - intros pl0 b0. rewrite C, app_length. cbn [length]. intros Hb. apply in_app_or in Hb as [Hb|Hb]; [specialize (I6 _ _ Hb); fold b in I6; unfold b in *; lia|].
      destruct (pl =? pl0); [destruct Hb as [<-|[]]; unfold b; lia|destruct Hb].
    - intros pl0 pl' b0. rewrite !C. intros Hb Hb'. apply in_app_or in Hb as [Hb|Hb]; apply in_app_or in Hb' as [Hb'|Hb']; [exact (I7 _ _ _ Hb Hb')| | |].
      + destruct (pl =? pl'); [destruct Hb' as [<-|[]]|destruct Hb']. apply I6 in Hb. unfold b in Hb. lia.
      + destruct (pl =? pl0); [destruct Hb as [<-|[]]|destruct Hb]. apply I6 in Hb'. unfold b in Hb'. lia.
      + destruct (Nat.eqb_spec pl pl0); [|destruct Hb]. destruct (Nat.eqb_spec pl pl'); [|destruct Hb']. congruence.
    - intros pl0. rewrite C. destruct (pl =? pl0); [|rewrite app_nil_r; apply I8].
      apply (Permutation_NoDup (l := b :: created tr pl0)); [apply Permutation_cons_append|]. constructor; [|apply I8]. intros Hb. apply I6 in Hb. unfold b in Hb. lia.
    - intros t ev pl0 b0 Ht Ea. rewrite C. apply in_or_app. apply in_app_or in Ht as [Ht|[Ht|[]]]; [left; exact (I9 t ev pl0 b0 Ht Ea)|]. injection Ht as <- <-. cbn in Ea. injection Ea as <- <-.
      right. rewrite Nat.eqb_refl. left. reflexivity.
    - intros pl0. rewrite C, D. destruct (Nat.eqb_spec pl pl0) as [<-|]; [|rewrite app_nil_r; apply I10].
      specialize (PERM pl). rewrite Nat.eqb_refl in PERM. rewrite (Permutation_length PERM), E. cbn [app]. rewrite app_length, map_length.
      pose proof (lim_concat pl _ (fun t g => LIM t g pl)) as Q. rewrite setNth_length in Q. rewrite L1, L2 in Q. lia.
    - intros pl0. rewrite D. apply I11.
  Qed.

  (** Put, stored or dropped *)
  Lemma inv_put tr s H th pl b k (full : bool) : inv tr s H -> nth_error (g_threads s) th = Some (PPut pl b k) ->
    (if full then size <= length (nth pl (g_pools s) []) else length (nth pl (g_pools s) []) < size) ->
    exists H', inv (tr ++ [(th, if full then EvDrop pl b else EvPut pl b)])
      {| g_bufs := g_bufs s; g_pools := setNth (g_pools s) pl (if full then nth pl (g_pools s) [] else nth pl (g_pools s) [] ++ [b]); g_threads := setNth (g_threads s) th k |} H'.
  Proof.
    intros [I1 I2 I3 I4 I5 I6 I7 I8 I9 I10 I11] P E. destruct I1 as (L1 & L2 & L3). set (ev := if full then EvDrop pl b else EvPut pl b).
    destruct (nth_error H th) as [h|] eqn:Eh; [|apply nth_error_None in Eh; assert (th < length (g_threads s)) by (apply nth_error_Some; rewrite P; discriminate); lia].
    destruct (I2 th _ h P Eh) as (Hin & Hk).
    assert (Hone : forall pl0, length (inPool pl0 h) = (if pl =? pl0 then 1 else 0) + length (inPool pl0 (rem1 (pl, b) h))).
    { intros pl0. rewrite (Permutation_length (inPool_rem1 pl0 pl b h Hin)). destruct (pl =? pl0); reflexivity. }
    assert (Hpl : pl < 2) by (apply most_pool; pose proof (I3 th h pl Eh) as Q; rewrite (Hone pl), Nat.eqb_refl in Q; lia).
    assert (C : forall pl0, created (tr ++ [(th, ev)]) pl0 = created tr pl0) by (intros pl0; rewrite created_snoc; unfold ev; destruct full; apply app_nil_r).
    assert (D : forall pl0, dropped (tr ++ [(th, ev)]) pl0 = dropped tr pl0 ++ if full && (pl =? pl0) then [b] else [])
      by (intros pl0; rewrite dropped_snoc; unfold ev; destruct full; cbn; rewrite ?app_nil_r; reflexivity).
    assert (HELD : forall pl0, Permutation (map snd (inPool pl0 (concat H)))
              ((if pl =? pl0 then [b] else []) ++ map snd (inPool pl0 (concat (setNth H th (rem1 (pl, b) h)))))).
    { intros pl0. pose proof (held_put H th h pl b pl0 Eh Hin) as HP. apply (Permutation_map snd) in HP. rewrite HP. destruct (pl =? pl0); reflexivity. }
    assert (IC : In b (created tr pl)).
    { eapply Permutation_in; [symmetry; apply I5|]. apply in_or_app. right. apply in_or_app. right. eapply Permutation_in; [symmetry; apply HELD|]. rewrite Nat.eqb_refl. left. reflexivity. }
    exists (setNth H th (rem1 (pl, b) h)). split; cbn [g_bufs g_pools g_threads].
    - rewrite !setNth_length. auto.
    - eapply pq_set; try eassumption.
    - eapply lim_set; try eassumption. intros pl0. pose proof (I3 th h pl0 Eh) as Q. rewrite (Hone pl0) in Q. lia.
    - intros t pl0. rewrite gets_snoc, puts_snoc, I4, (nth_set H th h _ t Eh).
      assert (G0 : gets [(th, ev)] t pl0 = 0) by (unfold ev, gets; cbn [filter]; destruct full; rewrite andb_false_r; reflexivity).
      assert (P0 : puts [(th, ev)] t pl0 = if (th =? t) && (pl =? pl0) then 1 else 0) by (unfold ev, puts; cbn [filter]; destruct full; destruct (_ && _); reflexivity).
      rewrite G0, P0, (Nat.eqb_sym th t). destruct (Nat.eqb_spec t th) as [->|]; cbn [andb]; [|lia]. rewrite (nth_error_nth H th [] Eh), (Hone pl0). destruct (pl =? pl0); lia.
    - intros pl0. rewrite C, D, nth_setNth, L3, (I5 pl0), (HELD pl0). apply Nat.ltb_lt in Hpl. rewrite Hpl, andb_true_r, (Nat.eqb_sym pl0 pl).
      set (m := map snd _). destruct (Nat.eqb_spec pl pl0) as [<-|]; [|rewrite andb_false_r, app_nil_r; reflexivity]. rewrite andb_true_r. destruct full.
      + rewrite <- !app_assoc. reflexivity.
      + rewrite app_nil_r, <- !app_assoc. apply Permutation_app_head. rewrite !app_assoc. apply Permutation_app_tail, Permutation_app_comm.
    - intros pl0 b0. rewrite C. apply I6.
    - intros pl0 pl' b0. rewrite !C. apply I7.
    - intros pl0. rewrite C. apply I8.
    - intros t ev' pl0 b0 Ht Ea. rewrite C. apply in_app_or in Ht as [Ht|[Ht|[]]]; [exact (I9 t ev' pl0 b0 Ht Ea)|]. injection Ht as <- <-.
      unfold ev in Ea. destruct full; cbn in Ea; injection Ea as <- <-; exact IC.
    - intros pl0. rewrite C, D, app_length. specialize (I10 pl0). lia.
    - intros pl0 Hs. rewrite D, (I11 pl0 Hs). destruct full; [|reflexivity]. destruct (Nat.eqb_spec pl pl0) as [<-|]; [|reflexivity]. exfalso.
      pose proof (I10 pl) as Q. rewrite (Permutation_length (I5 pl)), (Permutation_app_head _ (Permutation_app_head _ (HELD pl))), (I11 pl Hs), Nat.eqb_refl, app_length in Q.
      cbn [app length] in Q. lia.
  Qed.

  Lemma inv_step tr s s' th ev : (exists H, inv tr s H) -> gstep size s th = Some (s', ev) -> exists H, inv (tr ++ [(th, ev)]) s' H.
  Proof.
    intros (H & I) St. destruct (gstep_effect _ _ _ _ _ St) as (p & P & E).
    inversion E as [pl k b ch Ep|pl k Ep|pl b k Ep|pl b k Ep|b k|b m k|b i k v Ep|b i k Ep|b i v k Ep|b i v k Ep]; subst; clear E.
    - eapply inv_hit; eassumption.
    - eapply inv_miss; eassumption.
    - exact (inv_put tr s H th pl b k false I P Ep).
    - exact (inv_put tr s H th pl b k true I P Ep).
    - exists H. eapply inv_local; [exact I|exact P|reflexivity|]. intros h W. apply W.
    - exists H. eapply inv_local; [exact I|exact P|apply setNth_length|]. intros h W. apply W.
    - exists H. eapply inv_local; [exact I|exact P|reflexivity|]. intros h W. apply W.
    - exists H. eapply inv_local; [exact I|exact P|reflexivity|]. intros h W. left. exact Logic.I.
    - exists H. eapply inv_local; [exact I|exact P|apply setNth_length|]. intros h W. apply W.
    - exists H. eapply inv_local; [exact I|exact P|reflexivity|]. intros h W. left. exact Logic.I.
  Qed.

  Lemma inv_exec (threads : list (prog A)) tr s : length threads = n -> (forall p, In p threads -> pq most [] p clean) -> gexec size (ginit 2 threads) tr s -> exists H, inv tr s H.
  Proof.
    intros L W X. remember (ginit 2 threads) as s0 eqn:E0. induction X as [s|s tr s1 th ev s2 X IH St]; [|eapply inv_step; [apply IH, E0|exact St]].
    subst s. assert (CE : concat (repeat (@nil (nat * nat)) n) = []) by (clear; induction n as [|m IH]; [reflexivity|exact IH]).
    exists (repeat [] n). split; cbn [g_bufs g_pools g_threads ginit].
    - rewrite repeat_length. auto.
    - intros th p h P E. apply nth_error_In in E. apply repeat_spec in E. subst h. apply W. eapply nth_error_In, P.
    - intros th h pl E. apply nth_error_In in E. apply repeat_spec in E. subst h. cbn. lia.
    - intros th pl. cbn. rewrite nth_repeat. reflexivity.
    - intros pl. rewrite CE. cbn. destruct pl as [|[|[|pl]]]; reflexivity.
    - intros pl b [].
    - intros pl pl' b [].
    - intros pl. constructor.
    - intros t ev pl b [].
    - intros pl. cbn. lia.
    - intros pl _. reflexivity.
  Qed.
End Inv.
