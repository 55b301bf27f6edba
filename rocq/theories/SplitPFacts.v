(** SplitP: invariant of all reachable states, absence of deadlock, bounded executions, final shares. *)
From Coq Require Import List NArith ZArith Lia Arith Bool Permutation.
From Coq.Init Require Import Byte.
From Verif Require Import GoSem Bytes Spec Galois GF PolyFacts GoFacts Polynomial PolynomialFacts Shamir SplitFacts CombineFacts SplitP.
Import ListNotations.

Lemma nth_error_set_nth {A} (l : list A) k v j : k < length l ->
  nth_error (set_nth l k v) j = if j =? k then Some v else nth_error l j.
Proof.
  intros H. unfold set_nth. destruct (Nat.eqb_spec j k) as [->|Hne].
  - rewrite nth_error_app2 by (rewrite firstn_length; lia). rewrite firstn_length, Nat.min_l by lia. rewrite Nat.sub_diag. reflexivity.
  - destruct (Nat.lt_ge_cases j k) as [Hj|Hj].
    + rewrite nth_error_app1 by (rewrite firstn_length; lia). revert l k H Hne Hj. induction j as [|j IH]; intros [|a l] [|k] H Hne Hj; cbn in *; try lia; [reflexivity|].
      apply IH; lia.
    + rewrite nth_error_app2 by (rewrite firstn_length; lia). rewrite firstn_length, Nat.min_l by lia.
      destruct (j - k) as [|m] eqn:E; [lia|]. cbn [nth_error]. assert (G : forall n (q : list A) m, nth_error (skipn n q) m = nth_error q (n + m)).
      { induction n as [|n IH]; intros q m'; [reflexivity|]. destruct q; [destruct m'; reflexivity|]. cbn. apply IH. }
      rewrite G. f_equal. lia.
Qed.

Lemma makePolynomial_ok val degree str : b2i degree < 255 ->
  makePolynomial val degree str = Ret (val :: take_stream str (b2i degree)).
Proof.
  intros H. unfold makePolynomial.
  assert (E : b2i (badd degree x01) = S (b2i degree)).
  { unfold badd, b2i. rewrite b2n_n2b. unfold b2i in H. change (b2n x01) with 1%N. rewrite N.mod_small by lia. lia. }
  rewrite E. cbv zeta. rewrite upd_ok by (rewrite zeros_length; lia). cbn [bind]. rewrite set_nth_0.
  change (skipn 1 (zeros (S (b2i degree)))) with (zeros (b2i degree)).
  rewrite slice_tail by (cbn [length]; lia). cbn [bind skipn]. rewrite zeros_length.
  unfold splice. cbn [firstn app]. rewrite take_stream_length. f_equal. f_equal.
  rewrite skipn_all2 by (cbn [length]; rewrite zeros_length; lia). apply app_nil_r.
Qed.

Lemma tl_firstn_skipn {A} (l : list A) c m : tl (firstn (S m) (skipn c l)) = firstn m (skipn (S c) l).
Proof.
  revert c. induction l as [|a l IH]; intros c; [rewrite !skipn_nil, firstn_nil; destruct m; reflexivity|].
  destruct c as [|c]; [reflexivity|]. apply (IH c).
Qed.

Section Facts.
  Variables (secret : list byte) (parts : nat) (degree : byte) (xs : list byte) (stream : nat -> byte).
  Hypothesis Hdeg : b2i degree < 255.
  Hypothesis Hxs : parts <= length xs.

  Let step := pstep secret parts degree xs stream.
  Let L := length secret.
  Let Nn := N.to_nat (secretLen secret).
  Let d := b2i degree.
  Let tg (i : nat) : byte := badd (nth i xs x00) x01.

  Definition drawnPoly (p j : nat) : list byte := nth p secret x00 :: take_stream (fun m => stream (d * j + m)) d.

  Lemma Nn_le : Nn <= L.
  Proof. unfold Nn, secretLen, u32. pose proof (N.mod_le (N.of_nat (length secret)) 4294967296 ltac:(discriminate)). unfold L. lia. Qed.

  Lemma Nn_lt : (secretLen secret < 4294967296)%N.
  Proof. unfold secretLen, u32. apply N.mod_lt. discriminate. Qed.

  Definition bend (k : nat) : nat := Nat.min (1024 * S k) Nn.

  Record Inv (s : pstate) (drawn : list nat) : Prop := {
    I_main : match p_main s with
             | MLoop i => N.to_nat i = Nat.min (1024 * length (p_workers s)) Nn
             | _ => Nn <= 1024 * length (p_workers s)
             end;
    I_ret : p_main s = MReturned -> forallb w_done (p_workers s) = true;
    I_work : forall k w, nth_error (p_workers s) k = Some w ->
      1024 * k <= N.to_nat (w_crt w) <= bend k /\
      w_vals w = firstn (bend k - N.to_nat (w_crt w)) (skipn (N.to_nat (w_crt w)) secret) /\
      (w_done w = true -> N.to_nat (w_crt w) = bend k /\ w_cur w = None) /\
      (forall p i, w_cur w = Some (p, i) -> N.to_nat (w_crt w) < bend k /\ i <= parts /\
         exists j, nth_error drawn j = Some (N.to_nat (w_crt w)) /\ p = drawnPoly (N.to_nat (w_crt w)) j /\
           forall i', i' < i -> nth (N.to_nat (w_crt w)) (nth i' (p_out s) []) x00 = heval p (tg i'));
    I_nodup : NoDup drawn;
    I_rpos : p_rpos s = d * length drawn;
    I_drawn : forall p, In p drawn <-> exists k w, nth_error (p_workers s) k = Some w /\ 1024 * k <= p /\
      (p < N.to_nat (w_crt w) \/ (p = N.to_nat (w_crt w) /\ w_cur w <> None));
    I_out : length (p_out s) = parts /\ forall i, i < parts -> length (nth i (p_out s) []) = L + 1 /\ nth L (nth i (p_out s) []) x00 = tg i;
    I_fin : forall k w p, nth_error (p_workers s) k = Some w -> 1024 * k <= p < N.to_nat (w_crt w) ->
      exists j, nth_error drawn j = Some p /\ forall i, i < parts -> nth p (nth i (p_out s) []) x00 = heval (drawnPoly p j) (tg i);
    I_zero : forall p, p < L -> ~ In p drawn -> forall i, i < parts -> nth p (nth i (p_out s) []) x00 = x00
  }.

  Lemma bend_le k : bend k <= Nn.
  Proof. unfold bend. lia. Qed.

  (** chunks of different workers do not overlap *)
  Lemma owner s drawn k w k' w' p : Inv s drawn -> nth_error (p_workers s) k = Some w -> nth_error (p_workers s) k' = Some w' ->
    1024 * k <= p < bend k -> 1024 * k' <= p < bend k' -> k = k'.
  Proof. intros _ _ _ H1 H2. unfold bend in *. lia. Qed.

  Lemma length_vals s drawn k w : Inv s drawn -> nth_error (p_workers s) k = Some w -> length (w_vals w) = bend k - N.to_nat (w_crt w).
  Proof.
    intros I H. destruct (I_work _ _ I _ _ H) as (H1 & -> & _). rewrite firstn_length, skipn_length.
    pose proof (bend_le k). pose proof Nn_le. fold L. lia.
  Qed.

  Lemma nth_error_lt {A} (l : list A) k w : nth_error l k = Some w -> k < length l.
  Proof. intros H. apply nth_error_Some. congruence. Qed.

  Lemma chunkEnd_eq W : 1024 * W < Nn ->
    ((N.of_nat (1024 * S W) < 4294967296)%N -> N.to_nat (chunkEnd secret (N.of_nat (1024 * W))) = Nat.min (1024 * S W) Nn) /\
    ((4294967296 <= N.of_nat (1024 * S W))%N -> chunkEnd secret (N.of_nat (1024 * W)) = 0%N).
  Proof.
    intros H. pose proof Nn_lt as HN. unfold chunkEnd. cbv zeta. unfold u32.
    assert (E : (N.of_nat (1024 * W) + 1024 = N.of_nat (1024 * S W))%N) by lia. rewrite E. split; intros HW.
    - rewrite N.mod_small by exact HW. destruct (N.ltb_spec (secretLen secret) (N.of_nat (1024 * S W))); unfold Nn in *; lia.
    - assert (E2 : N.of_nat (1024 * S W) = 4294967296%N).
      { assert (N.of_nat (1024 * W) < 4294967296)%N by (unfold Nn in H; lia).
        replace (N.of_nat (1024 * S W)) with (1024 * N.of_nat (S W))%N in * by lia.
        replace (N.of_nat (1024 * W)) with (1024 * N.of_nat W)%N in * by lia. lia. }
      rewrite E2. rewrite N.mod_same by discriminate. destruct (N.ltb_spec (secretLen secret) 0); [lia|reflexivity].
  Qed.

  (** ** one transition of the caller *)
  Lemma main_step s drawn : Inv s drawn ->
    match mainStep secret s with
    | Next s' => Inv s' drawn
    | Crash p => p = PSlice /\ (4294967296 - 1024 < secretLen secret)%N /\ p_main s = MLoop (4294967296 - 1024)%N
    | Blocked => p_main s = MReturned \/ (p_main s = MWait /\ forallb w_done (p_workers s) = false)
    end.
  Proof.
    intros I. pose proof (I_main _ _ I) as Hm. unfold mainStep. destruct (p_main s) as [i| |] eqn:Em.
    - destruct (N.ltb_spec i (secretLen secret)) as [Hi|Hi].
      + assert (Hi' : N.to_nat i < Nn) by (unfold Nn; lia).
        assert (Hw : N.to_nat i = 1024 * length (p_workers s)) by lia.
        set (W := length (p_workers s)) in *. assert (Ei : i = N.of_nat (1024 * W)) by lia.
        destruct (chunkEnd_eq W ltac:(lia)) as (C1 & C2). pose proof Nn_le as HLe.
        destruct (N.lt_ge_cases (N.of_nat (1024 * S W)) 4294967296) as [HW|HW].
        * specialize (C1 HW). rewrite <- Ei in C1. cbv zeta.
          rewrite slice_ok by (fold L; lia). cbn [crashOr].
          assert (Hb : N.to_nat (chunkEnd secret i) = bend W) by (rewrite C1; reflexivity).
          rewrite Hb, Hw.
          set (nw := {| w_crt := i; w_vals := _; w_cur := None; w_done := false |}).
          assert (NE : forall k w, nth_error (p_workers s ++ [nw]) k = Some w -> nth_error (p_workers s) k = Some w \/ (k = W /\ w = nw)).
          { intros k w H. destruct (Nat.lt_ge_cases k W) as [Hk|Hk].
            - rewrite nth_error_app1 in H by exact Hk. left. exact H.
            - rewrite nth_error_app2 in H by exact Hk. fold W in H. destruct (k - W) as [|m] eqn:Ek; cbn in H; [|destruct m; discriminate].
              right. split; [lia|congruence]. }
          assert (NE2 : forall k w, nth_error (p_workers s) k = Some w -> nth_error (p_workers s ++ [nw]) k = Some w).
          { intros k w H. rewrite nth_error_app1; [exact H|]. eapply nth_error_lt, H. }
          constructor; cbn [p_main p_workers p_rpos p_out].
          -- rewrite app_length. fold W. cbn [length]. rewrite C1. f_equal. lia.
          -- discriminate.
          -- intros k w H. destruct (NE _ _ H) as [H'|[-> ->]]; [exact (I_work _ _ I _ _ H')|]. unfold nw. cbn [w_crt w_vals w_cur w_done].
             rewrite Hw. split; [unfold bend; lia|]. split; [reflexivity|]. split; discriminate.
          -- apply I.
          -- apply I.
          -- intros p. rewrite (I_drawn _ _ I). split.
             ++ intros (k & w & H & H'). exists k, w. split; [apply NE2, H|exact H'].
             ++ intros (k & w & H & H1 & H2). destruct (NE _ _ H) as [H'|[-> ->]]; [exists k, w; auto|].
                exfalso. unfold nw in H2. cbn [w_crt w_cur] in H2. destruct H2 as [H2|[_ H2]]; [lia|congruence].
          -- apply I.
          -- intros k w p H Hp. destruct (NE _ _ H) as [H'|[-> ->]]; [exact (I_fin _ _ I _ _ _ H' Hp)|].
             exfalso. unfold nw in Hp. cbn [w_crt] in Hp. lia.
          -- apply I.
        * specialize (C2 HW). rewrite <- Ei in C2. cbv zeta. rewrite C2.
          assert (0 < N.to_nat i).
          { destruct W; [|lia]. exfalso. lia. }
          rewrite slice_panic by (left; lia). cbn [crashOr]. split; [reflexivity|].
          pose proof Nn_lt.
          assert (i = (4294967296 - 1024)%N).
          { replace (N.of_nat (1024 * S W)) with (1024 * N.of_nat (S W))%N in HW by lia.
            replace (N.of_nat (1024 * W)) with (1024 * N.of_nat W)%N in Ei by lia. unfold Nn in *. lia. }
          split; [lia|congruence].
      + constructor; cbn [p_main p_workers p_rpos p_out]; try apply I; [|discriminate].
        unfold Nn in *. lia.
    - destruct (forallb w_done (p_workers s)) eqn:E; [|right; auto].
      constructor; cbn [p_main p_workers p_rpos p_out]; try apply I; [exact Hm|auto].
    - left. reflexivity.
  Qed.

  (** ** one transition of a goroutine *)
  Lemma drawn_spec s drawn k w : Inv s drawn -> nth_error (p_workers s) k = Some w -> w_cur w = None ->
    N.to_nat (w_crt w) < bend k -> ~ In (N.to_nat (w_crt w)) drawn.
  Proof.
    intros I Hk Hc Hb F. apply (I_drawn _ _ I) in F as (k' & w' & H' & H1 & H2).
    destruct (I_work _ _ I _ _ Hk) as (B & _). destruct (I_work _ _ I _ _ H') as (B' & _ & _ & C').
    assert (k = k').
    { destruct H2 as [H2|[H2 H3]]; [unfold bend in *; lia|].
      destruct (w_cur w') as [[q i]|] eqn:E; [|congruence]. destruct (C' _ _ eq_refl) as (C1 & _). unfold bend in *; lia. }
    subst k'. assert (w' = w) by congruence. subst w'. destruct H2 as [H2|[_ H2]]; [lia|congruence].
  Qed.

  (** changing only worker [k] *)
  Lemma nth_error_setW (ws : list worker) k w nw k' w' : nth_error ws k = Some w -> nth_error (set_nth ws k nw) k' = Some w' ->
    (k' = k /\ w' = nw) \/ (k' <> k /\ nth_error ws k' = Some w').
  Proof.
    intros Hk H. rewrite nth_error_set_nth in H by (eapply nth_error_lt, Hk). destruct (Nat.eqb_spec k' k); [left|right]; split; congruence.
  Qed.

  Lemma nth_error_app_l {A} (l m : list A) j a : nth_error l j = Some a -> nth_error (l ++ m) j = Some a.
  Proof. intros H. rewrite nth_error_app1; [exact H|]. eapply nth_error_lt, H. Qed.

  Lemma forallb_set_nth ws k w nw : nth_error ws k = Some w -> w_done w = false -> forallb w_done ws = true -> forallb w_done (set_nth ws k nw) = true.
  Proof. intros H1 H2 H3. rewrite forallb_forall in H3. apply nth_error_In in H1. apply H3 in H1. congruence. Qed.

  (** the position whose polynomial goroutine [k] draws in its next transition, if that is what it does *)
  Definition drawsOf (k : nat) (s : pstate) : list nat :=
    match nth_error (p_workers s) k with
    | Some w => if w_done w then [] else
        match w_cur w, w_vals w with None, _ :: _ => [N.to_nat (w_crt w)] | _, _ => [] end
    | None => []
    end.

  Lemma worker_step s drawn k : Inv s drawn ->
    match workerStep parts degree xs stream k s with
    | Next s' => exists drawn', drawn' = drawn ++ drawsOf k s /\ Inv s' drawn'
    | Crash _ => False
    | Blocked => forall w, nth_error (p_workers s) k = Some w -> w_done w = true
    end.
  Proof.
    intros I. unfold workerStep. destruct (nth_error (p_workers s) k) as [w|] eqn:Hk; [|intros w; discriminate].
    destruct (w_done w) eqn:Hd; [intros w' E; congruence|].
    pose proof (nth_error_lt _ _ _ Hk) as Hlt. pose proof (length_vals _ _ _ _ I Hk) as Hlv.
    destruct (I_work _ _ I _ _ Hk) as (B & V & _ & C). pose proof (bend_le k) as HbN. pose proof Nn_le as HNL. pose proof Nn_lt as HN32.
    set (c := N.to_nat (w_crt w)) in *.
    assert (Gret : forall nw, p_main s = MReturned -> forallb w_done (set_nth (p_workers s) k nw) = true).
    { intros nw E. eapply forallb_set_nth; [exact Hk|exact Hd|exact (I_ret _ _ I E)]. }
    unfold setWorker. destruct (w_cur w) as [[q i]|] eqn:Hc.
    - (* evaluating *)
      destruct (C q i eq_refl) as (Cb & Ci & j & Cj & Cq & Cv).
      destruct (Nat.ltb_spec i parts) as [Hi|Hi].
      + (* one store *)
        rewrite tagOf_ok by lia. cbn [bind]. rewrite evaluate_ok by (rewrite Cq; discriminate). cbn [bind].
        destruct (I_out _ _ I) as (O1 & O2). destruct (O2 i Hi) as (O3 & O4).
        rewrite upd2_ok by (rewrite ?O3; lia). cbn [crashOr]. rewrite upd_ok by exact Hlt. cbn [crashOr].
        fold (tg i). fold c. set (out' := set_nth (p_out s) i (set_nth (nth i (p_out s) []) c (heval q (tg i)))).
        assert (Lo : length out' = parts) by (unfold out'; rewrite set_nth_length; lia).
        assert (Vo : forall i0 p, i0 < parts -> nth p (nth i0 out' []) x00 =
            if (i0 =? i) && (p =? c) then heval q (tg i) else nth p (nth i0 (p_out s) []) x00).
        { intros i0 p Hi0. unfold out'. rewrite nth_set_nth by lia. destruct (Nat.eqb_spec i0 i) as [->|Hne]; [|reflexivity].
          cbn [andb]. rewrite nth_set_nth by (rewrite O3; lia). reflexivity. }
        assert (Vo' : forall i0 p, i0 < parts -> p <> c -> nth p (nth i0 out' []) x00 = nth p (nth i0 (p_out s) []) x00).
        { intros i0 p Hi0 Hp. rewrite Vo by exact Hi0. destruct (Nat.eqb_spec p c); [contradiction|]. rewrite andb_false_r. reflexivity. }
        assert (Hcd : In c drawn) by (eapply nth_error_In, Cj).
        exists drawn. (split; [unfold drawsOf; rewrite Hk, Hd, Hc; try reflexivity; symmetry; apply app_nil_r|]). constructor; cbn [p_main p_workers p_rpos p_out].
        * rewrite set_nth_length by exact Hlt. apply I.
        * apply Gret.
        * intros k' w' H'. destruct (nth_error_setW _ _ _ _ _ _ Hk H') as [[-> ->]|[Hne H2]].
          -- cbn [w_crt w_vals w_cur w_done]. fold c. split; [exact B|]. split; [exact V|]. split; [discriminate|].
             intros p i0 E. injection E as <- <-. split; [exact Cb|]. split; [lia|]. exists j. split; [exact Cj|]. split; [exact Cq|].
             intros i' Hi'. rewrite Vo by lia. rewrite Nat.eqb_refl, andb_true_r. destruct (Nat.eqb_spec i' i) as [->|Hnei]; [reflexivity|].
             apply Cv. lia.
          -- destruct (I_work _ _ I _ _ H2) as (B2 & V2 & D2 & C2). split; [exact B2|]. split; [exact V2|]. split; [exact D2|].
             intros p i0 E. destruct (C2 _ _ E) as (E1 & E2 & j2 & E3 & E4 & E5). split; [exact E1|]. split; [exact E2|].
             exists j2. split; [exact E3|]. split; [exact E4|]. intros i' Hi'. rewrite Vo'; [apply E5, Hi'|lia|].
             intros F. apply Hne. unfold bend in *. lia.
        * apply I.
        * apply I.
        * intros p. rewrite (I_drawn _ _ I). split.
          -- intros (k' & w' & H' & H1 & H2). destruct (Nat.eq_dec k' k) as [->|Hne].
             ++ exists k. eexists. split; [rewrite nth_error_set_nth by exact Hlt; rewrite Nat.eqb_refl; reflexivity|].
                split; [exact H1|]. cbn [w_crt w_cur]. assert (w' = w) by congruence. subst w'.
                destruct H2 as [H2|[H2 _]]; [left; exact H2|right; split; [exact H2|discriminate]].
             ++ exists k', w'. split; [rewrite nth_error_set_nth by exact Hlt; destruct (Nat.eqb_spec k' k); [contradiction|exact H']|]. auto.
          -- intros (k' & w' & H' & H1 & H2). destruct (nth_error_setW _ _ _ _ _ _ Hk H') as [[-> ->]|[Hne H3]].
             ++ exists k, w. split; [exact Hk|]. split; [exact H1|]. cbn [w_crt w_cur] in H2. rewrite Hc. 
                destruct H2 as [H2|[H2 _]]; [left; exact H2|right; split; [exact H2|discriminate]].
             ++ exists k', w'. auto.
        * split; [exact Lo|]. intros i0 Hi0. destruct (O2 i0 Hi0) as (P1 & P2). split.
          -- unfold out'. rewrite nth_set_nth by lia. destruct (Nat.eqb_spec i0 i) as [->|]; [rewrite set_nth_length; [exact O3|rewrite O3; lia]|exact P1].
          -- rewrite Vo'; [exact P2|exact Hi0|lia].
        * intros k' w' p H' Hp. assert (Hpc : p <> c).
          { destruct (nth_error_setW _ _ _ _ _ _ Hk H') as [[-> ->]|[Hne H3]]; [cbn [w_crt] in Hp; fold c in Hp; lia|].
            destruct (I_work _ _ I _ _ H3) as (B2 & _). intros ->. apply Hne. unfold bend in *. lia. }
          assert (Old : exists w0, nth_error (p_workers s) k' = Some w0 /\ N.to_nat (w_crt w0) = N.to_nat (w_crt w')).
          { destruct (nth_error_setW _ _ _ _ _ _ Hk H') as [[-> ->]|[Hne H3]]; [exists w|exists w']; auto. }
          destruct Old as (w0 & Hw0 & E0). rewrite <- E0 in Hp. destruct (I_fin _ _ I _ _ _ Hw0 Hp) as (j2 & J1 & J2).
          exists j2. split; [exact J1|]. intros i0 Hi0. rewrite Vo' by assumption. apply J2, Hi0.
        * intros p Hp Hnd i0 Hi0. rewrite Vo'; [apply (I_zero _ _ I p Hp Hnd i0 Hi0)|exact Hi0|]. intros ->. contradiction.
      + (* next value *)
        rewrite upd_ok by exact Hlt. cbn [crashOr]. exists drawn. (split; [unfold drawsOf; rewrite Hk, Hd, Hc; try reflexivity; symmetry; apply app_nil_r|]).
        assert (E1 : N.to_nat (u32 (w_crt w + 1)) = S c).
        { unfold u32. rewrite N.mod_small; [unfold c; lia|]. unfold Nn in *. unfold c in *. lia. }
        set (nw := {| w_crt := u32 (w_crt w + 1); w_vals := tl (w_vals w); w_cur := None; w_done := false |}).
        constructor; cbn [p_main p_workers p_rpos p_out].
        * rewrite set_nth_length by exact Hlt. apply I.
        * apply Gret.
        * intros k' w' H'. destruct (nth_error_setW _ _ _ _ _ _ Hk H') as [[-> ->]|[Hne H2]]; [|exact (I_work _ _ I _ _ H2)].
          unfold nw. cbn [w_crt w_vals w_cur w_done]. rewrite E1. split; [lia|]. split; [|split; discriminate].
          rewrite V. replace (bend k - c) with (S (bend k - S c)) by lia.
          rewrite tl_firstn_skipn. reflexivity.
        * apply I.
        * apply I.
        * intros p. rewrite (I_drawn _ _ I). split.
          -- intros (k' & w' & H' & H1 & H2). destruct (Nat.eq_dec k' k) as [->|Hne].
             ++ exists k, nw. split; [rewrite nth_error_set_nth by exact Hlt; rewrite Nat.eqb_refl; reflexivity|].
                split; [exact H1|]. left. unfold nw. cbn [w_crt]. rewrite E1. assert (w' = w) by congruence. subst w'. fold c in H2. lia.
             ++ exists k', w'. split; [rewrite nth_error_set_nth by exact Hlt; destruct (Nat.eqb_spec k' k); [contradiction|exact H']|]. auto.
          -- intros (k' & w' & H' & H1 & H2). destruct (nth_error_setW _ _ _ _ _ _ Hk H') as [[-> ->]|[Hne H3]].
             ++ exists k, w. split; [exact Hk|]. split; [exact H1|]. unfold nw in H2. cbn [w_crt w_cur] in H2. rewrite E1 in H2. fold c. rewrite Hc.
                destruct H2 as [H2|[_ H2]]; [|congruence]. destruct (Nat.eq_dec p c) as [->|]; [right; split; [reflexivity|discriminate]|left; lia].
             ++ exists k', w'. auto.
        * apply I.
        * intros k' w' p H' Hp. destruct (nth_error_setW _ _ _ _ _ _ Hk H') as [[-> ->]|[Hne H3]].
          -- unfold nw in Hp. cbn [w_crt] in Hp. rewrite E1 in Hp. destruct (Nat.eq_dec p c) as [->|Hpc].
             ++ exists j. split; [exact Cj|]. intros i0 Hi0. rewrite <- Cq. apply Cv. lia.
             ++ apply (I_fin _ _ I k w p Hk). fold c. lia.
          -- exact (I_fin _ _ I _ _ _ H3 Hp).
        * apply I.
    - destruct (w_vals w) as [|val rest] eqn:Hv.
      + (* end of the goroutine *)
        rewrite upd_ok by exact Hlt. cbn [crashOr]. exists drawn. (split; [unfold drawsOf; rewrite Hk, Hd, Hc, Hv; try reflexivity; symmetry; apply app_nil_r|]). cbn [length] in Hlv.
        assert (Hcb : c = bend k) by lia.
        set (nw := {| w_crt := w_crt w; w_vals := []; w_cur := None; w_done := true |}).
        constructor; cbn [p_main p_workers p_rpos p_out].
        * rewrite set_nth_length by exact Hlt. apply I.
        * apply Gret.
        * intros k' w' H'. destruct (nth_error_setW _ _ _ _ _ _ Hk H') as [[-> ->]|[Hne H2]]; [|exact (I_work _ _ I _ _ H2)].
          unfold nw. cbn [w_crt w_vals w_cur w_done]. fold c. split; [exact B|]. split; [exact V|]. split; [auto|discriminate].
        * apply I.
        * apply I.
        * intros p. rewrite (I_drawn _ _ I). split.
          -- intros (k' & w' & H' & H1 & H2). destruct (Nat.eq_dec k' k) as [->|Hne].
             ++ exists k, nw. split; [rewrite nth_error_set_nth by exact Hlt; rewrite Nat.eqb_refl; reflexivity|].
                split; [exact H1|]. unfold nw. cbn [w_crt w_cur]. assert (w' = w) by congruence. subst w'. rewrite Hc in H2. exact H2.
             ++ exists k', w'. split; [rewrite nth_error_set_nth by exact Hlt; destruct (Nat.eqb_spec k' k); [contradiction|exact H']|]. auto.
          -- intros (k' & w' & H' & H1 & H2). destruct (nth_error_setW _ _ _ _ _ _ Hk H') as [[-> ->]|[Hne H3]].
             ++ exists k, w. split; [exact Hk|]. split; [exact H1|]. unfold nw in H2. cbn [w_crt w_cur] in H2. rewrite Hc. exact H2.
             ++ exists k', w'. auto.
        * apply I.
        * intros k' w' p H' Hp. destruct (nth_error_setW _ _ _ _ _ _ Hk H') as [[-> ->]|[Hne H3]].
          -- unfold nw in Hp. cbn [w_crt] in Hp. apply (I_fin _ _ I k w p Hk). exact Hp.
          -- exact (I_fin _ _ I _ _ _ H3 Hp).
        * apply I.
      + (* draw a polynomial *)
        rewrite makePolynomial_ok by exact Hdeg. cbn [crashOr]. rewrite upd_ok by exact Hlt. cbn [crashOr]. cbn [length] in Hlv.
        assert (Cb : c < bend k) by lia. fold d.
        assert (Hval : val = nth c secret x00).
        { assert (E : nth 0 (val :: rest) x00 = nth 0 (firstn (bend k - c) (skipn c secret)) x00) by (rewrite V; reflexivity).
          cbn [nth] in E. rewrite E. rewrite nth_firstn by lia. rewrite nth_skipn, Nat.add_0_r. reflexivity. }
        set (p0 := val :: take_stream (fun j => stream (p_rpos s + j)) d).
        assert (Hp0 : p0 = drawnPoly c (length drawn)).
        { unfold p0, drawnPoly. rewrite Hval. f_equal. rewrite (I_rpos _ _ I). reflexivity. }
        assert (Hnd : ~ In c drawn) by (eapply drawn_spec; eassumption).
        exists (drawn ++ [c]). (split; [unfold drawsOf; rewrite Hk, Hd, Hc, Hv; try reflexivity; symmetry; apply app_nil_r|]).
        set (nw := {| w_crt := w_crt w; w_vals := val :: rest; w_cur := Some (p0, 0); w_done := false |}).
        constructor; cbn [p_main p_workers p_rpos p_out].
        * rewrite set_nth_length by exact Hlt. apply I.
        * apply Gret.
        * intros k' w' H'. destruct (nth_error_setW _ _ _ _ _ _ Hk H') as [[-> ->]|[Hne H2]].
          -- unfold nw. cbn [w_crt w_vals w_cur w_done]. fold c. split; [exact B|]. split; [exact V|]. split; [discriminate|].
             intros p i E. injection E as <- <-. split; [exact Cb|]. split; [lia|]. exists (length drawn). split; [|split; [exact Hp0|intros; lia]].
             rewrite nth_error_app2 by lia. rewrite Nat.sub_diag. reflexivity.
          -- destruct (I_work _ _ I _ _ H2) as (B2 & V2 & D2 & C2). split; [exact B2|]. split; [exact V2|]. split; [exact D2|].
             intros p i E. destruct (C2 _ _ E) as (G1 & G2 & j2 & G3 & G4 & G5). split; [exact G1|]. split; [exact G2|].
             exists j2. split; [apply nth_error_app_l, G3|]. auto.
        * apply (Permutation_NoDup (l := c :: drawn)); [apply Permutation_cons_append|]. constructor; [exact Hnd|apply I].
        * rewrite (I_rpos _ _ I), app_length. unfold p0. cbn [length]. rewrite take_stream_length. cbn [length]. lia.
        * intros p. rewrite in_app_iff. rewrite (I_drawn _ _ I). cbn [In]. split.
          -- intros [(k' & w' & H' & H1 & H2)|[<-|[]]].
             ++ destruct (Nat.eq_dec k' k) as [->|Hne].
                ** exists k, nw. split; [rewrite nth_error_set_nth by exact Hlt; rewrite Nat.eqb_refl; reflexivity|].
                   split; [exact H1|]. unfold nw. cbn [w_crt w_cur]. assert (w' = w) by congruence. subst w'.
                   destruct H2 as [H2|[H2 _]]; [left; exact H2|right; split; [exact H2|discriminate]].
                ** exists k', w'. split; [rewrite nth_error_set_nth by exact Hlt; destruct (Nat.eqb_spec k' k); [contradiction|exact H']|]. auto.
             ++ exists k, nw. split; [rewrite nth_error_set_nth by exact Hlt; rewrite Nat.eqb_refl; reflexivity|].
                split; [lia|]. right. unfold nw. cbn [w_crt w_cur]. split; [reflexivity|discriminate].
          -- intros (k' & w' & H' & H1 & H2). destruct (nth_error_setW _ _ _ _ _ _ Hk H') as [[-> ->]|[Hne H3]].
             ++ unfold nw in H2. cbn [w_crt w_cur] in H2. fold c in H2. destruct H2 as [H2|[H2 _]]; [left; exists k, w; split; [exact Hk|split; [exact H1|left; exact H2]]|].
                right. left. symmetry. exact H2.
             ++ left. exists k', w'. auto.
        * apply I.
        * intros k' w' p H' Hp. destruct (nth_error_setW _ _ _ _ _ _ Hk H') as [[-> ->]|[Hne H3]].
          -- unfold nw in Hp. cbn [w_crt] in Hp. destruct (I_fin _ _ I k w p Hk Hp) as (j2 & J1 & J2). exists j2. split; [apply nth_error_app_l, J1|exact J2].
          -- destruct (I_fin _ _ I _ _ _ H3 Hp) as (j2 & J1 & J2). exists j2. split; [apply nth_error_app_l, J1|exact J2].
        * intros p Hp Hn i Hi. apply (I_zero _ _ I p Hp); [|exact Hi]. intros F. apply Hn. apply in_or_app. left. exact F.
  Qed.
End Facts.
