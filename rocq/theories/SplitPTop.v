(** SplitP: statements about whole calls. *)
From Coq Require Import List NArith ZArith Lia Arith Bool Permutation.
From Coq.Init Require Import Byte.
From Verif Require Import GoSem Bytes Spec Galois GF PolyFacts GoFacts Polynomial PolynomialFacts Shamir SplitFacts CombineFacts
  SplitP SplitPFacts SplitPMore Secrecy CsprngFacts Derived RandomizerFacts.
Import ListNotations.

(** ** which cells a transition writes *)
Section Writes.
  Variables (secret : list byte) (parts : nat) (degree : byte) (xs : list byte) (stream : nat -> byte).
  Hypothesis Hdeg : b2i degree < 255.
  Hypothesis Hxs : parts <= length xs.

  Lemma main_writes s s' : mainStep secret s = Next s' -> p_out s' = p_out s.
  Proof.
    unfold mainStep. destruct (p_main s) as [i| |].
    - destruct (i <? secretLen secret)%N; [|intros E; injection E as <-; reflexivity].
      cbv zeta. destruct (slice _ _ _); cbn [crashOr]; try discriminate. intros E; injection E as <-; reflexivity.
    - destruct (forallb _ _); [|discriminate]. intros E; injection E as <-; reflexivity.
    - discriminate.
  Qed.

  Lemma worker_writes s drawn k s' : Inv secret parts degree xs stream s drawn -> workerStep parts degree xs stream k s = Next s' ->
    forall i p, p < 1024 * k \/ 1024 * S k <= p -> nth p (nth i (p_out s') []) x00 = nth p (nth i (p_out s) []) x00.
  Proof.
    intros I H i p Hp. unfold workerStep in H. destruct (nth_error (p_workers s) k) as [w|] eqn:Hk; [|discriminate].
    destruct (w_done w) eqn:Hd; [discriminate|]. pose proof (nth_error_lt _ _ _ Hk) as Hlt.
    destruct (I_work _ _ _ _ _ _ _ I _ _ Hk) as (B & V & _ & C).
    unfold setWorker in H. destruct (w_cur w) as [[q i0]|] eqn:Hc.
    - destruct (C q i0 eq_refl) as (Cb & Ci & _). destruct (i0 <? parts) eqn:Ei.
      + apply Nat.ltb_lt in Ei. rewrite tagOf_ok in H by lia. cbn [bind] in H.
        destruct (evaluate q _) as [y| | | |]; cbn [bind crashOr] in H; try discriminate.
        destruct (I_out _ _ _ _ _ _ _ I) as (O1 & O2). destruct (O2 i0 Ei) as (O3 & _).
        pose proof (bend_le secret parts degree xs Hdeg Hxs k). pose proof (Nn_le secret parts degree xs Hdeg Hxs).
        rewrite upd2_ok in H; [|rewrite O1; exact Ei|rewrite O3; lia]. cbn [crashOr] in H. rewrite upd_ok in H by exact Hlt. cbn [crashOr] in H. injection H as <-.
        cbn [p_out]. rewrite nth_set_nth by lia. destruct (Nat.eqb_spec i i0) as [->|]; [|reflexivity].
        rewrite nth_set_nth by (rewrite O3; lia). destruct (Nat.eqb_spec p (N.to_nat (w_crt w))); [|reflexivity].
        exfalso. unfold bend in *. lia.
      + rewrite upd_ok in H by exact Hlt. cbn [crashOr] in H. injection H as <-. reflexivity.
    - destruct (w_vals w) eqn:Hv.
      + rewrite upd_ok in H by exact Hlt. cbn [crashOr] in H. injection H as <-. reflexivity.
      + destruct (makePolynomial _ _ _); cbn [crashOr] in H; try discriminate.
        rewrite upd_ok in H by exact Hlt. cbn [crashOr] in H. injection H as <-. reflexivity.
  Qed.
  (** the same transition from a state whose output rows hold anything else *)
  Definition with_out (s : pstate) (out : list (list byte)) : pstate :=
    {| p_main := p_main s; p_workers := p_workers s; p_rpos := p_rpos s; p_out := out |}.

  Lemma main_footprint s s' out : mainStep secret s = Next s' -> mainStep secret (with_out s out) = Next (with_out s' out).
  Proof.
    unfold mainStep, with_out. cbn [p_main p_workers p_rpos p_out]. destruct (p_main s) as [i| |].
    - destruct (i <? secretLen secret)%N; [|intros E; injection E as <-; reflexivity].
      cbv zeta. destruct (slice _ _ _); cbn [crashOr]; try discriminate. intros E; injection E as <-; reflexivity.
    - destruct (forallb _ _); [|discriminate]. intros E; injection E as <-; reflexivity.
    - discriminate.
  Qed.

  Lemma worker_footprint s drawn k s' out : Inv secret parts degree xs stream s drawn -> workerStep parts degree xs stream k s = Next s' ->
    map (@length byte) out = map (@length byte) (p_out s) ->
    exists out2, workerStep parts degree xs stream k (with_out s out) = Next (with_out s' out2) /\
      forall i p, nth p (nth i out2 []) x00 = nth p (nth i out []) x00 \/
        (1024 * k <= p < 1024 * S k /\ nth p (nth i out2 []) x00 = nth p (nth i (p_out s') []) x00).
  Proof.
    intros I H Hsh. unfold workerStep in *. cbn [p_workers with_out p_rpos p_out].
    assert (Hl : length out = length (p_out s)) by (rewrite <- (map_length (@length byte) out), Hsh; apply map_length).
    assert (Hr : forall i, length (nth i out []) = length (nth i (p_out s) [])).
    { intros i. change 0 with (length (@nil byte)). rewrite <- !(map_nth (@length byte)). rewrite Hsh. reflexivity. }
    destruct (nth_error (p_workers s) k) as [w|] eqn:Hk; [|discriminate].
    destruct (w_done w) eqn:Hd; [discriminate|]. pose proof (nth_error_lt _ _ _ Hk) as Hlt.
    destruct (I_work _ _ _ _ _ _ _ I _ _ Hk) as (B & V & _ & C).
    unfold setWorker in *. cbn [p_workers with_out p_main].
    assert (Same : forall o : list (list byte), o = out -> forall i p, nth p (nth i o []) x00 = nth p (nth i out []) x00 \/
        (1024 * k <= p < 1024 * S k /\ nth p (nth i o []) x00 = nth p (nth i (p_out s') []) x00)) by (intros o -> i p; left; reflexivity).
    destruct (w_cur w) as [[q i0]|] eqn:Hc.
    - destruct (C q i0 eq_refl) as (Cb & Ci & _). destruct (i0 <? parts) eqn:Ei.
      + apply Nat.ltb_lt in Ei. rewrite tagOf_ok in * by lia. cbn [bind] in *.
        destruct (evaluate q _) as [y| | | |]; cbn [bind crashOr] in *; try discriminate.
        destruct (I_out _ _ _ _ _ _ _ I) as (O1 & O2). destruct (O2 i0 Ei) as (O3 & _).
        pose proof (bend_le secret parts degree xs Hdeg Hxs k). pose proof (Nn_le secret parts degree xs Hdeg Hxs).
        rewrite upd2_ok in H; [|rewrite O1; exact Ei|rewrite O3; lia]. cbn [crashOr] in H. rewrite upd_ok in H by exact Hlt. cbn [crashOr] in H. injection H as <-.
        rewrite upd2_ok; [|rewrite Hl, O1; exact Ei|rewrite Hr, O3; lia]. cbn [crashOr]. rewrite upd_ok by exact Hlt. cbn [crashOr].
        eexists. split; [reflexivity|]. intros i p. cbn [p_out].
        rewrite !nth_set_nth by lia. destruct (Nat.eqb_spec i i0) as [->|]; [|left; reflexivity].
        rewrite !nth_set_nth by (rewrite ?Hr, O3; lia). destruct (Nat.eqb_spec p (N.to_nat (w_crt w))); [|left; reflexivity].
        right. split; [|reflexivity]. unfold bend in *. lia.
      + rewrite upd_ok in * by exact Hlt. cbn [crashOr] in *. injection H as <-. exists out. split; [reflexivity|]. apply Same. reflexivity.
    - destruct (w_vals w) eqn:Hv.
      + rewrite upd_ok in * by exact Hlt. cbn [crashOr] in *. injection H as <-. exists out. split; [reflexivity|]. apply Same. reflexivity.
      + destruct (makePolynomial _ _ _); cbn [crashOr] in *; try discriminate.
        rewrite upd_ok in * by exact Hlt. cbn [crashOr] in *. injection H as <-. exists out. split; [reflexivity|]. apply Same. reflexivity.
  Qed.
End Writes.

(** ** what a schedule does does not depend on the data *)
Definition shapeW (w : worker) : N * nat * option nat * bool := (w_crt w, length (w_vals w), option_map snd (w_cur w), w_done w).
Definition same_shape (s1 s2 : pstate) : Prop := p_main s1 = p_main s2 /\ map shapeW (p_workers s1) = map shapeW (p_workers s2).

Lemma map_eq_nth_error {A B} (f : A -> B) l1 l2 k : map f l1 = map f l2 -> option_map f (nth_error l1 k) = option_map f (nth_error l2 k).
Proof. intros H. rewrite <- !nth_error_map. rewrite H. reflexivity. Qed.

Lemma same_forallb (l1 l2 : list worker) : map shapeW l1 = map shapeW l2 -> forallb w_done l1 = forallb w_done l2.
Proof.
  revert l2. induction l1 as [|a l1 IH]; intros [|b l2] H; try discriminate; [reflexivity|]. injection H as H1 H2 H3 H4 H5.
  cbn [forallb]. rewrite H4. f_equal. apply IH. exact H5.
Qed.

Lemma map_set_nth_ext (l1 l2 : list worker) k a b : map shapeW l1 = map shapeW l2 -> shapeW a = shapeW b ->
  map shapeW (set_nth l1 k a) = map shapeW (set_nth l2 k b).
Proof. intros H E. rewrite !map_set_nth, H, E. reflexivity. Qed.

(** the positions that draw randomness along a schedule, in order *)
Fixpoint traceDraws (secret : list byte) (parts : nat) (degree : byte) (xs : list byte) (stream : nat -> byte)
         (sched : list nat) (s : pstate) : list nat :=
  match sched with
  | [] => []
  | th :: rest =>
    match pstep secret parts degree xs stream th s with
    | Next s1 => drawsOfTh th s ++ traceDraws secret parts degree xs stream rest s1
    | _ => []
    end
  end.

Section Shape.
  Variables (sec1 sec2 : list byte) (parts : nat) (degree : byte) (xs : list byte) (str1 str2 : nat -> byte).
  Hypothesis Hdeg : b2i degree < 255.
  Hypothesis Hxs : parts <= length xs.
  Hypothesis Hlen : length sec1 = length sec2.
  Hypothesis Hsmall : (secretLen sec1 <= 4294967296 - 1024)%N.

  Lemma secretLen_eq : secretLen sec1 = secretLen sec2.
  Proof. unfold secretLen. rewrite Hlen. reflexivity. Qed.

  Lemma main_shape s1 s2 s1' dr : same_shape s1 s2 -> Inv sec2 parts degree xs str2 s2 dr ->
    mainStep sec1 s1 = Next s1' -> exists s2', mainStep sec2 s2 = Next s2' /\ same_shape s1' s2'.
  Proof.
    intros (Em & Ew) I2. unfold mainStep. rewrite <- Em. rewrite <- secretLen_eq, <- (same_forallb _ _ Ew). destruct (p_main s1) as [i| |].
    - destruct (i <? secretLen sec1)%N eqn:Hi.
      + cbv zeta. assert (Ec : chunkEnd sec2 i = chunkEnd sec1 i) by (unfold chunkEnd; rewrite secretLen_eq; reflexivity). rewrite Ec.
        unfold slice. rewrite <- Hlen. destruct (_ && _)%bool; cbn [crashOr]; [|discriminate].
        intros E; injection E as <-. eexists. split; [reflexivity|]. split; cbn [p_main p_workers]; [reflexivity|].
        rewrite !map_app, Ew. f_equal. unfold shapeW. cbn. rewrite !firstn_length, !skipn_length, Hlen. reflexivity.
      + intros E; injection E as <-. eexists. split; [reflexivity|]. split; cbn; [reflexivity|exact Ew].
    - destruct (forallb _ _); [|discriminate]. intros E; injection E as <-. eexists. split; [reflexivity|]. split; cbn; [reflexivity|exact Ew].
    - discriminate.
  Qed.

  Lemma worker_shape s1 s2 s1' dr k : same_shape s1 s2 -> Inv sec2 parts degree xs str2 s2 dr ->
    workerStep parts degree xs str1 k s1 = Next s1' ->
    exists s2', workerStep parts degree xs str2 k s2 = Next s2' /\ same_shape s1' s2'.
  Proof.
    intros (Em & Ew) I2. pose proof (worker_step _ _ _ _ _ Hdeg Hxs _ _ k I2) as W2. revert W2. unfold workerStep.
    pose proof (map_eq_nth_error _ _ _ k Ew) as Ek.
    destruct (nth_error (p_workers s1) k) as [w1|] eqn:Hk1; [|discriminate].
    destruct (nth_error (p_workers s2) k) as [w2|] eqn:Hk2; [|discriminate].
    cbn [option_map] in Ek. assert (Ek' : shapeW w1 = shapeW w2) by congruence. clear Ek. unfold shapeW in Ek'.
    injection Ek' as E1 E2 E3 E4. rewrite <- E4. destruct (w_done w1) eqn:Hd1; [discriminate|].
    pose proof (nth_error_lt _ _ _ Hk1) as L1. pose proof (nth_error_lt _ _ _ Hk2) as L2.
    unfold setWorker. destruct (w_cur w1) as [[q1 i1]|] eqn:C1; destruct (w_cur w2) as [[q2 i2]|] eqn:C2; cbn in E3; try discriminate.
    - assert (i1 = i2) by congruence. subst i2. destruct (i1 <? parts).
      + intros W2 H. destruct (do x <- tagOf xs i1; do y <- evaluate q1 x; _) as [o1| | | |]; cbn [crashOr] in H; try discriminate.
        rewrite upd_ok in H by exact L1. cbn [crashOr] in H. injection H as <-.
        destruct (do x <- tagOf xs i1; do y <- evaluate q2 x; _) as [o2| |p2| |]; cbn [crashOr] in W2 |- *;
          try (exfalso; specialize (W2 w2 eq_refl); congruence); try contradiction.
        rewrite upd_ok by exact L2. cbn [crashOr]. eexists. split; [reflexivity|]. split; [exact Em|]. cbn [p_workers].
        apply map_set_nth_ext; [exact Ew|]. unfold shapeW; cbn. rewrite E1, E2. reflexivity.
      + intros _ H. rewrite upd_ok in H by exact L1. cbn [crashOr] in H. injection H as <-.
        rewrite upd_ok by exact L2. cbn [crashOr]. eexists. split; [reflexivity|]. split; [exact Em|]. cbn [p_workers].
        apply map_set_nth_ext; [exact Ew|]. unfold shapeW; cbn. rewrite E1.
        assert (Et : length (tl (w_vals w1)) = length (tl (w_vals w2))) by (destruct (w_vals w1), (w_vals w2); cbn in *; lia).
        rewrite Et. reflexivity.
    - destruct (w_vals w1) as [|v1 r1] eqn:V1; destruct (w_vals w2) as [|v2 r2] eqn:V2; cbn in E2; try discriminate.
      + intros _ H. rewrite upd_ok in H by exact L1. cbn [crashOr] in H. injection H as <-.
        rewrite upd_ok by exact L2. cbn [crashOr]. eexists. split; [reflexivity|]. split; [exact Em|]. cbn [p_workers].
        apply map_set_nth_ext; [exact Ew|]. unfold shapeW; cbn. rewrite E1. reflexivity.
      + intros _ H. rewrite makePolynomial_ok in H by exact Hdeg. rewrite makePolynomial_ok by exact Hdeg. cbn [crashOr] in *.
        rewrite upd_ok in H by exact L1. cbn [crashOr] in H. injection H as <-.
        rewrite upd_ok by exact L2. cbn [crashOr]. eexists. split; [reflexivity|]. split; [exact Em|]. cbn [p_workers].
        apply map_set_nth_ext; [exact Ew|]. unfold shapeW; cbn. rewrite E1. injection E2 as E2. rewrite E2. reflexivity.
  Qed.

  Lemma draws_shape s1 s2 th : same_shape s1 s2 -> drawsOfTh th s1 = drawsOfTh th s2.
  Proof.
    intros (_ & Ew). destruct th as [|k]; [reflexivity|]. cbn [drawsOfTh]. unfold drawsOf. pose proof (map_eq_nth_error _ _ _ k Ew) as Ek.
    destruct (nth_error (p_workers s1) k) as [w1|], (nth_error (p_workers s2) k) as [w2|]; try discriminate; [|reflexivity].
    cbn [option_map] in Ek. assert (Ek' : shapeW w1 = shapeW w2) by congruence. unfold shapeW in Ek'. injection Ek' as E1 E2 E3 E4. rewrite E4, E1.
    destruct (w_done w2); [reflexivity|].
    destruct (w_cur w1) as [[q1 i1]|], (w_cur w2) as [[q2 i2]|]; cbn in E3; try discriminate; [reflexivity|].
    destruct (w_vals w1), (w_vals w2); cbn in E2; try discriminate; reflexivity.
  Qed.

  Lemma exec_shape sched : forall s1 s2 s1' dr, same_shape s1 s2 ->
    Inv sec1 parts degree xs str1 s1 dr -> Inv sec2 parts degree xs str2 s2 dr ->
    execution sec1 parts degree xs str1 s1 sched s1' ->
    exists s2', execution sec2 parts degree xs str2 s2 sched s2' /\ same_shape s1' s2' /\
      Inv sec2 parts degree xs str2 s2' (dr ++ traceDraws sec1 parts degree xs str1 sched s1).
  Proof.
    induction sched as [|th sched IH]; intros s1 s2 s1' dr Hs I1 I2 E.
    - inversion E; subst. exists s2. cbn [traceDraws]. rewrite app_nil_r. split; [constructor|]. auto.
    - inversion E as [|? ? t1 ? ? H1 H2]; subst.
      assert (Hx : exists t2, pstep sec2 parts degree xs str2 th s2 = Next t2 /\ same_shape t1 t2).
      { destruct th as [|k]; cbn [pstep] in *; [eapply main_shape|eapply worker_shape]; eassumption. }
      destruct Hx as (t2 & H3 & Hs').
      pose proof (inv_step _ _ _ _ _ Hdeg Hxs _ _ _ _ I1 H1) as J1. pose proof (inv_step _ _ _ _ _ Hdeg Hxs _ _ _ _ I2 H3) as J2.
      rewrite <- (draws_shape _ _ th Hs) in J2.
      destruct (IH _ _ _ _ Hs' J1 J2 H2) as (s2' & K1 & K2 & K3).
      exists s2'. split; [econstructor; eassumption|]. split; [exact K2|]. cbn [traceDraws]. rewrite H1, app_assoc. exact K3.
  Qed.
End Shape.

(** ** whole calls *)
Definition p32 : nat := N.to_nat 4294967296.

Lemma valid_deg secret parts threshold : valid_args secret parts threshold ->
  b2i (z2b (threshold - 1)) = Z.to_nat threshold - 1 /\ b2i (z2b (threshold - 1)) < 255.
Proof. intros (_ & H2 & H3 & H4). rewrite b2i_z2b by lia. lia. Qed.

Lemma polysP_sharing secret degree stream order tags : NoDup tags ->
  let Nn := N.to_nat (secretLen secret) in
  is_sharing (firstn Nn secret ++ zeros (length secret - Nn)) (S (b2i degree)) (polysP secret degree stream order) tags
    (map (share_at (polysP secret degree stream order)) tags).
Proof.
  intros ND Nn. assert (HN : Nn <= length secret).
  { pose proof (N.mod_le (N.of_nat (length secret)) 4294967296 ltac:(discriminate)). unfold Nn, secretLen, u32. lia. }
  split; [|split; [|split; [exact ND|reflexivity]]].
  - unfold polysP. rewrite map_map. apply nth_ext with (d := x00) (d' := x00).
    { rewrite map_length, seq_length, app_length, firstn_length, zeros_length. lia. }
    intros p Hp. rewrite map_length, seq_length in Hp. rewrite nth_map_seq by exact Hp. unfold polyP. fold Nn.
    destruct (Nat.ltb_spec p Nn).
    + rewrite app_nth1 by (rewrite firstn_length; lia). rewrite nth_firstn by lia. reflexivity.
    + rewrite app_nth2 by (rewrite firstn_length; lia). rewrite !nth_zeros. reflexivity.
  - apply Forall_forall. intros q Hq. unfold polysP in Hq. apply in_map_iff in Hq as (p & <- & _). unfold polyP.
    destruct (_ <? _); [cbn [length]; rewrite take_stream_length; reflexivity|apply zeros_length].
Qed.

Lemma SplitP_ret perm stream secret parts threshold sched shares :
  Permutation perm (seq 0 255) -> SplitP perm stream secret parts threshold sched (Ret shares) ->
  valid_args secret parts threshold /\
  exists order, Permutation order (seq 0 (N.to_nat (secretLen secret))) /\
    shares = map (share_at (polysP secret (z2b (threshold - 1)) stream order)) (tagsOf (Z.to_nat parts) (map i2b perm)).
Proof.
  intros P H. inversion H as [| |out sched' s Ec El Ex Em|]; subst. apply valid_checkArgs in Ec as V. split; [exact V|].
  destruct (perm_coords perm P) as (ND & NF & L255). pose proof V as (Hs & H2 & H3 & H4). destruct (valid_deg _ _ _ V) as (D1 & D2).
  assert (Hx : Z.to_nat parts <= length (map i2b perm)) by lia.
  rewrite layoutRows_ok in El by exact Hx. injection El as <-.
  destruct (inv_exec _ _ _ _ _ D2 Hx _ _ _ Ex [] (inv_init _ _ _ _ _ D2 Hx)) as (order & I).
  exists order. split.
  - apply NoDup_Permutation; [apply (I_nodup _ _ _ _ _ _ _ I)|apply seq_NoDup|]. intros p. rewrite (final_drawn _ _ _ _ _ D2 Hx _ _ I Em), in_seq. lia.
  - apply (final_out _ _ _ _ _ D2 Hx _ _ I Em).
Qed.

Lemma SplitP_panic perm stream secret parts threshold sched p :
  Permutation perm (seq 0 255) -> SplitP perm stream secret parts threshold sched (Panic p) ->
  valid_args secret parts threshold /\ p = PSlice /\ (4294967296 - 1024 < secretLen secret)%N.
Proof.
  intros P H. inversion H as [|q Ec El| |out sched' s th q Ec El Ex Ecr]; subst.
  all: apply valid_checkArgs in Ec as V; split; [exact V|].
  all: destruct (perm_coords perm P) as (ND & NF & L255); pose proof V as (Hs & H2 & H3 & H4); destruct (valid_deg _ _ _ V) as (D1 & D2).
  all: assert (Hx : Z.to_nat parts <= length (map i2b perm)) by lia.
  all: rewrite layoutRows_ok in El by exact Hx.
  - discriminate.
  - injection El as <-.
    destruct (inv_exec _ _ _ _ _ D2 Hx _ _ _ Ex [] (inv_init _ _ _ _ _ D2 Hx)) as (order & I).
    eapply crash_only; [exact D2|exact Hx|exact I|exact Ecr].
Qed.

(** the states a call can be in *)
Definition SplitP_reach perm stream secret parts threshold sched s : Prop :=
  exists out, checkArgs secret parts threshold = None /\
  layoutRows (length secret) (Z.to_nat parts) (map i2b perm) = Ret out /\
  execution secret (Z.to_nat parts) (z2b (threshold - 1)) (map i2b perm) stream (pinit out) sched s.

Definition SplitP_step perm stream secret parts threshold : nat -> pstate -> stepres :=
  pstep secret (Z.to_nat parts) (z2b (threshold - 1)) (map i2b perm) stream.

Lemma reach_inv perm stream secret parts threshold sched s : Permutation perm (seq 0 255) ->
  SplitP_reach perm stream secret parts threshold sched s ->
  exists dr, Inv secret (Z.to_nat parts) (z2b (threshold - 1)) (map i2b perm) stream s dr /\
   b2i (z2b (threshold - 1)) < 255 /\ Z.to_nat parts <= length (map i2b perm).
Proof.
  intros P (out & Ec & El & Ex). apply valid_checkArgs in Ec as V. destruct (perm_coords perm P) as (ND & NF & L255).
  pose proof V as (Hs & H2 & H3 & H4). destruct (valid_deg _ _ _ V) as (D1 & D2).
  assert (Hx : Z.to_nat parts <= length (map i2b perm)) by lia.
  rewrite layoutRows_ok in El by exact Hx. injection El as <-.
  destruct (inv_exec _ _ _ _ _ D2 Hx _ _ _ Ex [] (inv_init _ _ _ _ _ D2 Hx)) as (order & I). exists order. auto.
Qed.

Lemma SplitP_nodeadlock perm stream secret parts threshold sched s : Permutation perm (seq 0 255) ->
  SplitP_reach perm stream secret parts threshold sched s -> p_main s <> MReturned ->
  exists th, SplitP_step perm stream secret parts threshold th s <> Blocked.
Proof. intros P R Hm. destruct (reach_inv _ _ _ _ _ _ _ P R) as (dr & I & D & Hx). eapply progress; eassumption. Qed.

Definition SplitP_bound (secret : list byte) (parts : Z) : nat := length secret * (Z.to_nat parts + 4) + 2.

Lemma SplitP_bounded perm stream secret parts threshold sched s : Permutation perm (seq 0 255) ->
  SplitP_reach perm stream secret parts threshold sched s -> length sched <= SplitP_bound secret parts.
Proof.
  intros P (out & Ec & El & Ex). apply valid_checkArgs in Ec as V. destruct (perm_coords perm P) as (ND & NF & L255).
  pose proof V as (Hs & H2 & H3 & H4). destruct (valid_deg _ _ _ V) as (D1 & D2).
  assert (Hx : Z.to_nat parts <= length (map i2b perm)) by lia.
  rewrite layoutRows_ok in El by exact Hx. injection El as <-.
  pose proof (exec_bounded _ _ _ _ _ D2 Hx _ _ _ Ex [] (inv_init _ _ _ _ _ D2 Hx)) as B.
  unfold measure at 2 in B. unfold pinit in B. cbn [p_main p_workers map list_sum fold_right mm] in B. change (N.to_nat 0) with 0 in B. rewrite Nat.sub_0_r in B.
  unfold SplitP_bound. pose proof (N.mod_le (N.of_nat (length secret)) 4294967296 ltac:(discriminate)).
  assert (N.to_nat (secretLen secret) <= length secret) by (unfold secretLen, u32; lia). nia.
Qed.

(** every reachable state can be run to a return, when the length arithmetic does not overflow *)
Lemma SplitP_completes_from perm stream secret parts threshold n : Permutation perm (seq 0 255) ->
  (secretLen secret <= 4294967296 - 1024)%N ->
  forall sched s, SplitP_reach perm stream secret parts threshold sched s -> SplitP_bound secret parts - length sched <= n ->
  exists sched' shares, SplitP perm stream secret parts threshold (sched ++ sched') (Ret shares).
Proof.
  intros P Hs. induction n as [|n IH]; intros sched s R Hn.
  all: destruct (reach_inv _ _ _ _ _ _ _ P R) as (dr & I & D & Hx).
  all: assert (Case : p_main s = MReturned \/ p_main s <> MReturned) by (destruct (p_main s); [right|right|left]; congruence).
  all: destruct Case as [Em|Em]; [exists [], (p_out s); rewrite app_nil_r; destruct R as (out & Ec & El & Ex); econstructor; eassumption|].
  all: destruct (SplitP_nodeadlock _ _ _ _ _ _ _ P R Em) as (th & Hth).
  all: destruct (SplitP_step perm stream secret parts threshold th s) as [|s'|p] eqn:Es; [congruence| |
     exfalso; apply (crash_only _ _ _ _ _ D Hx _ _ _ _ I) in Es; lia].
  all: assert (R' : SplitP_reach perm stream secret parts threshold (sched ++ [th]) s')
     by (destruct R as (out & Ec & El & Ex); exists out; split; [exact Ec|]; split; [exact El|]; eapply execution_app; [exact Ex|];
         econstructor; [exact Es|constructor]).
  all: pose proof (SplitP_bounded _ _ _ _ _ _ _ P R') as B; rewrite app_length in B; cbn [length] in B.
  - lia.
  - destruct (IH _ _ R') as (sched' & shares & E); [rewrite app_length; cbn [length]; lia|].
    exists (th :: sched'), shares. rewrite <- app_assoc in E. exact E.
Qed.

(** ** the schedule alone determines which position gets which random bytes *)
Lemma SplitPRun_order perm stream secret parts threshold sched shares :
  Permutation perm (seq 0 255) -> (secretLen secret <= 4294967296 - 1024)%N ->
  SplitPRun perm stream secret parts threshold sched = Some (Ret shares) ->
  exists order, Permutation order (seq 0 (N.to_nat (secretLen secret))) /\
    forall stream' secret', length secret' = length secret ->
     SplitPRun perm stream' secret' parts threshold sched
     = Some (Ret (map (share_at (polysP secret' (z2b (threshold - 1)) stream' order)) (tagsOf (Z.to_nat parts) (map i2b perm)))).
Proof.
  intros P Hsm H. apply SplitPRun_spec in H. inversion H as [| |out sched' s Ec El Ex Em|]; subst. apply valid_checkArgs in Ec as V.
  destruct (perm_coords perm P) as (ND & NF & L255). pose proof V as (Hs & H2 & H3 & H4). destruct (valid_deg _ _ _ V) as (D1 & D2).
  assert (Hx : Z.to_nat parts <= length (map i2b perm)) by lia.
  rewrite layoutRows_ok in El by exact Hx. injection El as <-.
  set (D := z2b (threshold - 1)) in *. set (X := map i2b perm) in *. set (n := Z.to_nat parts) in *.
  assert (Main : forall stream' secret', length secret' = length secret -> exists s',
     execution secret' n D X stream' (pinit (out0 secret' n X)) sched s' /\ p_main s' = MReturned /\
     Inv secret' n D X stream' s' (traceDraws secret n D X stream sched (pinit (out0 secret n X)))).
  { intros stream' secret' Hl.
    destruct (exec_shape secret secret' n D X stream stream' D2 Hx (eq_sym Hl) Hsm sched (pinit (out0 secret n X)) (pinit (out0 secret' n X)) s [])
      as (s' & E1 & (E2 & _) & E3).
    - split; reflexivity.
    - apply inv_init; assumption.
    - apply inv_init; assumption.
    - exact Ex.
    - exists s'. split; [exact E1|]. split; [congruence|exact E3]. }
  exists (traceDraws secret n D X stream sched (pinit (out0 secret n X))). split.
  - destruct (Main stream secret eq_refl) as (s' & _ & Em' & I').
    apply NoDup_Permutation; [apply (I_nodup _ _ _ _ _ _ _ I')|apply seq_NoDup|]. intros p.
    rewrite (final_drawn _ _ _ _ _ D2 Hx _ _ I' Em'), in_seq. lia.
  - intros stream' secret' Hl. destruct (Main stream' secret' Hl) as (s' & Ex' & Em' & I').
    apply SplitPRun_spec. rewrite <- (final_out _ _ _ _ _ D2 Hx _ _ I' Em').
    apply (SP_return perm stream' secret' parts threshold (out0 secret' n X)); [|apply layoutRows_ok; exact Hx|exact Ex'|exact Em'].
    apply valid_checkArgs. split; [|auto]. intros ->. destruct secret; [congruence|discriminate].
Qed.

Lemma shiftable_polysP (D : byte) order N0 : (N.of_nat N0 < 4294967296)%N -> Permutation order (seq 0 N0) ->
  shiftable (fun s r => polysP s D (stream_of r) order) (b2i D * N0) N0 (S (b2i D)).
Proof.
  intros HN P. assert (Hsl : forall s : list byte, length s = N0 -> N.to_nat (secretLen s) = N0).
  { intros s Ls. unfold secretLen, u32. rewrite Ls, N.mod_small by exact HN. lia. }
  assert (Lo : length order = N0) by (rewrite (Permutation_length P), seq_length; reflexivity).
  assert (Hin : forall p, p < N0 -> nth_error order (posIn p order) = Some p).
  { intros p Hp. apply posIn_spec. apply (Permutation_in p (Permutation_sym P)). apply in_seq. lia. }
  assert (Hpos : forall p, p < N0 -> posIn p order < N0).
  { intros p Hp. rewrite <- Lo. apply nth_error_Some. rewrite Hin by exact Hp. discriminate. }
  assert (Hrow : forall r p, length r = b2i D * N0 -> p < N0 ->
     take_stream (fun m => stream_of r (b2i D * posIn p order + m)) (b2i D) = row (b2i D) r (posIn p order)).
  { intros r p Lr Hp. pose proof (Hpos p Hp). unfold take_stream. rewrite (list_as_map (row (b2i D) r (posIn p order)) x00).
    rewrite row_length by nia. apply map_ext_in. intros m Hm. apply in_seq in Hm. unfold stream_of. rewrite nth_row by lia. reflexivity. }
  split.
  - intros s r Ls Lr. unfold polysP. split; [rewrite map_length, seq_length; exact Ls|].
    apply Forall_forall. intros q Hq. apply in_map_iff in Hq as (p & <- & _). unfold polyP.
    destruct (_ <? _); [cbn [length]; rewrite take_stream_length; reflexivity|apply zeros_length].
  - intros s s' ds Ls Ls' Ld Fd H0.
    set (dl := map (fun j => skipn 1 (nth (nth j order 0) ds [])) (seq 0 N0)).
    assert (Ho : forall j, j < N0 -> nth j order 0 < N0).
    { intros j Hj. assert (In (nth j order 0) order) by (apply nth_In; lia). apply (Permutation_in _ P) in H. apply in_seq in H. lia. }
    assert (Ft : Forall (fun d => length d = b2i D) dl).
    { apply Forall_forall. intros q Hq. apply in_map_iff in Hq as (j & <- & Hj). apply in_seq in Hj. rewrite Forall_forall in Fd.
      rewrite skipn_length, Fd by (apply nth_In; rewrite Ld; apply Ho; lia). lia. }
    assert (Ll : length dl = N0) by (unfold dl; rewrite map_length, seq_length; reflexivity).
    exists (concat dl). split; [rewrite (concat_length (b2i D)) by exact Ft; rewrite Ll; reflexivity|].
    intros r Hr p Hp. unfold polysP. rewrite Ls, Ls'. rewrite !nth_map_seq by exact Hp. unfold polyP. rewrite !Hsl by assumption.
    destruct (Nat.ltb_spec p N0); [|lia]. pose proof (Hpos p Hp) as HpN.
    assert (Lc : length (concat dl) = b2i D * N0) by (rewrite (concat_length (b2i D)) by exact Ft; rewrite Ll; reflexivity).
    assert (Lx : length (xor_bytes r (concat dl)) = b2i D * N0).
    { assert (G : forall a b : list byte, length a = length b -> length (xor_bytes a b) = length a).
      { induction a as [|x a IHa]; intros [|y b] E; try discriminate; [reflexivity|]. cbn. rewrite IHa by (cbn in E; lia). reflexivity. }
      rewrite G; lia. }
    rewrite (Hrow _ p Lx Hp), (Hrow r p Hr Hp).
    rewrite row_xor_bytes, row_concat by (try exact Ft; lia).
    unfold dl. rewrite nth_map_seq by exact HpN. rewrite (nth_error_nth _ _ 0 (Hin p Hp)).
    assert (Lp : length (nth p ds []) = S (b2i D)) by (rewrite Forall_forall in Fd; apply Fd, nth_In; lia).
    rewrite (nth0_split (nth p ds [])) at 2 by (intros E; rewrite E in Lp; cbn in Lp; lia).
    cbn [xor_bytes]. f_equal. rewrite H0 by exact Hp. rewrite <- gadd_assoc', gadd_self, gadd_0_l. reflexivity.
Qed.

Lemma SplitP_secrecy_test perm s s' parts threshold sched is (test : list (list byte) -> bool) :
  Permutation perm (seq 0 255) -> valid_args s parts threshold -> length s = length s' ->
  (N.of_nat (length s) <= 4294967296 - 1024)%N ->
  coalition (Z.to_nat parts) (Z.to_nat threshold) is ->
  count (fun r => match SplitPRun perm (stream_of r) s parts threshold sched with
                  | Some (Ret shares) => test (pick [] shares is) | _ => false end) (all_strings ((Z.to_nat threshold - 1) * length s))
  = count (fun r => match SplitPRun perm (stream_of r) s' parts threshold sched with
                  | Some (Ret shares) => test (pick [] shares is) | _ => false end) (all_strings ((Z.to_nat threshold - 1) * length s)).
Proof.
  intros P V Hl HL (C1 & C2 & C3). destruct (V) as (Hs & H2 & H3 & H4). destruct (valid_deg _ _ _ V) as (D1 & D2).
  assert (Hsl : secretLen s = N.of_nat (length s)) by (unfold secretLen, u32; apply N.mod_small; lia).
  assert (Hsl' : secretLen s' = N.of_nat (length s)) by (unfold secretLen, u32; rewrite <- Hl; apply N.mod_small; lia).
  destruct (perm_coords perm P) as (ND & NF & L255).
  destruct (pick_tags_facts (Z.to_nat parts) (map i2b perm) is) as (N1 & N2); try assumption; [lia|].
  destruct (SplitPRun perm (stream_of []) s parts threshold sched) as [[shares| | | |]|] eqn:E0.
  { destruct (SplitPRun_order perm _ s parts threshold sched shares P ltac:(lia) E0) as (order & Po & Ho).
    rewrite Hsl, Nat2N.id in Po.
    assert (Hpk : forall polys, pick [] (map (share_at polys) (tagsOf (Z.to_nat parts) (map i2b perm))) is
        = map (share_at polys) (pick x00 (tagsOf (Z.to_nat parts) (map i2b perm)) is)).
    { intros polys. apply pick_map. rewrite tagsOf_length by lia. exact C2. }
    set (Q := fun s r => polysP s (z2b (threshold - 1)) (stream_of r) order).
    rewrite (count_ext _ (fun r => test (map (share_at (Q s r)) (pick x00 (tagsOf (Z.to_nat parts) (map i2b perm)) is))))
      by (intros r Hr; rewrite Ho by reflexivity; rewrite Hpk; reflexivity).
    symmetry.
    rewrite (count_ext _ (fun r => test (map (share_at (Q s' r)) (pick x00 (tagsOf (Z.to_nat parts) (map i2b perm)) is))))
      by (intros r Hr; rewrite Ho by (symmetry; exact Hl); rewrite Hpk; reflexivity).
    symmetry. apply (secrecy_count Q _ (length s) (Z.to_nat threshold)); try assumption; try reflexivity; try (symmetry; exact Hl).
    - unfold Q. replace (Z.to_nat threshold) with (S (b2i (z2b (threshold - 1)))) by lia.
      replace (S (b2i (z2b (threshold - 1))) - 1) with (b2i (z2b (threshold - 1))) by lia. apply shiftable_polysP; [lia|exact Po].
    - rewrite pick_length. exact C3. }
  all: assert (None1 : forall st sec sh, length sec = length s -> SplitPRun perm st sec parts threshold sched <> Some (Ret sh));
    [intros st sec sh Hsec F; assert (Hs3 : (secretLen sec <= 4294967296 - 1024)%N) by (unfold secretLen, u32; rewrite Hsec, N.mod_small; lia);
     destruct (SplitPRun_order perm _ sec parts threshold sched sh P Hs3 F) as (order & _ & Ho);
     rewrite (Ho (stream_of []) s (eq_sym Hsec)) in E0; discriminate|].
  all: rewrite (count_ext _ (fun _ => false)) by (intros r Hr; destruct (SplitPRun perm (stream_of r) s parts threshold sched) as [[sh| | | |]|] eqn:F; try reflexivity;
        exfalso; exact (None1 _ _ _ eq_refl F)).
  all: symmetry; rewrite (count_ext _ (fun _ => false)) by (intros r Hr; destruct (SplitPRun perm (stream_of r) s' parts threshold sched) as [[sh| | | |]|] eqn:F; try reflexivity;
        exfalso; exact (None1 _ _ _ (eq_sym Hl) F)).
  all: reflexivity.
Qed.

(** ** the 32-bit overflow *)
Lemma spawn_bound_step secret parts degree xs stream s drawn th s' : b2i degree < 255 -> parts <= length xs ->
  Inv secret parts degree xs stream s drawn -> (N.of_nat (1024 * length (p_workers s)) < 4294967296)%N ->
  pstep secret parts degree xs stream th s = Next s' -> (N.of_nat (1024 * length (p_workers s')) < 4294967296)%N.
Proof.
  intros Hdeg Hxs I B H. destruct th as [|k]; cbn [pstep] in H.
  - unfold mainStep in H. pose proof (I_main _ _ _ _ _ _ _ I) as Hm. destruct (p_main s) as [i| |] eqn:Em.
    + destruct (N.ltb_spec i (secretLen secret)) as [Hi|Hi]; [|injection H as <-; exact B].
      cbv zeta in H. unfold slice in H. destruct (_ && _)%bool eqn:Eb in H; [|discriminate]. cbn [crashOr] in H. injection H as <-.
      cbn [p_workers]. rewrite app_length. cbn [length]. apply andb_true_iff in Eb as [B1 _]. apply Nat.leb_le in B1.
      assert (HW : N.to_nat i = 1024 * length (p_workers s)) by lia.
      destruct (chunkEnd_eq secret parts degree xs Hdeg Hxs (length (p_workers s)) ltac:(lia)) as (_ & C2).
      assert (Ei : N.of_nat (1024 * length (p_workers s)) = i) by lia. rewrite Ei in C2.
      replace (length (p_workers s) + 1) with (S (length (p_workers s))) by lia.
      destruct (N.lt_ge_cases (N.of_nat (1024 * S (length (p_workers s)))) 4294967296) as [|Hge]; [assumption|].
      specialize (C2 Hge). rewrite C2 in B1. change (N.to_nat 0) with 0 in B1.
      assert (Hl0 : length (p_workers s) = 0) by lia. rewrite Hl0 in Hge |- *. cbn in Hge |- *. lia.
    + destruct (forallb _ _); [|discriminate]. injection H as <-. exact B.
    + discriminate.
  - unfold workerStep in H. destruct (nth_error (p_workers s) k) as [w|] eqn:Hk; [|discriminate].
    pose proof (nth_error_lt _ _ _ Hk) as Hlt. destruct (w_done w); [discriminate|].
    assert (G : forall nw rp out, setWorker s k nw rp out = Next s' -> length (p_workers s') = length (p_workers s)).
    { intros nw rp out E. unfold setWorker in E. rewrite upd_ok in E by exact Hlt. cbn [crashOr] in E. injection E as <-.
      cbn [p_workers]. apply set_nth_length. exact Hlt. }
    assert (E : length (p_workers s') = length (p_workers s)); [|rewrite E; exact B].
    destruct (w_cur w) as [[q i]|].
    + destruct (i <? parts); [|eapply G, H]. destruct (do x <- tagOf xs i; _); cbn [crashOr] in H; try discriminate. eapply G, H.
    + destruct (w_vals w); [eapply G, H|]. destruct (makePolynomial _ _ _); cbn [crashOr] in H; try discriminate. eapply G, H.
Qed.

Lemma spawn_bound secret parts degree xs stream : b2i degree < 255 -> parts <= length xs -> forall s sched s',
  execution secret parts degree xs stream s sched s' -> forall drawn,
  Inv secret parts degree xs stream s drawn -> (N.of_nat (1024 * length (p_workers s)) < 4294967296)%N ->
  (N.of_nat (1024 * length (p_workers s')) < 4294967296)%N.
Proof.
  intros Hdeg Hxs s sched s' H. induction H as [|s th s1 sched s' H _ IH]; intros drawn I B; [exact B|].
  eapply IH; [eapply inv_step; eassumption|]. eapply spawn_bound_step; eassumption.
Qed.

Lemma SplitP_ret_small perm stream secret parts threshold sched shares : Permutation perm (seq 0 255) ->
  SplitP perm stream secret parts threshold sched (Ret shares) -> (secretLen secret <= 4294967296 - 1024)%N.
Proof.
  intros P H. inversion H as [| |out sched' s Ec El Ex Em|]; subst. apply valid_checkArgs in Ec as V.
  destruct (perm_coords perm P) as (ND & NF & L255). pose proof V as (Hs & H2 & H3 & H4). destruct (valid_deg _ _ _ V) as (D1 & D2).
  assert (Hx : Z.to_nat parts <= length (map i2b perm)) by lia.
  rewrite layoutRows_ok in El by exact Hx. injection El as <-.
  destruct (inv_exec _ _ _ _ _ D2 Hx _ _ _ Ex [] (inv_init _ _ _ _ _ D2 Hx)) as (order & I).
  pose proof (spawn_bound _ _ _ _ _ D2 Hx _ _ _ Ex [] (inv_init _ _ _ _ _ D2 Hx)) as B.
  specialize (B ltac:(reflexivity)). pose proof (I_main _ _ _ _ _ _ _ I) as Hm. rewrite Em in Hm.
  replace (N.of_nat (1024 * length (p_workers s))) with (1024 * N.of_nat (length (p_workers s)))%N in B by lia.
  lia.
Qed.

(** every reachable state leads to an outcome of the call *)
Lemma SplitP_completes perm stream secret parts threshold n : Permutation perm (seq 0 255) ->
  forall sched s, SplitP_reach perm stream secret parts threshold sched s -> SplitP_bound secret parts - length sched <= n ->
  exists sched' o, SplitP perm stream secret parts threshold (sched ++ sched') o.
Proof.
  intros P. induction n as [|n IH]; intros sched s R Hn.
  all: assert (Case : p_main s = MReturned \/ p_main s <> MReturned) by (destruct (p_main s); [right|right|left]; congruence).
  all: destruct Case as [Em|Em]; [exists [], (Ret (p_out s)); rewrite app_nil_r; destruct R as (out & Ec & El & Ex); econstructor; eassumption|].
  all: destruct (SplitP_nodeadlock _ _ _ _ _ _ _ P R Em) as (th & Hth).
  all: destruct (SplitP_step perm stream secret parts threshold th s) as [|s'|p] eqn:Es; [congruence| |
     exists [th], (Panic p); destruct R as (out & Ec & El & Ex); econstructor; eassumption].
  all: assert (R' : SplitP_reach perm stream secret parts threshold (sched ++ [th]) s')
     by (destruct R as (out & Ec & El & Ex); exists out; split; [exact Ec|]; split; [exact El|]; eapply execution_app; [exact Ex|];
         econstructor; [exact Es|constructor]).
  all: pose proof (SplitP_bounded _ _ _ _ _ _ _ P R') as B; rewrite app_length in B; cbn [length] in B.
  - lia.
  - destruct (IH _ _ R') as (sched' & o & E); [rewrite app_length; cbn [length]; lia|].
    exists (th :: sched'), o. rewrite <- app_assoc in E. exact E.
Qed.

Lemma SplitP_start perm stream secret parts threshold : Permutation perm (seq 0 255) -> valid_args secret parts threshold ->
  exists s, SplitP_reach perm stream secret parts threshold [] s.
Proof.
  intros P V. destruct (perm_coords perm P) as (ND & NF & L255). pose proof V as (Hs & H2 & H3 & H4).
  eexists. exists (out0 secret (Z.to_nat parts) (map i2b perm)). split; [apply valid_checkArgs, V|].
  split; [apply layoutRows_ok; lia|]. constructor.
Qed.

Lemma SplitP_fail perm stream secret parts threshold sched o : arg_error secret parts threshold o -> 
  SplitP perm stream secret parts threshold sched (Fail o) <-> sched = [].
Proof.
  intros A. apply checkArgs_Some in A. split.
  - intros H. inversion H; reflexivity.
  - intros ->. constructor. exact A.
Qed.

Lemma SplitP_outcomes perm stream secret parts threshold sched o : Permutation perm (seq 0 255) ->
  SplitP perm stream secret parts threshold sched o ->
  (exists e, o = Fail e /\ arg_error secret parts threshold e) \/
  (o = Panic PSlice /\ valid_args secret parts threshold /\ (4294967296 - 1024 < secretLen secret)%N) \/
  (exists sh, o = Ret sh /\ valid_args secret parts threshold /\ (secretLen secret <= 4294967296 - 1024)%N).
Proof.
  intros P H. destruct o as [sh|e|p| |].
  - right; right. exists sh. split; [reflexivity|]. split; [apply (SplitP_ret _ _ _ _ _ _ _ P H)|]. eapply SplitP_ret_small; eassumption.
  - left. exists e. split; [reflexivity|]. inversion H; subst. apply checkArgs_Some. assumption.
  - right; left. destruct (SplitP_panic _ _ _ _ _ _ _ P H) as (V & -> & B). auto.
  - inversion H.
  - inversion H.
Qed.
