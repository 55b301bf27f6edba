(** Results of concurrent calls (C71). *)
From Coq Require Import List NArith ZArith Lia Arith Bool Permutation.
From Coq.Init Require Import Byte.
From Verif Require Import GoSem Bytes Spec SpecKr Vector Csprng Pool Polynomial Shamir SplitP Libs Krawczyk MathRand GoFacts GF VectorFacts PolynomialFacts SplitFacts CombineFacts RegenFacts Secrecy Derived
  MathRandFacts ConcRand SpecConcRand ConcRandFacts ConcRandSecret.
Import ListNotations.

Section Safe.
Context {A : Type} (Q : outcome A -> Prop).
(** whatever the source delivers, the program can only end with an outcome in [Q] *)
Definition safe (n : nat) (p : rprog A) : Prop := rel (fun _ => True) (fun o _ => Q o) n p p.

Lemma safe_read l (k : list byte -> rprog A) : (forall c n, length c = l -> safe n (k c)) -> forall n, safe n (RRead l k).
Proof.
  intros H n. destruct n as [|n]; [exact I|]. unfold safe. rewrite rel_S. split; [reflexivity|]. split; [exact I|].
  exists (zeros l). split; [apply zeros_length|]. intros c Lc. rewrite <- Lc, xor_zeros. apply H. exact Lc.
Qed.
Lemma safe_reads d c : forall l (k : list byte -> rprog A), (forall bytes n, safe n (k bytes)) -> forall n, safe n (rReads c d l k).
Proof. induction c as [|c IH]; intros l k H n; cbn [rReads]; [apply H|]. apply safe_read. intros b m _. apply IH. exact H. Qed.

Lemma safe_lift {X} (o : outcome X) (fin : outcome (list (list byte)) -> rprog A) (k : X -> rprog A) n :
  (forall a, o = Ret a -> safe n (k a)) -> (forall e, o = Fail e -> safe n (fin (Fail e))) -> (forall p, o = Panic p -> safe n (fin (Panic p))) ->
  (o = UB -> safe n (fin UB)) -> (o = Diverge -> safe n (fin Diverge)) -> safe n (rlift o fin k).
Proof. intros. destruct o; cbn [rlift]; auto. Qed.

Definition agrees (u : nat -> byte) (k : nat) (ds : list byte) : Prop := forall i, i < length ds -> u (k + i) = nth i ds x00.

Lemma safe_redraw m (k : byte -> rprog A) : forall n nx,
  (forall ds nx' n', (forall u k0 fuel, agrees u k0 ds -> length ds <= fuel -> redraw fuel u k0 nx m = Ret (nx', k0 + length ds)) -> safe n' (k nx')) ->
  safe n (rRedraw nx m k).
Proof.
  induction n as [|n IH]; intros nx H; [exact I|]. rewrite rRedraw_eq. destruct (mem nx m) eqn:Em.
  - unfold safe. rewrite rel_S. intros x. apply IH. intros ds nx' n' Hd. apply (H (n2b (x / 2 ^ 31) :: ds) nx' n').
    intros u k0 fuel Ha Lf. cbn [length] in *. destruct fuel as [|fuel]; [lia|]. cbn [redraw]. rewrite Em.
    pose proof (Ha 0 ltac:(cbn [length]; lia)) as H0. rewrite Nat.add_0_r in H0. cbn [nth] in H0. rewrite H0.
    rewrite Hd; [f_equal; f_equal; lia| |lia]. intros i Hi. pose proof (Ha (S i) ltac:(cbn [length]; lia)) as Hs. cbn [nth] in Hs. rewrite <- Hs. f_equal. lia.
  - apply (H [] nx (S n)). intros u k0 fuel _ _. cbn [length]. rewrite Nat.add_0_r. destruct fuel; cbn [redraw]; rewrite Em; reflexivity.
Qed.

Lemma agrees_app u k a b : agrees u k (a ++ b) -> agrees u k a /\ agrees u (k + length a) b.
Proof.
  intros H. split; intros i Hi.
  - rewrite (H i) by (rewrite app_length; lia). apply app_nth1. exact Hi.
  - rewrite <- Nat.add_assoc. rewrite (H (length a + i)) by (rewrite app_length; lia). rewrite app_nth2 by lia. f_equal. lia.
Qed.

Lemma safe_dedup l (k : rprog A) : forall m n,
  (forall ds n', (forall u k0 fuel, agrees u k0 ds -> length ds <= fuel -> exists m', foreach l
    (fun nx '(checkMap, k) => do '(nx', k') <- redraw fuel u k nx checkMap; Ret (nx' :: checkMap, k')) (m, k0) = Ret (m', k0 + length ds)) -> safe n' k) ->
  safe n (rDedup m l k).
Proof.
  induction l as [|nx l IH]; intros m n H; cbn [rDedup].
  - apply (H []). intros u k0 fuel _ _. exists m. cbn [foreach length]. rewrite Nat.add_0_r. reflexivity.
  - apply safe_redraw. intros ds nx' n1 H1. apply IH. intros ds2 n2 H2. apply (H (ds ++ ds2)). intros u k0 fuel Ha Lf.
    apply agrees_app in Ha as (A1 & A2). rewrite app_length in Lf. destruct (H2 u (k0 + length ds) fuel A2 ltac:(lia)) as (m' & E).
    exists m'. cbn [foreach]. rewrite (H1 u k0 fuel A1) by lia. cbn [bind]. rewrite E. rewrite app_length. f_equal. f_equal. lia.
Qed.
End Safe.

Lemma take_got l n : length l = n -> take_stream (got l) n = l.
Proof. apply take_stream_of. Qed.

Lemma checkArgs_fail_Split ar growcap perm stream secret parts threshold e : checkArgs secret parts threshold = Some e ->
  Split ar growcap perm stream [] [] (fun _ => []) secret parts threshold = Fail e.
Proof. intros H. unfold Split, SplitBufs. rewrite H. reflexivity. Qed.

Section Calls.
Context {A : Type} (Q : outcome A -> Prop) (b : setup).

Lemma safe_split ar growcap secret parts threshold fin :
  (forall perm stream n, Permutation perm (seq 0 255) -> safe Q n (fin (Split ar growcap perm stream [] [] (fun _ => []) secret parts threshold))) ->
  forall n, safe Q n (rSplit ar growcap secret parts threshold fin).
Proof.
  intros H n. unfold rSplit. destruct (checkArgs secret parts threshold) as [e|] eqn:E.
  - rewrite <- (checkArgs_fail_Split ar growcap (seq 0 255) (fun _ => x00) _ _ _ _ E). apply H. apply Permutation_refl.
  - unfold safe. apply rel_perm. intros perm m P. apply safe_read. intros c m' _. apply H. exact P.
Qed.

Lemma safe_call c (fin : outcome (list (list byte)) -> rprog A) :
  (forall o n, ordinary b c o -> safe Q n (fin o)) -> forall n, safe Q n (rCall b c fin).
Proof.
  intros H n. destruct c as [secret parts threshold|secret parts threshold|sched secret parts threshold|secret parts threshold|shares num|]; cbn [rCall].
  - apply safe_split. intros perm stream m P. apply H. exists perm, stream. split; [exact P|reflexivity].
  - unfold rSplitGeneric. destruct (checkArgs secret parts threshold) as [e|] eqn:E.
    + apply H. exists (seq 0 255), (fun _ => x00). split; [apply Permutation_refl|]. unfold SplitGeneric. rewrite E. reflexivity.
    + unfold safe. apply rel_perm. intros perm m P. apply safe_read. intros l m' _. apply H. exists perm, (got l). split; [exact P|reflexivity].
  - unfold rSplitP. destruct (checkArgs secret parts threshold) as [e|] eqn:E.
    + apply H. cbn [ordinary]. rewrite E. reflexivity.
    + unfold safe. apply rel_perm. intros perm m P. apply safe_reads. intros l m'. apply H. cbn [ordinary]. rewrite E. exists perm, (got l). split; [exact P|].
      destruct (SplitPRun perm (got l) secret parts threshold sched); reflexivity.
  - unfold rKrSplit. destruct (krCheck (length secret) parts threshold) as [e|] eqn:E.
    { apply H. exists (fun _ => x00), (seq 0 255), (fun _ => x00). split; [apply Permutation_refl|]. unfold krSplit, krSplitWith. rewrite E. reflexivity. }
    apply safe_read. intros key m Lk.
    assert (Mk : forall perm stream o, Permutation perm (seq 0 255) ->
       o = krSplit (e_cipher b) (e_zp b) (e_arch b) (e_grow b) (got key) perm stream [] [] (fun _ => []) secret parts threshold ->
       forall n, safe Q n (fin o)).
    { intros perm stream o P Ho n'. apply H. exists (got key), perm, stream. auto. }
    unfold krSplit, krSplitWith in Mk. rewrite E in Mk. rewrite (take_got key LenKey Lk) in Mk.
    assert (Mk0 := Mk (seq 0 255) (fun _ => x00)).
    apply safe_lift; [intros enc E1|intros e E1|intros e E1|intros E1|intros E1]; rewrite E1 in Mk, Mk0; cbn [bind] in Mk, Mk0;
      try (eapply Mk0; [apply Permutation_refl|reflexivity]). clear Mk0.
    destruct (rsNew (e_zp b) threshold (parts - threshold)) as [e|].
    { apply (Mk (seq 0 255) (fun _ => x00)); [apply Permutation_refl|reflexivity]. }
    assert (Mk0 := Mk (seq 0 255) (fun _ => x00)).
    assert (Assoc : forall X Y Z (o : outcome X) (f : X -> outcome Y) (g : Y -> outcome Z), bind (bind o f) g = bind o (fun x => bind (f x) g))
      by (intros X Y Z [] f g; reflexivity).
    set (stage := do encodedSecret <- rsSplit (Z.to_nat threshold) (Z.to_nat parts) enc;
             do encodedSecret <- rsEncode (Z.to_nat threshold) (Z.to_nat parts) encodedSecret;
             foreach (seq 0 (length encodedSecret))
               (fun i enc => do s <- idx enc i; upd enc i (s ++ [i2b i])) encodedSecret).
    assert (Mk1 : forall perm stream o, Permutation perm (seq 0 255) ->
      o = (do encodedSecret <- stage;
           do ssKeyLenPair <- Split (e_arch b) (e_grow b) perm stream [] [] (fun _ => []) (key ++ leBytes LenLen (N.of_nat (length enc) mod 4294967296)%N) parts threshold;
           krAssemble (Z.to_nat parts) ssKeyLenPair encodedSecret) -> forall n, safe Q n (fin o)).
    { intros perm stream o P Ho. apply (Mk perm stream o P). rewrite Ho. unfold stage. rewrite Assoc.
      destruct (rsSplit (Z.to_nat threshold) (Z.to_nat parts) enc); cbn [bind]; try reflexivity. rewrite Assoc. reflexivity. }
    clear Mk Mk0. clearbody stage. assert (Mk0 := Mk1 (seq 0 255) (fun _ => x00)).
    apply safe_lift; [intros enc2 E2|intros e E2|intros e E2|intros E2|intros E2]; rewrite E2 in Mk1, Mk0; cbn [bind] in Mk1, Mk0;
      try (eapply Mk0; [apply Permutation_refl|reflexivity]). clear Mk0.
    apply safe_split. intros perm stream m' P. specialize (Mk1 perm stream).
    apply safe_lift; [intros ms E3|intros e E3|intros e E3|intros E3|intros E3]; rewrite E3 in Mk1; cbn [bind] in Mk1; apply Mk1; auto.
  - unfold rRegenerate. destruct (checkParts shares) as [e|] eqn:E.
    { apply H. exists 0, (fun _ => x00), (fun _ => x00). unfold Regenerate. rewrite E. split; [reflexivity|discriminate]. }
    apply safe_lift; unfold make_len; destruct (Z.ltb_spec num 0) as [Hn|Hn]; try discriminate; intros num' En.
    2:{ apply H. exists 0, (fun _ => x00), (fun _ => x00). unfold Regenerate. rewrite E. unfold make_len. apply Z.ltb_lt in Hn. rewrite Hn. injection En as <-. split; [reflexivity|discriminate]. }
    injection En as <-.
    assert (Mk : forall fuel stream u o, o = Regenerate fuel stream u shares num -> o <> Diverge -> forall n, safe Q n (fin o)).
    { intros fuel stream u o Ho Hd n'. apply H. exists fuel, stream, u. auto. }
    apply checkParts_None in E as Ok. pose proof Ok as (A1 & A2 & A3).
    unfold Regenerate in Mk. rewrite E in Mk. unfold make_len in Mk. destruct (Z.ltb_spec num 0); [lia|]. cbn [bind] in Mk.
    destruct (ListDec.NoDup_dec byte_eq_dec (map tag shares)) as [ND|ND].
    2:{ rewrite collectTags_dup in Mk |- * by (assumption || lia). cbn [bind rlift] in *. apply (Mk 0 (fun _ => x00) (fun _ => x00)); [reflexivity|discriminate]. }
    rewrite collectTags_ok in Mk |- * by (assumption || lia). cbn [bind rlift] in *.
    apply safe_read. intros newXs m Lx. apply safe_dedup. intros ds m' Hd.
    apply (Mk (length ds) (got newXs) (fun i => nth i ds x00)).
    + rewrite (take_got newXs _ Lx). destruct (Hd (fun i => nth i ds x00) 0 (length ds)) as (mm & Em); [intros i _; reflexivity|lia|].
      unfold dedupLoop. rewrite Em. reflexivity.
    + rewrite <- Lx. rewrite (regen_loop shares (length (nth 0 shares [])) newXs) by (assumption || lia). discriminate.
  - apply safe_read. intros l m Ll. apply H. exists l. auto.
Qed.
End Calls.

(** ** clients *)
Definition clientOk (b : setup) (n : nat) (next : outcomes -> option rcall) (o : outcome outcomes) : Prop :=
  exists results l, o = Ret results /\ calls_of next [] results = Some l /\ Forall (fun '(c, o) => ordinary b c o) l /\ client_complete n next results.

Lemma calls_of_app next : forall r d l o c, calls_of next d r = Some l -> next (d ++ r) = Some c -> calls_of next d (r ++ [o]) = Some (l ++ [(c, o)]).
Proof.
  induction r as [|x r IH]; intros d l o c H Hn.
  - injection H as <-. rewrite app_nil_r in Hn. cbn [app calls_of]. rewrite Hn. reflexivity.
  - cbn [calls_of] in H. cbn [app calls_of]. destruct (next d) as [c0|]; [|discriminate].
    destruct (calls_of next (d ++ [x]) r) as [l0|] eqn:E; [|discriminate]. injection H as <-.
    rewrite (IH _ _ o c E); [reflexivity|]. rewrite <- app_assoc. exact Hn.
Qed.

Lemma safe_client b N next : forall k results l, length results + k = N -> calls_of next [] results = Some l -> Forall (fun '(c, o) => ordinary b c o) l ->
  forall n, safe (clientOk b N next) n (rClient b k next results).
Proof.
  induction k as [|k IH]; intros results l HN Hc Ho n; cbn [rClient].
  - destruct n; [exact I|]. unfold safe. rewrite rel_S. exists results, l. split; [reflexivity|]. split; [exact Hc|]. split; [exact Ho|]. left. lia.
  - destruct (next results) as [c|] eqn:En.
    + apply safe_call. intros o m Hord.
      pose proof (calls_of_app next results [] l o c Hc En) as Hc'.
      assert (Ho' : Forall (fun '(c, o) => ordinary b c o) (l ++ [(c, o)])) by (apply Forall_app; split; [exact Ho|constructor; [exact Hord|constructor]]).
      assert (HN' : length (results ++ [o]) + k = N) by (rewrite app_length; cbn [length]; lia).
      destruct o; try (apply (IH _ _ HN' Hc' Ho')); (destruct m; [exact I|]; unfold safe; rewrite rel_S; eexists; eexists; split; [reflexivity|]; split; [eassumption|]; split; [eassumption|];
        right; right; eexists; eexists; split; [reflexivity|]; split; discriminate).
    + destruct n; [exact I|]. unfold safe. rewrite rel_S. exists results, l. split; [reflexivity|]. split; [exact Hc|]. split; [exact Ho|]. right. left. exact En.
Qed.

(** ** runs *)
Definition half {A} (Q : outcome A -> Prop) (n : nat) (p : rprog A) : Prop := exists q, rel (fun _ => True) (fun o _ => Q o) n p q.
Lemma rop_half {A} (Q : outcome A -> Prop) cooked p r p' r' n : rop cooked p r = Some (p', r') -> half Q (S n) p -> half Q n p'.
Proof.
  intros H (q & S). rewrite rel_S in S. destruct p as [o|k|l k|sd k], q as [o'|k'|l' k'|sd' k']; cbn [rop] in H; try contradiction.
  - discriminate.
  - destruct (rngInt63 r) as [x r1]. injection H as <- <-. exists (k' x). apply S.
  - rewrite rngRead_spec in H. injection H as <- <-. destruct S as (_ & _ & mask & Lm & Hk). eexists. apply Hk. apply take_stream_length.
  - injection H as <- <-. exists k'. apply S.
Qed.

Lemma nth_error_set {X} (l : list X) i j a x : nth_error l i = Some x ->
  nth_error (firstn i l ++ a :: skipn (S i) l) j = if j =? i then Some a else nth_error l j.
Proof.
  intros H. assert (Hi : i < length l) by (apply nth_error_Some; congruence).
  destruct (Nat.eqb_spec j i) as [->|Hne].
  - rewrite nth_error_app2 by (rewrite firstn_length; lia). rewrite firstn_length, Nat.min_l, Nat.sub_diag by lia. reflexivity.
  - rewrite <- (firstn_skipn i l) at 3. destruct (Nat.lt_ge_cases j i) as [Hj|Hj].
    + rewrite !nth_error_app1 by (rewrite firstn_length; lia). reflexivity.
    + rewrite !nth_error_app2 by (rewrite firstn_length; lia). rewrite firstn_length, Nat.min_l by lia.
      destruct (skipn i l) as [|y t] eqn:Es; [apply (f_equal (@length X)) in Es; rewrite skipn_length in Es; cbn in Es; lia|].
      assert (Et : skipn (S i) l = t).
      { clear -Es. revert l Es. induction i as [|i IH]; intros l Es; [cbn [skipn] in Es; subst l; reflexivity|]. destruct l as [|z l]; [discriminate|]. apply (IH l Es). }
      rewrite Et. destruct (j - i) as [|d] eqn:Ed; [lia|]. reflexivity.
Qed.

Lemma rrun_half {A} (Q : outcome A -> Prop) cooked s sched s' : rrun cooked s sched s' -> forall i p, nth_error (z_threads s) i = Some p ->
  (forall n, half Q n p) -> exists p', nth_error (z_threads s') i = Some p' /\ forall n, half Q n p'.
Proof.
  intros H. induction H as [s|r ts j p p' r' sched s' Hj Hop Hr IH]; intros i q Hi Hq; [eauto|]. cbn [z_threads] in *.
  destruct (Nat.eq_dec i j) as [->|Hne].
  - rewrite Hj in Hi. injection Hi as <-. apply (IH j p').
    + rewrite (nth_error_set ts j j p' p Hj), Nat.eqb_refl. reflexivity.
    + intros n. eapply rop_half; [exact Hop|apply Hq].
  - apply (IH i q); [|exact Hq]. rewrite (nth_error_set ts j i p' p Hj). destruct (Nat.eqb_spec i j); [contradiction|exact Hi].
Qed.

Lemma client_results b n next cooked s sched s' i o : rrun cooked s sched s' -> nth_error (z_threads s) i = Some (rClient b n next []) ->
  nth_error (z_threads s') i = Some (RDone o) -> clientOk b n next o.
Proof.
  intros H Hi Ho. destruct (rrun_half (clientOk b n next) cooked s sched s' H i _ Hi) as (p' & Hp & Hq).
  - intros m. eexists. apply (safe_client b n next n [] [] eq_refl eq_refl (Forall_nil _) m).
  - rewrite Ho in Hp. injection Hp as <-. destruct (Hq 1) as (q & S). rewrite rel_S in S. destruct q; try contradiction. exact S.
Qed.
