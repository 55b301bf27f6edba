(** Proofs for the theorems about math/rand: words and bytes, equality of polynomials, counting of seeds. *)
From Coq Require Import List NArith ZArith Lia Arith Bool Permutation.
From Coq.Init Require Import Byte.
From Verif Require Import GoSem Bytes Spec SpecRand GF PolyFacts GoFacts Vector Csprng Pool Polynomial Shamir Libs Krawczyk Worker
  PolynomialFacts SplitFacts CombineFacts Secrecy Derived MathRand MathRandFacts.
Import ListNotations.

(** ** words and bytes *)
Lemma bytes7 x n : fold_right (fun k acc => (b2n (n2b (x / 256 ^ N.of_nat k)) + 256 * acc)%N) 0%N (seq n 7)
  = ((x / 256 ^ N.of_nat n) mod 2 ^ 56)%N.
Proof.
  assert (G : forall m n, fold_right (fun k acc => (b2n (n2b (x / 256 ^ N.of_nat k)) + 256 * acc)%N) 0%N (seq n m)
    = ((x / 256 ^ N.of_nat n) mod 256 ^ N.of_nat m)%N).
  { induction m as [|m IH]; intros k; cbn [seq fold_right].
    - change (256 ^ N.of_nat 0)%N with 1%N. rewrite N.mod_1_r. reflexivity.
    - rewrite IH, b2n_n2b. rewrite !Nat2N.inj_succ, !N.pow_succ_r'.
      rewrite N.mod_mul_r by (try apply N.pow_nonzero; discriminate).
      rewrite N.div_div by (try apply N.pow_nonzero; discriminate). rewrite (N.mul_comm (256 ^ N.of_nat k) 256). reflexivity. }
  apply G.
Qed.

Lemma word56_out r n : r_pos r = 0 -> word56 (rngStream r) n = (out r n mod 2 ^ 56)%N.
Proof.
  intros H. unfold word56. transitivity (fold_right (fun k acc => (b2n (n2b (out r n / 256 ^ N.of_nat k)) + 256 * acc)%N) 0%N (seq 0 7)).
  - cbn [seq fold_right]. rewrite !stream_word by (try exact H; lia). reflexivity.
  - rewrite bytes7. change (256 ^ N.of_nat 0)%N with 1%N. rewrite N.div_1_r. reflexivity.
Qed.

Lemma mod64_56 x : ((x mod 2 ^ 64) mod 2 ^ 56 = x mod 2 ^ 56)%N.
Proof.
  change (2 ^ 64)%N with (2 ^ 56 * 2 ^ 8)%N. rewrite N.mod_mul_r by discriminate.
  rewrite (N.mul_comm (2 ^ 56) (_ mod 2 ^ 8)), N.mod_add by discriminate. apply N.mod_mod. discriminate.
Qed.

Lemma word56_rec r n : rng_wf r -> r_pos r = 0 -> 607 <= n ->
  word56 (rngStream r) n = ((word56 (rngStream r) (n - 607) + word56 (rngStream r) (n - 273)) mod 2 ^ 56)%N.
Proof.
  intros W P H. rewrite !word56_out by exact P. rewrite (out_rec r n W H), mod64_56.
  rewrite N.add_mod by discriminate. reflexivity.
Qed.

Lemma word56_byte s n k : k < 7 -> s (7 * n + k) = n2b (word56 s n / 256 ^ N.of_nat k).
Proof.
  intros Hk.
  assert (G : forall m a (f : nat -> byte), k < m ->
    f (a + k) = n2b (fold_right (fun k acc => (b2n (f k) + 256 * acc)%N) 0%N (seq a m) / 256 ^ N.of_nat k)).
  { clear Hk. induction k as [|k IH]; intros [|m] a f Hm; try lia; cbn [seq fold_right].
    - change (256 ^ N.of_nat 0)%N with 1%N. rewrite N.div_1_r, Nat.add_0_r, <- n2b_mod.
      rewrite (N.mul_comm 256), N.mod_add by discriminate. rewrite n2b_mod. symmetry. apply n2b_b2n.
    - rewrite Nat2N.inj_succ, N.pow_succ_r', <- N.div_div by (try apply N.pow_nonzero; discriminate).
      rewrite (N.mul_comm 256 (fold_right _ _ _)), N.div_add by discriminate.
      rewrite (N.div_small (b2n _)) by apply b2n_lt. rewrite N.add_0_l.
      replace (a + S k) with (S a + k) by lia. apply IH. lia. }
  apply (G 7 0 (fun k => s (7 * n + k))). exact Hk.
Qed.

(** a stream is determined by its first 607 words *)
Lemma stream_determined r r' : rng_wf r -> rng_wf r' -> r_pos r = 0 -> r_pos r' = 0 ->
  (forall i, i < 4249 -> rngStream r i = rngStream r' i) -> forall i, rngStream r i = rngStream r' i.
Proof.
  intros W W' P P' H.
  assert (E : forall n, word56 (rngStream r) n = word56 (rngStream r') n).
  { intros n. induction n as [n IH] using lt_wf_ind. destruct (Nat.lt_ge_cases n 607) as [Hn|Hn].
    - unfold word56. cbn [seq fold_right]. rewrite !H by lia. reflexivity.
    - rewrite (word56_rec r n), (word56_rec r' n) by assumption. rewrite !IH by lia. reflexivity. }
  intros i. rewrite (Nat.div_mod i 7) by lia. pose proof (Nat.mod_upper_bound i 7 ltac:(lia)).
  rewrite (word56_byte (rngStream r)), (word56_byte (rngStream r')) by assumption. rewrite E. reflexivity.
Qed.

Lemma stream_determined_pos r r' : rng_wf r -> rng_wf r' -> r_pos r = r_pos r' ->
  (forall i, i < r_pos r + 4249 -> rngStream r i = rngStream r' i) -> forall i, rngStream r i = rngStream r' i.
Proof.
  intros W W' P H i. destruct (Nat.lt_ge_cases i (r_pos r)) as [Hi|Hi]; [apply H; lia|].
  assert (E : forall q, r_pos q <= i -> rngStream q i = rngStream (rngSkip (r_pos q) q) (i - r_pos q)).
  { intros q Hq. rewrite <- stream_after. f_equal. lia. }
  rewrite (E r), (E r') by lia. rewrite <- P.
  apply stream_determined; try apply wf_skip; try assumption; [apply pos_after|rewrite P; apply pos_after|].
  intros k Hk. rewrite <- stream_after. rewrite H by lia. rewrite P, stream_after. reflexivity.
Qed.

Lemma badd_n2b x y : badd (n2b x) (n2b y) = n2b (x + y).
Proof. apply b2n_inj. unfold badd. rewrite !b2n_n2b. symmetry. apply N.add_mod. discriminate. Qed.
Lemma n2b_mod2p56 x : n2b (x mod 2 ^ 56) = n2b x.
Proof.
  rewrite <- (n2b_mod (_ mod _)), <- (n2b_mod x). f_equal. change (2 ^ 56)%N with (256 * 2 ^ 48)%N.
  rewrite N.mod_mul_r by discriminate. rewrite (N.mul_comm 256 (_ mod _)), N.mod_add by discriminate. apply N.mod_mod. discriminate.
Qed.

(** byte 0 of word n from words that lie an even number of places back *)
Lemma byte0_rec r n : rng_wf r -> r_pos r = 0 -> 1214 <= n ->
  rngStream r (7 * n) = badd (badd (rngStream r (7 * (n - 1214))) (badd (rngStream r (7 * (n - 880))) (rngStream r (7 * (n - 880)))))
                             (rngStream r (7 * (n - 546))).
Proof.
  intros W P H.
  assert (B : forall m, rngStream r (7 * m) = n2b (word56 (rngStream r) m)).
  { intros m. pose proof (word56_byte (rngStream r) m 0 ltac:(lia)) as Q. rewrite Nat.add_0_r in Q.
    change (256 ^ N.of_nat 0)%N with 1%N in Q. rewrite N.div_1_r in Q. exact Q. }
  rewrite !B. rewrite (word56_rec r n W P ltac:(lia)), (word56_rec r (n - 607) W P ltac:(lia)), (word56_rec r (n - 273) W P ltac:(lia)).
  replace (n - 607 - 607) with (n - 1214) by lia. replace (n - 607 - 273) with (n - 880) by lia.
  replace (n - 273 - 607) with (n - 880) by lia. replace (n - 273 - 273) with (n - 546) by lia.
  generalize (word56 (rngStream r) (n - 1214)) (word56 (rngStream r) (n - 880)) (word56 (rngStream r) (n - 546)). intros a b c.
  rewrite !badd_n2b, !n2b_mod2p56, <- badd_n2b, !n2b_mod2p56, badd_n2b. f_equal. lia.
Qed.

(** ** polynomials that agree at enough points are equal *)
Definition nonzero_bytes : list byte := remove byte_eq_dec x00 all_bytes.
Lemma remove_facts (a0 : byte) l : NoDup l -> NoDup (remove byte_eq_dec a0 l) /\ forall x, In x (remove byte_eq_dec a0 l) -> x <> a0.
Proof.
  intros ND. split; [|intros x H; apply in_remove in H; apply H].
  revert ND. induction l as [|a l IH]; intros H; cbn; [constructor|]. inversion H; subst. destruct (byte_eq_dec a0 a); [apply IH; assumption|].
  constructor; [|apply IH; assumption]. intros F. apply in_remove in F as [F _]. contradiction.
Qed.
Lemma nonzero_bytes_length : length nonzero_bytes = 255.
Proof. vm_cast_no_check (eq_refl 255). Qed.
Lemma nonzero_bytes_nd : NoDup nonzero_bytes /\ forall x, In x nonzero_bytes -> x <> x00.
Proof. exact (remove_facts x00 all_bytes all_bytes_NoDup). Qed.
Lemma nonzero_bytes_facts : NoDup nonzero_bytes /\ length nonzero_bytes = 255 /\ forall x, In x nonzero_bytes -> x <> x00.
Proof. destruct nonzero_bytes_nd as [A B]. pose proof nonzero_bytes_length as L. generalize dependent nonzero_bytes. intros l A B L. exact (conj A (conj L B)). Qed.

Lemma coefs_zero p : length p <= 255 -> (forall x, x <> x00 -> heval p x = x00) -> forall c, nth c p x00 = x00.
Proof.
  destruct nonzero_bytes_facts as (ND & L & NZ).
  induction p as [|a p IH]; intros Hl H c; [destruct c; reflexivity|]. cbn [length] in Hl.
  assert (Z : forall x, heval (a :: p) x = x00).
  { apply (roots_zero nonzero_bytes); [exact ND|cbn [length]; lia|]. intros x Hx. apply H, NZ, Hx. }
  assert (A : a = x00) by (rewrite <- (Z x00); symmetry; apply heval_0).
  destruct c as [|c]; [exact A|]. cbn [nth]. apply IH; [lia|]. intros x Hx. specialize (Z x). cbn [heval] in Z. rewrite A in Z.
  rewrite gadd_0_l in Z. apply gmul_eq_0 in Z as [Z|Z]; [contradiction|exact Z].
Qed.

Lemma polys_equal p q rs : length p = length q -> length p <= 255 -> NoDup rs -> length p <= length rs ->
  (forall x, In x rs -> heval p x = heval q x) -> p = q.
Proof.
  intros L H255 ND Hl H.
  assert (Lx : length (xor_bytes p q) = length p).
  { clear - L. revert q L. induction p as [|a p IH]; intros [|b q] L; try discriminate; [reflexivity|]. cbn. f_equal. apply IH. cbn in L. lia. }
  assert (Z : forall x, heval (xor_bytes p q) x = x00).
  { apply (roots_zero rs); [exact ND|lia|]. intros x Hx. rewrite heval_xor_bytes by exact L. rewrite (H x Hx). apply gadd_self. }
  assert (C : forall c, nth c (xor_bytes p q) x00 = x00) by (apply coefs_zero; [lia|intros x _; apply Z]).
  clear - L C. revert q L C. induction p as [|a p IH]; intros [|b q] L C; try discriminate; [reflexivity|].
  f_equal; [specialize (C 0); cbn in C; apply (proj1 (gadd_eq_0 _ _)) in C; exact C|].
  apply IH; [cbn in L; lia|]. intros c. apply (C (S c)).
Qed.

(** value, tag and the other coefficients determine the constant term *)
Lemma heval_const a b p x : heval (a :: p) x = heval (b :: p) x -> a = b.
Proof. cbn [heval]. intros H. apply (f_equal (fun v => gadd v (gmul x (heval p x)))) in H. rewrite !gadd_assoc', !gadd_self, !gadd_0_r in H. exact H. Qed.

Lemma heval_snoc p a x : heval (p ++ [a]) x = gadd (heval p x) (gmul (gpow x (length p)) a).
Proof.
  induction p as [|c p IH]; cbn [app heval length gpow]; [rewrite gmul_1_l; ring|]. rewrite IH. ring.
Qed.

(** polynomials with the same leading coefficient need one point less *)
Lemma polys_equal_lead p q rs : length p = length q -> length p <= 255 -> NoDup rs -> length p <= S (length rs) ->
  (forall x, In x rs -> heval p x = heval q x) -> nth (length p - 1) p x00 = nth (length p - 1) q x00 -> p = q.
Proof.
  intros L H255 ND Hl H Hlead. destruct p as [|p0 pr] eqn:Ep; [destruct q; [reflexivity|discriminate]|]. rewrite <- Ep in *.
  destruct (exists_last (l := p)) as (p' & a & E1); [rewrite Ep; discriminate|].
  destruct (exists_last (l := q)) as (q' & b & E2); [destruct q; [rewrite Ep in L; discriminate|discriminate]|].
  clear Ep p0 pr. subst p q. rewrite !app_length in *. cbn [length] in *. assert (L' : length p' = length q') by lia.
  replace (length p' + 1 - 1) with (length p') in Hlead by lia. rewrite app_nth2, Nat.sub_diag in Hlead by lia.
  rewrite L', app_nth2, Nat.sub_diag in Hlead by lia. cbn in Hlead. subst b. f_equal.
  apply (polys_equal p' q' rs L'); [lia|exact ND|lia|]. intros x Hx. specialize (H x Hx). rewrite !heval_snoc, L' in H.
  apply (f_equal (fun v => gadd v (gmul (gpow x (length q')) a))) in H. rewrite !gadd_assoc', !gadd_self, !gadd_0_r in H. exact H.
Qed.

(** ** what a run of the split functions with the generator is *)
Lemma seedWords_length cooked : forall x, length (seedWords cooked x) = length cooked.
Proof. induction cooked as [|c cooked IH]; intros x; cbn [seedWords length]; [reflexivity|]. rewrite IH. reflexivity. Qed.

Lemma reach_wf cooked r : length cooked = 607 -> reachable cooked r -> rng_wf r.
Proof.
  intros L H. induction H as [seed|r H IH|r H IH].
  - unfold rng_wf, rngSeed. cbn [r_vec r_feed r_tap r_pos]. rewrite seedWords_length.
    split; [exact L|]. split; [lia|]. split; [reflexivity|lia].
  - apply step_wf. exact IH.
  - apply rngByte_wf. exact IH.
Qed.
Lemma reach_iter cooked r k : reachable cooked r -> reachable cooked (Nat.iter k step r).
Proof. intros H. induction k as [|k IH]; [exact H|]. rewrite iter_S. apply drawn. exact IH. Qed.
Lemma reach_skip cooked r k : reachable cooked r -> reachable cooked (rngSkip k r).
Proof. intros H. induction k as [|k IH]; [exact H|]. change (rngSkip (S k) r) with (snd (rngByte (rngSkip k r))). apply byte_read. exact IH. Qed.

Lemma SplitRand_inv fuel ar growcap polB trB evBufs r secret parts threshold shares r' :
  SplitRand fuel ar growcap polB trB evBufs r secret parts threshold = Ret (shares, r') ->
  valid_args secret parts threshold /\ exists perm r1, rngPerm fuel r 255 = Ret (perm, r1) /\
    Split ar growcap perm (rngStream r1) polB trB evBufs secret parts threshold = Ret shares /\
    r' = rngSkip (Z.to_nat threshold * length secret) r1.
Proof.
  unfold SplitRand. destruct (checkArgs secret parts threshold) eqn:C; [discriminate|]. apply valid_checkArgs in C.
  destruct (rngPerm fuel r 255) as [[perm r1]|e|p| |]; cbn [bind]; try discriminate.
  destruct (Split _ _ _ _ _ _ _ _ _ _) as [out|e|p| |] eqn:E; cbn [bind]; try discriminate. intros H.
  injection H as -> <-. split; [exact C|]. exists perm, r1. split; [reflexivity|]. split; [exact E|reflexivity].
Qed.
Lemma SplitGenericRand_inv fuel r secret parts threshold shares r' :
  SplitGenericRand fuel r secret parts threshold = Ret (shares, r') ->
  valid_args secret parts threshold /\ exists perm r1, rngPerm fuel r 255 = Ret (perm, r1) /\
    SplitGeneric perm (rngStream r1) secret parts threshold = Ret shares /\
    r' = rngSkip ((Z.to_nat threshold - 1) * length secret) r1.
Proof.
  unfold SplitGenericRand. destruct (checkArgs secret parts threshold) eqn:C; [discriminate|]. apply valid_checkArgs in C.
  destruct (rngPerm fuel r 255) as [[perm r1]|e|p| |]; cbn [bind]; try discriminate.
  destruct (SplitGeneric _ _ _ _ _) as [out|e|p| |] eqn:E; cbn [bind]; try discriminate. intros H.
  injection H as -> <-. split; [exact C|]. exists perm, r1. split; [reflexivity|]. split; [exact E|reflexivity].
Qed.

(** the polynomials behind the shares, with the index in the stream of every coefficient *)
Definition sharing_by (u : nat -> byte) (t off step : nat) (secret : list byte) (shares polys : list (list byte)) (tags : list byte) : Prop :=
  is_sharing secret t polys tags shares /\ ~ In x00 tags /\
  forall p c, p < length secret -> 1 <= c < t -> nth c (nth p polys []) x00 = u (step * p + (c - off)).

Lemma SplitRand_polys fuel ar growcap polB trB evBufs r secret parts threshold shares r' : grow_ok growcap ->
  SplitRand fuel ar growcap polB trB evBufs r secret parts threshold = Ret (shares, r') ->
  valid_args secret parts threshold /\ exists k polys tags perm, rngPerm fuel r 255 = Ret (perm, Nat.iter k MathRandFacts.step r) /\
    length tags = Z.to_nat parts /\
    sharing_by (rngStream (Nat.iter k MathRandFacts.step r)) (Z.to_nat threshold) 0 (Z.to_nat threshold) secret shares polys tags.
Proof.
  intros G H. apply SplitRand_inv in H as (V & perm & r1 & EP & ES & _). split; [exact V|].
  destruct (rngPerm_perm _ _ _ _ _ EP) as (P & k & ->).
  destruct (Split_sharing ar growcap perm (rngStream (Nat.iter k MathRandFacts.step r)) polB trB evBufs secret parts threshold G P V)
    as (sh & polys & tags & E' & S & _ & NZ & L & _ & C).
  rewrite ES in E'. injection E' as <-. exists k, polys, tags, perm. split; [exact EP|]. split; [exact L|].
  split; [exact S|]. split; [exact NZ|]. intros p c Hp Hc. rewrite Nat.sub_0_r. apply C; assumption.
Qed.
Lemma SplitGenericRand_polys fuel r secret parts threshold shares r' :
  SplitGenericRand fuel r secret parts threshold = Ret (shares, r') ->
  valid_args secret parts threshold /\ exists k polys tags perm, rngPerm fuel r 255 = Ret (perm, Nat.iter k MathRandFacts.step r) /\
    length tags = Z.to_nat parts /\
    sharing_by (rngStream (Nat.iter k MathRandFacts.step r)) (Z.to_nat threshold) 1 (Z.to_nat threshold - 1) secret shares polys tags.
Proof.
  intros H. apply SplitGenericRand_inv in H as (V & perm & r1 & EP & ES & _). split; [exact V|].
  destruct (rngPerm_perm _ _ _ _ _ EP) as (P & k & ->).
  destruct (SplitGeneric_sharing perm (rngStream (Nat.iter k MathRandFacts.step r)) secret parts threshold P V)
    as (sh & polys & tags & E' & S & _ & NZ & L & _ & C).
  rewrite ES in E'. injection E' as <-. exists k, polys, tags, perm. split; [exact EP|]. split; [exact L|].
  split; [exact S|]. split; [exact NZ|]. exact C.
Qed.

Lemma by_facts u t off st secret shares polys tags : sharing_by u t off st secret shares polys tags ->
  length polys = length secret /\
  (forall p, p < length secret -> length (nth p polys []) = t /\ nth 0 (nth p polys []) x00 = nth p secret x00) /\
  (forall i, i < length tags -> length (nth i shares []) = length secret + 1 /\ tag (nth i shares []) = nth i tags x00 /\
     forall p, p < length secret -> nth p (nth i shares []) x00 = heval (nth p polys []) (nth i tags x00)).
Proof.
  intros ((S1 & S2 & S3 & S4) & NZ & C).
  assert (Lp : length polys = length secret) by (rewrite <- S1, map_length; reflexivity).
  split; [exact Lp|]. split.
  - intros p Hp. rewrite Forall_forall in S2. split; [apply S2, nth_In; lia|].
    rewrite <- S1. rewrite (nth_map' (fun p => nth 0 p x00) polys p x00 []) by lia. reflexivity.
  - intros i Hi. rewrite S4. rewrite (nth_map' (share_at polys) tags i [] x00) by exact Hi.
    split; [rewrite share_at_length, Lp; reflexivity|]. split; [apply tag_share_at|].
    intros p Hp. unfold share_at. rewrite app_nth1 by (rewrite map_length; lia).
    rewrite (nth_map' (fun q => peval q (nth i tags x00)) polys p x00 []) by lia. apply peval_heval.
Qed.

(** two runs seen through the same shares *)
Section TwoRuns.
  Context (t off st : nat) (u1 u2 : nat -> byte) (s1 s2 : list byte) (sh1 sh2 po1 po2 : list (list byte)) (tg1 tg2 : list byte) (is : list nat).
  Hypothesis (B1 : sharing_by u1 t off st s1 sh1 po1 tg1) (B2 : sharing_by u2 t off st s2 sh2 po2 tg2).
  Hypothesis (Ht : 2 <= t <= 255) (LT : length tg1 = length tg2).
  Hypothesis (ND : NoDup is) (Hi : forall i, In i is -> i < length tg1) (Li : S (length is) = t).
  Hypothesis (Eq : pick [] sh1 is = pick [] sh2 is).

  Lemma pick_eq i : In i is -> nth i sh1 [] = nth i sh2 [].
  Proof.
    intros H. unfold pick in Eq. clear - H Eq. induction is as [|j l IH]; [contradiction|]. cbn in Eq.
    injection Eq as E1 E2. destruct H as [->|H]; [exact E1|]. apply IH; [exact E2|exact H].
  Qed.
  Lemma nonempty_is : exists i, In i is.
  Proof. destruct is as [|i l]; [cbn in Li; lia|]. exists i. left. reflexivity. Qed.
  Lemma same_length : length s1 = length s2.
  Proof.
    destruct nonempty_is as (i & H). pose proof (pick_eq i H) as E. specialize (Hi i H).
    destruct (by_facts _ _ _ _ _ _ _ _ B1) as (_ & _ & F1). destruct (by_facts _ _ _ _ _ _ _ _ B2) as (_ & _ & F2).
    destruct (F1 i ltac:(lia)) as (A & _). destruct (F2 i ltac:(lia)) as (A' & _). rewrite E in A. lia.
  Qed.
  Lemma same_tags i : In i is -> nth i tg1 x00 = nth i tg2 x00.
  Proof.
    intros H. pose proof (pick_eq i H) as E. specialize (Hi i H).
    destruct (by_facts _ _ _ _ _ _ _ _ B1) as (_ & _ & F1). destruct (by_facts _ _ _ _ _ _ _ _ B2) as (_ & _ & F2).
    destruct (F1 i ltac:(lia)) as (_ & A & _). destruct (F2 i ltac:(lia)) as (_ & A' & _). rewrite <- A, <- A', E. reflexivity.
  Qed.
  Let rs := pick x00 tg1 is.
  Lemma rs_facts : NoDup rs /\ ~ In x00 rs /\ length rs = t - 1.
  Proof.
    destruct B1 as ((_ & _ & NT & _) & NZ & _). split; [|split].
    - apply pick_NoDup; assumption.
    - intros F. apply in_map_iff in F as (i & E & Hin). apply NZ. rewrite <- E. apply nth_In, Hi, Hin.
    - unfold rs, pick. rewrite map_length. lia.
  Qed.
  Lemma same_values p : p < length s1 -> forall x, In x rs -> heval (nth p po1 []) x = heval (nth p po2 []) x.
  Proof.
    intros Hp x Hx. apply in_map_iff in Hx as (i & <- & Hin). pose proof (pick_eq i Hin) as E. pose proof (Hi i Hin) as Hil.
    destruct (by_facts _ _ _ _ _ _ _ _ B1) as (_ & _ & F1). destruct (by_facts _ _ _ _ _ _ _ _ B2) as (_ & _ & F2).
    destruct (F1 i ltac:(lia)) as (_ & _ & A). destruct (F2 i ltac:(lia)) as (_ & _ & A').
    pose proof same_length as L. specialize (A p Hp). specialize (A' p ltac:(lia)). rewrite E in A. rewrite <- A, A'.
    rewrite (same_tags i Hin). reflexivity.
  Qed.
  (** a known secret byte gives the whole polynomial *)
  Lemma same_poly p : p < length s1 -> nth p s1 x00 = nth p s2 x00 -> nth p po1 [] = nth p po2 [].
  Proof.
    intros Hp Es. destruct rs_facts as (A & B & C). pose proof same_length as L.
    destruct (by_facts _ _ _ _ _ _ _ _ B1) as (_ & P1 & _). destruct (by_facts _ _ _ _ _ _ _ _ B2) as (_ & P2 & _).
    destruct (P1 p Hp) as (L1 & Z1). destruct (P2 p ltac:(lia)) as (L2 & Z2).
    apply (polys_equal _ _ (x00 :: rs)); [lia|lia|constructor; assumption|cbn [length]; lia|].
    intros x [<-|Hx]; [rewrite !heval_0; congruence|]. apply same_values; assumption.
  Qed.
  (** so does a known leading coefficient *)
  Lemma same_poly_lead p : p < length s1 -> nth (t - 1) (nth p po1 []) x00 = nth (t - 1) (nth p po2 []) x00 -> nth p s1 x00 = nth p s2 x00.
  Proof.
    intros Hp El. destruct rs_facts as (A & B & C). pose proof same_length as L.
    destruct (by_facts _ _ _ _ _ _ _ _ B1) as (_ & P1 & _). destruct (by_facts _ _ _ _ _ _ _ _ B2) as (_ & P2 & _).
    destruct (P1 p Hp) as (L1 & Z1). destruct (P2 p ltac:(lia)) as (L2 & Z2).
    rewrite <- Z1, <- Z2. f_equal. apply (polys_equal_lead _ _ rs); [lia|lia|exact A|lia|apply same_values; exact Hp|].
    rewrite L1. exact El.
  Qed.
  (** equal streams give equal secrets *)
  Lemma same_secret : (forall i, u1 i = u2 i) -> s1 = s2.
  Proof.
    intros U. pose proof same_length as L. apply nth_ext with x00 x00; [exact L|]. intros p Hp.
    apply same_poly_lead; [exact Hp|]. destruct B1 as (_ & _ & C1). destruct B2 as (_ & _ & C2).
    rewrite C1, C2 by lia. apply U.
  Qed.
End TwoRuns.

(** the lowest byte of a word, by its place in the stream *)
Lemma stream_low r i n : rng_wf r -> i = r_pos r + 7 * n -> 607 <= n ->
  rngStream r i = badd (rngStream r (i - 4249)) (rngStream r (i - 1911)).
Proof.
  intros W -> Hn. pose (q := rngSkip (r_pos r) r).
  assert (T : forall m, rngStream r (r_pos r + 7 * m) = rngStream q (7 * m)) by (intros m; rewrite Nat.add_comm; apply stream_after).
  replace (r_pos r + 7 * n - 4249) with (r_pos r + 7 * (n - 607)) by lia.
  replace (r_pos r + 7 * n - 1911) with (r_pos r + 7 * (n - 273)) by lia. rewrite !T.
  assert (W' : rng_wf q) by (apply wf_skip, W). assert (P : r_pos q = 0) by apply pos_after. clearbody q.
  assert (B : forall m, rngStream q (7 * m) = n2b (word56 (rngStream q) m)).
  { intros m. pose proof (word56_byte (rngStream q) m 0 ltac:(lia)) as Q. rewrite Nat.add_0_r in Q.
    change (256 ^ N.of_nat 0)%N with 1%N in Q. rewrite N.div_1_r in Q. exact Q. }
  rewrite !B, (word56_rec q n W' P Hn), n2b_mod2p56, badd_n2b. reflexivity.
Qed.
Lemma stream_low2 r i n : rng_wf r -> i = r_pos r + 7 * n -> 1214 <= n ->
  rngStream r i = badd (badd (rngStream r (i - 7 * 1214)) (badd (rngStream r (i - 7 * 880)) (rngStream r (i - 7 * 880)))) (rngStream r (i - 7 * 546)).
Proof.
  intros W -> Hn. pose (q := rngSkip (r_pos r) r).
  assert (T : forall m, rngStream r (r_pos r + 7 * m) = rngStream q (7 * m)) by (intros m; rewrite Nat.add_comm; apply stream_after).
  replace (r_pos r + 7 * n - 7 * 1214) with (r_pos r + 7 * (n - 1214)) by lia.
  replace (r_pos r + 7 * n - 7 * 880) with (r_pos r + 7 * (n - 880)) by lia.
  replace (r_pos r + 7 * n - 7 * 546) with (r_pos r + 7 * (n - 546)) by lia. rewrite !T.
  apply byte0_rec; [apply wf_skip, W|apply pos_after|exact Hn].
Qed.

(** ** how many seeds there are *)
Lemma rel_bound {A} (R : Z -> A -> Prop) (M : nat) (l : list A) : NoDup l ->
  (forall a, In a l -> exists z, (1 <= z <= Z.of_nat M)%Z /\ R z a) -> (forall z a b, R z a -> R z b -> a = b) -> length l <= M.
Proof.
  intros ND H F.
  assert (X : exists zs, length zs = length l /\ NoDup zs /\ (forall z, In z zs -> (1 <= z <= Z.of_nat M)%Z) /\ forall z, In z zs -> exists a, In a l /\ R z a).
  { induction l as [|a l IH]; [exists []; cbn; repeat split; try constructor; contradiction|].
    inversion ND as [|? ? Ha ND']; subst. destruct IH as (zs & L & N & B & K); [exact ND'|intros b Hb; apply H; right; exact Hb|].
    destruct (H a (or_introl eq_refl)) as (z & Bz & Rz). exists (z :: zs). split; [cbn; rewrite L; reflexivity|]. split.
    - constructor; [|exact N]. intros Hz. destruct (K z Hz) as (b & Hb & Rb). rewrite (F z a b Rz Rb) in Ha. contradiction.
    - split; [intros y [<-|Hy]; [exact Bz|apply B, Hy]|]. intros y [<-|Hy]; [exists a; split; [left; reflexivity|exact Rz]|].
      destruct (K y Hy) as (b & Hb & Rb). exists b. split; [right; exact Hb|exact Rb]. }
  destruct X as (zs & L & N & B & _). rewrite <- L.
  replace M with (length (map (fun k => Z.of_nat (S k)) (seq 0 M))) by (rewrite map_length, seq_length; reflexivity).
  apply NoDup_incl_length; [exact N|]. intros z Hz. specialize (B z Hz). apply in_map_iff. exists (Z.to_nat (z - 1)).
  split; [lia|]. apply in_seq. lia.
Qed.

Lemma seedReduce_mod seed : seedReduce seed = if (seed mod 2147483647 =? 0)%Z then 89482311%Z else (seed mod 2147483647)%Z.
Proof.
  unfold seedReduce. set (s := Z.rem seed 2147483647).
  assert (E : ((if s <? 0 then s + 2147483647 else s) = seed mod 2147483647)%Z).
  { pose proof (Z.quot_rem' seed 2147483647) as Q. fold s in Q.
    destruct (Z.le_gt_cases 0 seed) as [H|H].
    - pose proof (Z.rem_bound_pos seed 2147483647 H ltac:(lia)) as B. fold s in B. destruct (Z.ltb_spec s 0); [lia|].
      apply Z.mod_unique_pos with (Z.quot seed 2147483647); lia.
    - pose proof (Z.rem_bound_pos_neg seed 2147483647 ltac:(lia) ltac:(lia)) as B. fold s in B.
      destruct (Z.ltb_spec s 0).
      + apply Z.mod_unique_pos with (Z.quot seed 2147483647 - 1)%Z; lia.
      + apply Z.mod_unique_pos with (Z.quot seed 2147483647); lia. }
  rewrite E. reflexivity.
Qed.
Lemma seedReduce_range seed : (1 <= seedReduce seed <= seed_count)%Z.
Proof.
  rewrite seedReduce_mod. unfold seed_count. pose proof (Z.mod_pos_bound seed 2147483647 ltac:(lia)).
  destruct (Z.eqb_spec (seed mod 2147483647) 0); lia.
Qed.
Lemma seed_count_nat : exists M, Z.of_nat M = seed_count.
Proof. exists (Z.to_nat seed_count). apply Z2Nat.id. unfold seed_count. lia. Qed.
Lemma rngSeed_cong cooked s s' : (s mod 2147483647 = s' mod 2147483647)%Z -> rngSeed cooked s = rngSeed cooked s'.
Proof. intros H. unfold rngSeed. rewrite !seedReduce_mod, H. reflexivity. Qed.

(** a relation between seeds and results that is functional and respects [rngSeed] *)
Lemma seeds_bound {A} (R : Z -> A -> Prop) (l : list A) : NoDup l ->
  (forall a, In a l -> exists seed, R seed a) ->
  (forall s s' a b, seedReduce s = seedReduce s' -> R s a -> R s' b -> a = b) -> (Z.of_nat (length l) <= seed_count)%Z.
Proof.
  intros ND H F. destruct seed_count_nat as (M & EM).
  assert (X : length l <= M).
  { apply (rel_bound (fun z a => exists seed, z = seedReduce seed /\ R seed a)); [exact ND| |].
    - intros a Ha. destruct (H a Ha) as (seed & Hs). exists (seedReduce seed). rewrite EM. split; [apply seedReduce_range|]. exists seed. auto.
    - intros z a b (s & -> & Ra) (s' & E & Rb). exact (F s s' a b E Ra Rb). }
  lia.
Qed.
