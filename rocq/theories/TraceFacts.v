(** Facts about the access pattern (C66). *)
From Coq Require Import List NArith ZArith Lia Arith Bool.
From Coq.Init Require Import Byte.
From Verif Require Import GoSem Bytes Spec Galois GaloisTables ShamirTables Vector Csprng Pool Polynomial Shamir GoFacts GF VectorFacts PolyFacts PolynomialFacts SplitFacts CombineFacts Asm Trace SpecTrace.
Import ListNotations.
Local Open Scope go_scope.

(** ** erasing the records *)
Lemma fst_tbind {A B} (f : T A) (k : A -> T B) : fst (tbind f k) = bind (fst f) (fun a => fst (k a)).
Proof. unfold tbind. destruct (fst f); reflexivity. Qed.
Lemma bind_ext {A B} (o : outcome A) (k k' : A -> outcome B) : (forall a, k a = k' a) -> bind o k = bind o k'.
Proof. intros H. destruct o; cbn [bind]; auto. Qed.
Lemma foreach_ext {X S} (l : list X) (f g : X -> S -> outcome S) : (forall x s, f x s = g x s) -> forall s, foreach l f s = foreach l g s.
Proof. intros H. induction l as [|x l IH]; intros s; [reflexivity|]. cbn [foreach]. rewrite H. apply bind_ext. exact IH. Qed.
Lemma fst_tforeach {X S} (l : list X) (f : X -> S -> T S) : forall s, fst (tforeach l f s) = foreach l (fun x s => fst (f x s)) s.
Proof. induction l as [|x l IH]; intros s; [reflexivity|]. cbn [tforeach foreach]. rewrite fst_tbind. apply bind_ext. exact IH. Qed.
Lemma bind_ret_r {A} (o : outcome A) : bind o (fun a => Ret a) = o.
Proof. destruct o; reflexivity. Qed.

Ltac er := repeat (rewrite ?fst_tbind, ?fst_tforeach; cbn [fst tlift emit tret bind]; first [apply bind_ext; intros|apply foreach_ext; intros|reflexivity]).

Lemma tMulConstVectorGeneric_erase c a : fst (tMulConstVectorGeneric c a) = MulConstVectorGeneric c a.
Proof. unfold tMulConstVectorGeneric, MulConstVectorGeneric. er. Qed.
Lemma tmulTail_erase c inp out : fst (tmulTail c inp out) = mulTail c inp out.
Proof.
  unfold tmulTail, mulTail. rewrite fst_tbind. apply bind_ext. intros o. rewrite fst_tbind, fst_tforeach.
  cbn [fst tret]. erewrite foreach_ext; [reflexivity|]. intros i s. er.
Qed.
Lemma tMulConstVector_erase ar c a : fst (tMulConstVector ar c a) = MulConstVector ar c a.
Proof.
  destruct ar as [|sse2 ssse3 avx2|]; cbn [tMulConstVector MulConstVector].
  - apply tMulConstVectorGeneric_erase.
  - unfold tMulConstVector_amd64, MulConstVector_amd64. rewrite fst_tbind. cbn [fst emit bind]. destruct (beq c x01); [reflexivity|].
    destruct avx2; [|destruct ssse3].
    + rewrite fst_tbind. cbn [fst tlift]. apply bind_ext. intros [[p1 i1] o1]. rewrite fst_tbind. cbn [fst tlift]. apply bind_ext. intros [[p2 i2] o2].
      rewrite fst_tbind, tmulTail_erase. reflexivity.
    + rewrite fst_tbind. cbn [fst tlift]. apply bind_ext. intros o. destruct (_ <? _); [|apply tmulTail_erase].
      rewrite fst_tbind. cbn [fst tlift]. apply bind_ext. intros i'. rewrite fst_tbind. cbn [fst tlift]. apply bind_ext. intros o'. rewrite fst_tbind, tmulTail_erase. reflexivity.
    + apply tmulTail_erase.
  - unfold tMulConstVector_arm64, MulConstVector_arm64. rewrite fst_tbind. cbn [fst emit bind]. destruct (beq c x01); [reflexivity|].
    rewrite fst_tbind. cbn [fst tlift]. apply bind_ext. intros o. rewrite fst_tforeach. apply foreach_ext. intros i s. er.
Qed.
Lemma tevaluateFlat_erase ar growcap bb co N x out : fst (tevaluateFlat ar growcap bb co N x out) = evaluatePolynomialsAtWithCoefficientsBuffer ar growcap bb co N x out.
Proof.
  unfold tevaluateFlat, evaluatePolynomialsAtWithCoefficientsBuffer. destruct (N =? 0); [reflexivity|]. rewrite fst_tbind. cbn [fst tlift]. apply bind_ext. intros r.
  destruct (_ =? 0); [reflexivity|]. cbv zeta. rewrite fst_tbind. cbn [fst tlift]. apply bind_ext. intros top. rewrite fst_tbind, fst_tforeach.
  erewrite foreach_ext; [|intros i s; rewrite fst_tbind; cbn [fst tlift]; apply bind_ext; intros ci; rewrite fst_tbind, tMulConstVector_erase; reflexivity].
  apply bind_ext. intros res. rewrite fst_tbind. reflexivity.
Qed.
Lemma tevalLoop_erase ar growcap ev co N n xs buff : fst (tevalLoop ar growcap ev co N n xs buff) = evalLoop ar growcap ev co N n xs buff.
Proof.
  unfold tevalLoop, evalLoop. rewrite fst_tforeach. apply foreach_ext. intros i s. cbv zeta. rewrite fst_tbind. cbn [fst tlift]. apply bind_ext. intros w.
  rewrite fst_tbind. cbn [fst tlift]. apply bind_ext. intros x. rewrite fst_tbind. cbn [fst tlift]. apply bind_ext. intros o. rewrite fst_tbind, tevaluateFlat_erase. reflexivity.
Qed.
Lemma bind_assoc {A B C} (o : outcome A) (f : A -> outcome B) (g : B -> outcome C) : bind (bind o f) g = bind o (fun a => bind (f a) g).
Proof. destruct o; reflexivity. Qed.
Lemma tSplit_erase ar growcap perm stream polB trB ev secret parts threshold :
  fst (tSplit ar growcap perm stream polB trB ev secret parts threshold) = Split ar growcap perm stream polB trB ev secret parts threshold.
Proof.
  unfold tSplit, Split, SplitBufs. destruct (checkArgs secret parts threshold); [reflexivity|]. cbv zeta.
  do 5 (rewrite ?bind_assoc, fst_tbind; cbn [fst tlift]; apply bind_ext; intros ?).
  rewrite bind_assoc, fst_tbind, tevalLoop_erase. apply bind_ext. intros b. rewrite bind_assoc. cbn [fst tlift bind]. symmetry. apply bind_ret_r.
Qed.
Lemma tdiv_erase a b : fst (tdiv a b) = div a b.
Proof.
  unfold tdiv, div. rewrite fst_tbind. cbn [fst emit bind]. destruct (beq b x00); [reflexivity|]. rewrite fst_tbind. cbn [fst tlift]. apply bind_ext. intros la.
  rewrite fst_tbind. cbn [fst tlift]. apply bind_ext. intros lb. cbv zeta. rewrite fst_tbind. cbn [fst emit bind]. destruct (_ <? _)%Z; [reflexivity|rewrite fst_tbind; reflexivity].
Qed.
Lemma tmult_erase a b : fst (tmult a b) = mult a b.
Proof. unfold tmult, mult. er. Qed.
Lemma tinterpolate_erase xs ys x : fst (tinterpolatePolynomial xs ys x) = interpolatePolynomial xs ys x.
Proof.
  unfold tinterpolatePolynomial, interpolatePolynomial. rewrite fst_tforeach. apply foreach_ext. intros i r. rewrite fst_tbind, fst_tforeach.
  assert (E : forall o o' : outcome byte, o = o' -> forall k k' : byte -> outcome byte, (forall a, k a = k' a) -> bind o k = bind o' k') by (intros o o' ->; apply bind_ext).
  apply E.
  - apply foreach_ext. intros j b. destruct (i =? j); [reflexivity|]. rewrite fst_tbind; cbn [fst tlift]; apply bind_ext; intros xj; rewrite fst_tbind; cbn [fst tlift]; apply bind_ext; intros xi;
    cbv zeta; rewrite fst_tbind, tdiv_erase; apply bind_ext; intros t; apply tmult_erase.
  - intros b. rewrite fst_tbind. cbn [fst tlift]. apply bind_ext. intros y. rewrite fst_tbind, tmult_erase. reflexivity.
Qed.
Lemma tCombine_erase parts : fst (tCombine parts) = Combine parts.
Proof.
  unfold tCombine, Combine. destruct (checkParts parts); [reflexivity|]. cbv zeta. rewrite fst_tbind. cbn [fst tlift]. apply bind_ext. intros xs.
  unfold tinterpolateAll, interpolateAll. rewrite fst_tforeach. apply foreach_ext. intros j o. rewrite fst_tbind. cbn [fst tlift]. apply bind_ext. intros ys.
  rewrite fst_tbind, tinterpolate_erase. reflexivity.
Qed.

(** ** the records *)
Lemma snd_tbind {A B} (f : T A) (k : A -> T B) a : fst f = Ret a -> snd (tbind f k) = snd f ++ snd (k a).
Proof. intros E. unfold tbind. cbn [snd]. rewrite E. reflexivity. Qed.
Lemma snd_tlift {A B} (o : outcome A) (k : A -> T B) a : o = Ret a -> snd (tbind (tlift o) k) = snd (k a).
Proof. intros ->. reflexivity. Qed.

Lemma tforeach_records {X S} (P : list X -> S -> Prop) (f : X -> S -> T S) (ev : X -> list event) :
  (forall x r s, P (x :: r) s -> exists s', fst (f x s) = Ret s' /\ snd (f x s) = ev x /\ P r s') ->
  forall l s, P l s -> snd (tforeach l f s) = flat_map ev l.
Proof.
  intros H. induction l as [|x l IH]; intros s Q; [reflexivity|]. cbn [tforeach flat_map]. destruct (H x l s Q) as (s' & E1 & E2 & Q').
  rewrite (snd_tbind _ _ _ E1), E2, (IH s' Q'). reflexivity.
Qed.

Lemma skipn_skipn' {A} a b (l : list A) : skipn b (skipn a l) = skipn (a + b) l.
Proof. revert l. induction a as [|a IH]; intros l; [reflexivity|]. destruct l as [|x l]; [rewrite !skipn_nil; reflexivity|]. cbn [skipn Nat.add]. apply IH. Qed.

Lemma flat_map_one {X} (ev : X -> event) l : flat_map (fun x => [ev x]) l = map ev l.
Proof. induction l; cbn; congruence. Qed.

Lemma seq_cons_inv x r s n : x :: r = seq s n -> x = s /\ 0 < n /\ r = seq (S s) (n - 1).
Proof. destruct n as [|n]; cbn [seq]; [discriminate|]. intros E. inversion E. rewrite Nat.sub_succ, Nat.sub_0_r. split; [reflexivity|]. split; [lia|reflexivity]. Qed.

(** a scalar loop over bytes [s .. s+n) of [inp] *)
Lemma lookup_loop c inp n : forall s o, s + n <= length inp -> s + n <= length o ->
  snd (tforeach (seq s n) (fun i o => tdo v <- tlift (idx inp i); tdo _ <- emit [MulT c v]; tlift (upd o i (GalMultiply c v))) o)
  = map (fun v => MulT c v) (firstn n (skipn s inp)).
Proof.
  induction n as [|n IH]; intros s o L1 L2; [reflexivity|]. cbn [seq tforeach].
  assert (E : fst (tdo v <- tlift (idx inp s); tdo _ <- emit [MulT c v]; tlift (upd o s (GalMultiply c v))) = Ret (firstn s o ++ GalMultiply c (nth s inp x00) :: skipn (S s) o)).
  { rewrite fst_tbind. cbn [fst tlift]. rewrite (idx_ok inp s x00) by lia. cbn [bind]. rewrite fst_tbind. cbn [fst emit tlift bind]. unfold upd.
    destruct (Nat.ltb_spec s (length o)); [reflexivity|lia]. }
  rewrite (snd_tbind _ _ _ E), IH; [|lia|rewrite app_length, firstn_length; cbn [length]; rewrite skipn_length; lia].
  rewrite (snd_tlift _ _ (nth s inp x00)) by (apply idx_ok; lia). cbn [snd emit].
  assert (SK : skipn s inp = nth s inp x00 :: skipn (S s) inp).
  { clear -L1. revert inp L1. induction s as [|s IH]; intros [|b inp] L; cbn [length] in L; try lia; [reflexivity|]. change (skipn (S s) (b :: inp)) with (skipn s inp).
    change (skipn (S (S s)) (b :: inp)) with (skipn (S s) inp). cbn [nth]. apply IH. lia. }
  rewrite SK. reflexivity.
Qed.

Lemma tmulTail_records c inp out r : mulTail c inp out = Ret r -> snd (tmulTail c inp out) = map (fun v => MulT c v) inp.
Proof.
  intros H. unfold mulTail in H. destruct (slice out 0 (length inp)) as [o|e|p| |] eqn:E; try discriminate H.
  unfold tmulTail. rewrite (snd_tlift _ _ o E). assert (LO : length o = length inp).
  { unfold slice in E. destruct (Nat.leb_spec 0 (length inp)); [|discriminate E]. cbn [andb] in E. destruct (Nat.leb_spec (length inp) (length out)); [|discriminate E].
    inversion E. rewrite Nat.sub_0_r, firstn_length. cbn [skipn]. lia. }
  pose proof (lookup_loop c inp (length inp) 0 o ltac:(lia) ltac:(lia)) as R.
  cbn [bind] in H. destruct (foreach (seq 0 (length inp)) (fun i o => do v <- idx inp i; upd o i (GalMultiply c v)) o) as [o'|e|p| |] eqn:E2; try discriminate H.
  rewrite (snd_tbind _ _ o').
  - rewrite R. cbn [skipn]. rewrite firstn_all. cbn [snd tret]. apply app_nil_r.
  - rewrite fst_tforeach. rewrite <- E2. apply foreach_ext. intros i s. er.
Qed.

Lemma slice_tail_inv (l : list byte) k r : slice l k (length l) = Ret r -> r = skipn k l /\ k <= length l.
Proof.
  unfold slice. destruct (Nat.leb_spec k (length l)); cbn [andb]; [|discriminate]. rewrite Nat.leb_refl. intros E. inversion E. split; [|exact H].
  rewrite firstn_all2; [reflexivity|]. rewrite skipn_length. lia.
Qed.

Lemma tMulConstVectorGeneric_records c a : snd (tMulConstVectorGeneric c a) = map (fun b => MulT b c) a.
Proof.
  unfold tMulConstVectorGeneric.
  rewrite (tforeach_records (fun l s => exists k, l = seq k (length a - k) /\ k <= length a /\ length s = length a /\ skipn k s = skipn k a) _ (fun i => [MulT (nth i a x00) c])).
  - rewrite flat_map_one. symmetry. rewrite (list_as_map a x00) at 1. rewrite map_map. reflexivity.
  - intros x r s (k & E & Lk & Ls & Sk). apply seq_cons_inv in E as (-> & Lt & ->).
    assert (NE : nth k s x00 = nth k a x00) by (rewrite <- (Nat.add_0_r k), <- !nth_skipn, Sk; reflexivity).
    eexists. split; [|split].
    + rewrite fst_tbind. cbn [fst tlift]. rewrite (idx_ok s k x00) by lia. cbn [bind]. rewrite fst_tbind. cbn [fst emit tlift bind]. unfold upd.
      destruct (Nat.ltb_spec k (length s)); [reflexivity|lia].
    + rewrite (snd_tlift _ _ (nth k s x00)) by (apply idx_ok; lia). rewrite NE. reflexivity.
    + exists (S k). split; [f_equal; lia|]. split; [lia|]. split; [rewrite app_length, firstn_length; cbn [length]; rewrite skipn_length; lia|].
      rewrite skipn_app, firstn_length, Nat.min_l by lia. rewrite (skipn_all2 (firstn k s)) by (rewrite firstn_length; lia).
      replace (S k - k) with 1 by lia. cbn [app]. transitivity (skipn (k + 1) s); [rewrite Nat.add_1_r; reflexivity|].
      rewrite <- skipn_skipn', Sk, skipn_skipn'. f_equal. lia.
  - exists 0. split; [f_equal; lia|]. split; [lia|]. split; reflexivity.
Qed.

Lemma tMulConstVector_records ar c a : snd (tMulConstVector ar c a) = mulRecords ar c a.
Proof.
  destruct ar as [|sse2 ssse3 avx2|]; cbn [tMulConstVector mulRecords].
  - apply tMulConstVectorGeneric_records.
  - pose proof (MulConstVector_amd64_ok avx2 ssse3 c a) as OK. unfold tMulConstVector_amd64. unfold MulConstVector_amd64 in OK. cbv zeta.
    rewrite (snd_tbind _ _ tt) by reflexivity. cbn [snd emit app]. f_equal. destruct (beq c x01); [reflexivity|]. unfold lastBytes. cbn [scalarPart]. cbv zeta in OK.
    destruct avx2; [|destruct ssse3].
    + match type of OK with bind ?X _ = _ => destruct X as [[[p1 i1] o1]|e|p| |] eqn:E1; try discriminate OK end.
      rewrite (snd_tlift _ _ (p1, i1, o1) eq_refl). cbn [bind] in OK.
      match type of OK with bind ?X _ = _ => destruct X as [[[p2 i2] o2]|e|p| |] eqn:E2; try discriminate OK end.
      rewrite (snd_tlift _ _ (p2, i2, o2) eq_refl). cbn [bind] in OK.
      destruct (mulTail c i2 o2) as [tl|e|p| |] eqn:E3; try discriminate OK. rewrite (snd_tbind _ _ tl) by (rewrite tmulTail_erase; exact E3).
      cbn [snd tret]. rewrite app_nil_r, (tmulTail_records c i2 o2 tl E3). f_equal.
      pose proof (Nat.div_mod (length a) 64 ltac:(lia)) as D1. pose proof (Nat.mod_upper_bound (length a) 64 ltac:(lia)) as D2.
      assert (I1 : i1 = skipn (length a - (if 128 <=? length a then length a mod 64 else length a)) a).
      { destruct (128 <=? length a).
        - destruct (galMulAVX2_64 _ _ a _) as [o|e|p| |]; try discriminate E1. cbn [bind] in E1.
          destruct (slice a (length a / 64 * 64) (length a)) as [i'|e|p| |] eqn:S1; try discriminate E1. cbn [bind] in E1.
          destruct (slice o _ _) as [o'|e|p| |]; try discriminate E1. cbn [bind] in E1. inversion E1; subst. apply slice_tail_inv in S1 as [-> _]. f_equal. lia.
        - inversion E1; subst. rewrite Nat.sub_diag. reflexivity. }
      set (r := if 128 <=? length a then length a mod 64 else length a) in *.
      assert (LR : r <= length a) by (unfold r; destruct (128 <=? length a); lia).
      assert (L1 : length i1 = r) by (rewrite I1, skipn_length; lia).
      pose proof (Nat.div_mod r 32 ltac:(lia)) as D3. pose proof (Nat.mod_upper_bound r 32 ltac:(lia)) as D4.
      rewrite L1 in E2. destruct (32 <? r).
      * destruct (galMulAVX2 _ _ i1 _) as [o|e|p| |]; try discriminate E2. cbn [bind] in E2.
        rewrite <- L1 in E2 at 2. destruct (slice i1 (r / 32 * 32) (length i1)) as [i'|e|p| |] eqn:S1; try discriminate E2. cbn [bind] in E2.
        destruct (slice o _ _) as [o'|e|p| |]; try discriminate E2. cbn [bind] in E2. inversion E2; subst i'. apply slice_tail_inv in S1 as [-> _].
        rewrite I1, skipn_skipn'. f_equal. lia.
      * assert (Q : i2 = i1) by congruence. rewrite Q, I1. reflexivity.
    + match type of OK with bind ?X _ = _ => destruct X as [o|e|p| |] eqn:E1; try discriminate OK end.
      rewrite (snd_tlift _ _ o eq_refl). cbn [bind] in OK.
      pose proof (Nat.div_mod (length a) 16 ltac:(lia)) as D1. pose proof (Nat.mod_upper_bound (length a) 16 ltac:(lia)) as D2.
      assert (LO : length o = length a). { unfold galMulSSSE3 in E1. destruct (blockLoop_spec 16 (fun x _ => mulStep16 (nth (b2i c) mulTableLow []) (nth (b2i c) mulTableHigh []) x) (fun b _ => gmul c b) a (zeros (length a))) as (o2 & Eo & Lo & _).
        - lia.
        - intros x y Hx Hy. rewrite mulStep16_ok, map2_gmul_const by lia. reflexivity.
        - rewrite zeros_length. lia.
        - rewrite Eo in E1. inversion E1; subst o2. rewrite Lo. apply zeros_length. }
      rewrite LO in *. destruct (Nat.ltb_spec (length a / 16 * 16) (length a)) as [L|L].
      * destruct (Nat.eqb_spec (length a mod 16) 0); [lia|].
        destruct (slice a (length a / 16 * 16) (length a)) as [i'|e|p| |] eqn:S1; try discriminate OK. rewrite (snd_tlift _ _ i' eq_refl). cbn [bind] in OK.
        destruct (slice o (length a / 16 * 16) (length a)) as [o'|e|p| |] eqn:S2; try discriminate OK. rewrite (snd_tlift _ _ o' eq_refl). cbn [bind] in OK.
        destruct (mulTail c i' o') as [tl|e|p| |] eqn:E3; try discriminate OK. rewrite (snd_tbind _ _ tl) by (rewrite tmulTail_erase; exact E3).
        cbn [snd tret]. rewrite app_nil_r, (tmulTail_records c i' o' tl E3). f_equal. apply slice_tail_inv in S1 as [-> _]. f_equal. lia.
      * destruct (Nat.eqb_spec (length a mod 16) 0); [|lia]. rewrite (tmulTail_records c a o _ OK), Nat.sub_diag. reflexivity.
    + rewrite (tmulTail_records c a _ _ OK), Nat.sub_diag. reflexivity.
  - pose proof (MulConstVector_arm64_ok c a) as OK. unfold tMulConstVector_arm64. unfold MulConstVector_arm64 in OK. cbv zeta.
    rewrite (snd_tbind _ _ tt) by reflexivity. cbn [snd emit app]. f_equal. destruct (beq c x01); [reflexivity|]. unfold lastBytes. cbn [scalarPart]. cbv zeta in OK.
    match type of OK with bind ?X _ = _ => destruct X as [o|e|p| |] eqn:E1; try discriminate OK end.
    rewrite (snd_tlift _ _ o eq_refl). cbn [bind] in OK.
    pose proof (Nat.div_mod (length a) 32 ltac:(lia)) as D1. pose proof (Nat.mod_upper_bound (length a) 32 ltac:(lia)) as D2.
    assert (LO : length o = length a). { unfold galMulNEON in E1. destruct (blockLoop_spec 32 (fun x _ => mulStepNeon (nth (b2i c) mulTableLow []) (nth (b2i c) mulTableHigh []) x) (fun b _ => gmul c b) a (zeros (length a))) as (o2 & Eo & Lo & _).
      - lia.
      - intros x y Hx Hy. rewrite mulStepNeon_ok, map2_gmul_const by lia. reflexivity.
      - rewrite zeros_length. lia.
      - rewrite Eo in E1. inversion E1; subst o2. rewrite Lo. apply zeros_length. }
    rewrite lookup_loop by lia. f_equal. rewrite firstn_all2 by (rewrite skipn_length; lia). f_equal. lia.
Qed.

Lemma rev_seq_S k : rev (seq 0 (S k)) = k :: rev (seq 0 k).
Proof. rewrite seq_S, rev_app_distr. reflexivity. Qed.

Lemma tevaluateFlat_records ar growcap bb buf N d x out : grow_ok growcap -> 0 < N -> length buf = N * (d + 1) -> length out = N ->
  snd (tevaluateFlat ar growcap bb buf N x out) =
  flat_map (fun i => mulRecords ar x (map (hornerAt (row N buf) (S i) d x) (seq 0 N))) (rev (seq 0 d)).
Proof.
  intros G HN Hb Ho. pose proof (evaluateFlat_ok ar growcap bb buf N d x out G HN Hb Ho) as OK. unfold tevaluateFlat. unfold evaluatePolynomialsAtWithCoefficientsBuffer in OK.
  destruct (Nat.eqb_spec N 0); [lia|].
  pose proof (resetGrow_length growcap bb N G) as HG. rewrite slice_ok in * by lia. rewrite (snd_tlift _ _ _ eq_refl). cbn [bind] in OK.
  assert (Hq : length buf / N = d + 1) by (rewrite Hb, Nat.mul_comm; apply Nat.div_mul; lia).
  rewrite Hq in *. destruct (Nat.eqb_spec (d + 1) 0); [lia|]. cbv zeta in *. rewrite Nat.add_sub in *.
  rewrite (Nat.mul_comm d N) in *. rewrite slice_row in * by nia. rewrite (snd_tlift _ _ _ eq_refl). cbn [bind] in OK.
  rewrite gocopy_same in * by (rewrite row_length, firstn_length, skipn_length; nia).
  match type of OK with bind ?X _ = _ => destruct X as [res|e|p| |] eqn:E1; try discriminate OK end. cbn [bind] in OK.
  destruct (slice out 0 N) as [w|e|p| |] eqn:E2; try discriminate OK.
  rewrite (snd_tbind _ _ res).
  2:{ rewrite fst_tforeach, <- E1. apply foreach_ext. intros i s. rewrite fst_tbind. cbn [fst tlift]. apply bind_ext. intros ci. rewrite fst_tbind, tMulConstVector_erase. reflexivity. }
  rewrite (snd_tlift _ _ w eq_refl). cbn [snd tret]. rewrite app_nil_r.
  apply (tforeach_records (fun l s => exists k, l = rev (seq 0 k) /\ k <= d /\ s = map (hornerAt (row N buf) k d x) (seq 0 N))).
  - intros i r s (k & E & Lk & ->). destruct k as [|k]; [discriminate E|]. rewrite rev_seq_S in E. inversion E; subst i r. clear E.
    assert (E : fst (tdo ci <- tlift (slice buf (k * N) (k * N + N)); tdo m <- tMulConstVector ar x (map (hornerAt (row N buf) (S k) d x) (seq 0 N)); tlift (AddVector ar ci m)) =
       Ret (map (hornerAt (row N buf) k d x) (seq 0 N))).
    { rewrite fst_tbind. cbn [fst tlift]. rewrite (Nat.mul_comm k N), slice_row by nia. cbn [bind]. rewrite fst_tbind, tMulConstVector_erase, MulConstVector_ok. cbn [bind fst tlift].
      rewrite AddVector_ok by (rewrite row_length, !map_length, seq_length; nia). f_equal.
      apply nth_ext with x00 x00; [rewrite xor_bytes_length; rewrite row_length, ?map_length, ?seq_length; nia|].
      intros p Hp. rewrite xor_bytes_length in Hp by (rewrite row_length, !map_length, seq_length; nia). rewrite row_length in Hp by nia.
      rewrite nth_xor_bytes by (rewrite row_length, !map_length, seq_length; nia).
      rewrite nth_map_gmul, !nth_map_seq by exact Hp. apply hornerAt_step. lia. }
    eexists. split; [exact E|]. split.
    + rewrite (Nat.mul_comm k N), slice_row by nia. rewrite (snd_tlift _ _ _ eq_refl).
      rewrite (snd_tbind _ _ (map (gmul x) (map (hornerAt (row N buf) (S k) d x) (seq 0 N)))) by (rewrite tMulConstVector_erase; apply MulConstVector_ok).
      cbn [snd tlift]. rewrite app_nil_r. apply tMulConstVector_records.
    + exists k. split; [reflexivity|]. split; [lia|reflexivity].
  - exists d. split; [reflexivity|]. split; [lia|].
    rewrite (list_as_map (row N buf d) x00) at 1. rewrite row_length by nia. apply map_ext. intros p.
    unfold hornerAt. replace (S d - d) with 1 by lia. cbn. ring.
Qed.

Lemma tevalLoop_records ar growcap ev coef N n d xs buff : grow_ok growcap -> 0 < N -> n <= length xs -> length coef = N * (d + 1) -> length buff = (N + 1) * n ->
  snd (tevalLoop ar growcap ev coef N n xs buff) =
  flat_map (fun i => let x := badd (nth i xs x00) x01 in flat_map (fun k => mulRecords ar x (map (hornerAt (row N coef) (S k) d x) (seq 0 N))) (rev (seq 0 d))) (seq 0 n).
Proof.
  intros G HN Hn Hc Hb. unfold tevalLoop.
  apply (tforeach_records (fun l s => (forall i, In i l -> i < n) /\ length s = (N + 1) * n)).
  - intros i r s (Li & Ls). cbv zeta. pose proof (Li i (or_introl eq_refl)) as Hi.
    replace ((N + 1) * i + N + 1) with ((N + 1) * i + (N + 1)) by lia. rewrite slice_row by nia. rewrite tagOf_ok by lia.
    assert (Lr : length (row (N + 1) s i) = N + 1) by (apply row_length; nia).
    eexists. split; [|split].
    + rewrite fst_tbind. cbn [fst tlift bind]. rewrite fst_tbind. cbn [fst tlift bind]. rewrite slice_ok by lia. rewrite fst_tbind. cbn [fst tlift bind].
      rewrite fst_tbind, tevaluateFlat_erase. rewrite (evaluateFlat_ok ar growcap (ev i) coef N d); try assumption; [|rewrite firstn_length, skipn_length; lia]. cbn [bind fst tret]. reflexivity.
    + rewrite (snd_tlift _ _ _ eq_refl), (snd_tlift _ _ _ eq_refl). rewrite slice_ok by lia. rewrite (snd_tlift _ _ _ eq_refl).
      erewrite snd_tbind; [|rewrite tevaluateFlat_erase; apply (evaluateFlat_ok ar growcap (ev i) coef N d); try assumption; rewrite firstn_length, skipn_length; lia].
      cbn [snd tret]. rewrite app_nil_r. apply tevaluateFlat_records; try assumption. rewrite firstn_length, skipn_length. lia.
    + split; [intros j Hj; apply Li; right; exact Hj|]. rewrite splice_length; [exact Ls|]. rewrite splice_length; rewrite ?map_length, ?seq_length; lia || nia.
  - split; [intros i Hi; apply in_seq in Hi; lia|exact Hb].
Qed.

Lemma hornerAt_suffix rows t x p poly k : 0 < t -> length poly = t -> (forall c, c < t -> nth p (rows c) x00 = nth c poly x00) ->
  hornerAt rows k (t - 1) x p = peval (skipn k poly) x.
Proof.
  intros Ht Hl H. rewrite peval_heval. unfold hornerAt. f_equal. replace (S (t - 1) - k) with (t - k) by lia.
  apply nth_ext with x00 x00; [rewrite map_length, seq_length, skipn_length; lia|]. intros i Li. rewrite map_length, seq_length in Li.
  rewrite nth_skipn. rewrite (nth_indep _ x00 (nth p (rows 0) x00)) by (rewrite map_length, seq_length; exact Li).
  rewrite (map_nth (fun c => nth p (rows c) x00)). rewrite seq_nth by exact Li. apply H. lia.
Qed.

Lemma flat_map_map {A B C} (f : A -> B) (g : B -> list C) l : flat_map g (map f l) = flat_map (fun a => g (f a)) l.
Proof. induction l; cbn; congruence. Qed.
Lemma flat_map_ext_in {A B} (f g : A -> list B) l : (forall a, In a l -> f a = g a) -> flat_map f l = flat_map g l.
Proof. induction l as [|a l IH]; intros H; [reflexivity|]. cbn [flat_map]. rewrite H by (left; reflexivity). f_equal. apply IH. intros b Hb. apply H. right. exact Hb. Qed.

Lemma tSplit_records ar growcap perm stream polB trB evBufs secret parts threshold :
  grow_ok growcap -> checkArgs secret parts threshold = None -> (parts <= Z.of_nat (length perm))%Z ->
  let t := Z.to_nat threshold in
  snd (tSplit ar growcap perm stream polB trB evBufs secret parts threshold) =
  splitRecords ar t (polysOf t secret (take_stream stream (t * length secret))) (tagsOf (Z.to_nat parts) (map i2b perm)).
Proof.
  intros G Hck Hp t. unfold tSplit. rewrite Hck. set (n := Z.to_nat parts). set (N := length secret).
  apply checkArgs_None in Hck as (Ht & Hpp & Hs).
  assert (HN : 0 < N) by (unfold N; destruct secret; [congruence|cbn; lia]).
  assert (Hdeg : Z.to_nat (threshold - 1) + 1 = t) by (unfold t; lia).
  assert (Ht0 : 0 < t) by lia. cbv zeta. rewrite Hdeg.
  destruct (layoutFlat_ok N n (map i2b perm)) as (buff & E1 & L1 & R1); [rewrite map_length; lia|].
  rewrite E1. rewrite (snd_tlift _ _ _ eq_refl).
  pose proof (resetGrow_length growcap polB (t * N) G) as HG1.
  rewrite slice_ok by lia. rewrite (snd_tlift _ _ _ eq_refl). unfold makePolynomialsWithBuff.
  rewrite firstn_length, skipn_length, Nat.sub_0_r, Nat.sub_0_r, Nat.min_l by exact HG1.
  destruct (setIntercepts_ok secret (Z.to_nat (threshold - 1)) (take_stream stream (t * N))) as (pol & E2 & L2 & R2).
  { rewrite take_stream_length, Hdeg. reflexivity. }
  rewrite Hdeg in L2, R2. rewrite E2. rewrite (snd_tlift _ _ _ eq_refl). rewrite L2. fold N in L2, R2 |- *.
  pose proof (resetGrow_length growcap trB (t * N) G) as HG2.
  rewrite slice_ok by lia. rewrite (snd_tlift _ _ _ eq_refl).
  destruct (split_core ar growcap evBufs (map i2b perm) secret n t (take_stream stream (t * N)) pol
     (firstn (t * N - 0) (skipn 0 (resetGrow growcap trB (t * N)))) buff) as (coef & E3 & L3 & V3 & o & E4 & E5); try assumption.
  { rewrite map_length. lia. }
  { apply take_stream_length. }
  { rewrite firstn_length, skipn_length, L2. fold N. lia. }
  rewrite E3. rewrite (snd_tlift _ _ _ eq_refl). fold N in E4, E5, V3.
  rewrite (snd_tbind _ _ o) by (rewrite tevalLoop_erase; exact E4). cbn [snd tlift]. rewrite app_nil_r.
  rewrite (tevalLoop_records ar growcap evBufs coef N n (t - 1)); try assumption; [|rewrite map_length; lia|rewrite L3, L2; replace (t - 1 + 1) with t by lia; lia].
  unfold splitRecords, tagsOf. rewrite flat_map_map.
  assert (LN : n <= length (map i2b perm)) by (rewrite map_length; lia).
  transitivity (flat_map (fun x => flat_map (fun k => mulRecords ar (badd x x01) (map (hornerAt (row N coef) (S k) (t - 1) (badd x x01)) (seq 0 N))) (rev (seq 0 (t - 1)))) (map (fun i => nth i (map i2b perm) x00) (seq 0 n))).
  { rewrite flat_map_map. reflexivity. }
  assert (Q : map (fun i => nth i (map i2b perm) x00) (seq 0 n) = firstn n (map i2b perm)).
  { apply nth_ext with x00 x00; [rewrite map_length, seq_length, firstn_length; lia|]. intros i Li. rewrite map_length, seq_length in Li. rewrite nth_map_seq by exact Li. symmetry. apply nth_firstn, Li. }
  rewrite Q. apply flat_map_ext_in. intros x _. apply flat_map_ext_in. intros k _. f_equal. unfold polysOf. rewrite map_map. fold N. apply map_ext_in. intros p Hp'. apply in_seq in Hp'.
  apply hornerAt_suffix; [exact Ht0| |].
  - apply polyOf_length; [exact Ht0|]. rewrite take_stream_length. nia.
  - intros c Hc. rewrite nth_row by lia. apply V3; lia.
Qed.
