(** Facts about the records of SplitGeneric, SplitWithRandomizer, SplitWithRandomizerOld, SplitP and Regenerate (C73). *)
From Coq Require Import List NArith ZArith Lia Arith Bool Permutation.
From Coq.Init Require Import Byte.
From Verif Require Import GoSem Bytes Spec Galois GaloisTables ShamirTables Vector Csprng Pool Polynomial Shamir GoFacts GF VectorFacts PolyFacts PolynomialFacts SplitFacts CombineFacts SplitP Asm Trace SpecTrace TraceFacts CombineTrace TraceMore.
Import ListNotations.
Local Open Scope go_scope.

(** ** erasing the records *)
Lemma tevaluateRows_erase ar growcap bb M x out : fst (tevaluateRows ar growcap bb M x out) = evaluatePolynomialsAt ar growcap bb M x out.
Proof.
  unfold tevaluateRows, evaluatePolynomialsAt. rewrite fst_tbind. cbn [fst tlift]. apply bind_ext. intros c0. cbv zeta.
  rewrite fst_tbind. cbn [fst tlift]. apply bind_ext. intros r. rewrite fst_tbind. cbn [fst tlift]. apply bind_ext. intros top. rewrite fst_tbind, fst_tforeach.
  erewrite foreach_ext; [|intros i s; rewrite fst_tbind; cbn [fst tlift]; apply bind_ext; intros ci; rewrite fst_tbind, tMulConstVector_erase; reflexivity].
  apply bind_ext. intros res. rewrite fst_tbind. reflexivity.
Qed.
Lemma tgenericEvaluate_erase M x out : fst (tgenericEvaluate M x out) = genericEvaluatePolynomialsAt M x out.
Proof.
  unfold tgenericEvaluate, genericEvaluatePolynomialsAt. rewrite fst_tbind. cbn [fst tlift]. apply bind_ext. intros c0. cbv zeta.
  rewrite fst_tbind. cbn [fst tlift]. apply bind_ext. intros top. rewrite fst_tbind, fst_tforeach.
  erewrite foreach_ext; [|intros i s; rewrite fst_tbind; cbn [fst tlift]; apply bind_ext; intros ci; rewrite fst_tbind, tMulConstVectorGeneric_erase; reflexivity].
  apply bind_ext. intros res. rewrite fst_tbind. reflexivity.
Qed.
Lemma tevaluate_erase p x : fst (tevaluate p x) = evaluate p x.
Proof.
  unfold tevaluate, evaluate. rewrite fst_tbind. cbn [fst emit bind]. destruct (beq x x00); [reflexivity|]. cbv zeta. rewrite fst_tbind. cbn [fst tlift]. apply bind_ext. intros top.
  rewrite fst_tforeach. apply foreach_ext. intros i s. er.
Qed.
Lemma tSplitWithRandomizerOld_erase ar growcap ks ev secret parts threshold :
  fst (tSplitWithRandomizerOld ar growcap ks ev secret parts threshold) = SplitWithRandomizerOld ar growcap ks ev secret parts threshold.
Proof.
  unfold tSplitWithRandomizerOld, SplitWithRandomizerOld. destruct (checkArgs secret parts threshold); [reflexivity|]. cbv zeta.
  do 4 (rewrite fst_tbind; cbn [fst tlift]; apply bind_ext; intros ?). rewrite fst_tbind, fst_tforeach.
  erewrite foreach_ext; [apply bind_ext; intros; reflexivity|]. intros i s. cbv beta. rewrite fst_tbind. cbn [fst tlift]. apply bind_ext. intros w.
  rewrite fst_tbind. cbn [fst tlift]. apply bind_ext. intros x. rewrite fst_tbind, tevaluateRows_erase. reflexivity.
Qed.
Lemma tSplitWithRandomizer_erase fuel ar growcap ks polB trB ev secret parts threshold :
  fst (tSplitWithRandomizer fuel ar growcap ks polB trB ev secret parts threshold) = SplitWithRandomizer fuel ar growcap ks polB trB ev secret parts threshold.
Proof.
  unfold tSplitWithRandomizer, SplitWithRandomizer, SplitWithRandomizerBufs. destruct (checkArgs secret parts threshold); [reflexivity|]. cbv zeta.
  do 6 (rewrite ?bind_assoc, fst_tbind; cbn [fst tlift]; apply bind_ext; intros ?).
  rewrite bind_assoc, fst_tbind, tevalLoop_erase. apply bind_ext. intros b. rewrite bind_assoc. cbn [fst tlift bind]. symmetry. apply bind_ret_r.
Qed.
Lemma tSplitGeneric_erase perm stream secret parts threshold : fst (tSplitGeneric perm stream secret parts threshold) = SplitGeneric perm stream secret parts threshold.
Proof.
  unfold tSplitGeneric, SplitGeneric. destruct (checkArgs secret parts threshold); [reflexivity|]. cbv zeta.
  do 3 (rewrite fst_tbind; cbn [fst tlift]; apply bind_ext; intros ?). rewrite fst_tforeach. apply foreach_ext. intros i s.
  rewrite fst_tbind. cbn [fst tlift]. apply bind_ext. intros x. rewrite fst_tbind. cbn [fst tlift]. apply bind_ext. intros w. rewrite fst_tbind, tgenericEvaluate_erase. reflexivity.
Qed.
Lemma tRegenerate_erase fuel stream u parts num : fst (tRegenerate fuel stream u parts num) = Regenerate fuel stream u parts num.
Proof.
  unfold tRegenerate, Regenerate. destruct (checkParts parts); [reflexivity|]. cbv zeta.
  do 3 (rewrite fst_tbind; cbn [fst tlift]; apply bind_ext; intros ?). rewrite fst_tforeach. apply foreach_ext. intros i s.
  rewrite fst_tbind. cbn [fst tlift]. apply bind_ext. intros x. rewrite fst_tbind. cbn [fst tlift]. apply bind_ext. intros w. rewrite fst_tbind, tinterpolateAll_erase. reflexivity.
Qed.

(** ** the records of the evaluations *)
Lemma horner_records (step : nat -> list byte -> T (list byte)) (rec : list byte -> list event) rows N d x :
  (forall c, c <= d -> length (rows c) = N) ->
  (forall i r, i < d -> length r = N -> fst (step i r) = Ret (xor_bytes (rows i) (map (gmul x) r)) /\ snd (step i r) = rec r) ->
  snd (tforeach (rev (seq 0 d)) step (rows d)) = flat_map (fun i => rec (map (hornerAt rows (S i) d x) (seq 0 N))) (rev (seq 0 d)).
Proof.
  intros Hrow Hstep.
  apply (tforeach_records (fun l s => exists k, l = rev (seq 0 k) /\ k <= d /\ s = map (hornerAt rows k d x) (seq 0 N))).
  - intros i r s (k & E & Lk & ->). destruct k as [|k]; [discriminate E|]. rewrite rev_seq_S in E. inversion E; subst i r. clear E.
    destruct (Hstep k (map (hornerAt rows (S k) d x) (seq 0 N)) ltac:(lia) ltac:(rewrite map_length, seq_length; reflexivity)) as [E1 E2].
    eexists. split; [exact E1|]. split; [exact E2|]. exists k. split; [reflexivity|]. split; [lia|].
    apply nth_ext with x00 x00; [rewrite xor_bytes_length; rewrite ?map_length, ?seq_length; rewrite ?Hrow by lia; reflexivity|].
    intros p Hp. rewrite xor_bytes_length in Hp by (rewrite ?map_length, ?seq_length; rewrite ?Hrow by lia; reflexivity). rewrite Hrow in Hp by lia.
    rewrite nth_xor_bytes by (rewrite ?map_length, ?seq_length; rewrite ?Hrow by lia; reflexivity).
    rewrite nth_map_gmul, !nth_map_seq by exact Hp. apply hornerAt_step. lia.
  - exists d. split; [reflexivity|]. split; [lia|]. rewrite (list_as_map (rows d) x00) at 1. rewrite Hrow by lia. apply map_ext. intros p.
    unfold hornerAt. replace (S d - d) with 1 by lia. cbn. ring.
Qed.

Lemma tevaluateRows_records ar growcap bb M N d x out : grow_ok growcap ->
  length M = d + 1 -> (forall c, c <= d -> length (nth c M []) = N) -> N <= length out ->
  snd (tevaluateRows ar growcap bb M x out) = flat_map (fun i => mulRecords ar x (map (hornerAt (fun c => nth c M []) (S i) d x) (seq 0 N))) (rev (seq 0 d)).
Proof.
  intros G HM Hr Ho. pose proof (evaluateMatrix_ok ar growcap bb M N d x out G HM Hr Ho) as OK. rewrite <- tevaluateRows_erase in OK. unfold tevaluateRows in *.
  rewrite (idx_ok M 0 []) in * by lia. rewrite (snd_tlift _ _ _ eq_refl). cbv zeta in *.
  rewrite fst_tbind in OK. cbn [fst tlift bind] in OK. rewrite (Hr 0) in * by lia. pose proof (resetGrow_length growcap bb N G) as HG. rewrite slice_ok in * by lia.
  rewrite fst_tbind in OK. cbn [fst tlift bind] in OK. rewrite (snd_tlift _ _ _ eq_refl).
  rewrite HM, Nat.add_sub in *. rewrite (idx_ok M d []) in * by lia. rewrite fst_tbind in OK. cbn [fst tlift bind] in OK. rewrite (snd_tlift _ _ _ eq_refl).
  rewrite gocopy_same in * by (rewrite firstn_length, skipn_length, Hr; lia).
  apply fst_tbind_inv in OK as (res & E1 & OK). rewrite (snd_tbind _ _ res E1). rewrite slice_ok by lia. rewrite (snd_tlift _ _ _ eq_refl). cbn [snd tret]. rewrite app_nil_r.
  refine (horner_records _ (mulRecords ar x) (fun c => nth c M []) N d x Hr _). intros i r Hi Lr. rewrite (idx_ok M i []) by lia. split.
  - rewrite fst_tbind. cbn [fst tlift bind]. rewrite fst_tbind, tMulConstVector_erase, MulConstVector_ok. cbn [bind fst tlift]. apply AddVector_ok. rewrite Hr, map_length by lia. congruence.
  - rewrite (snd_tlift _ _ _ eq_refl). rewrite (snd_tbind _ _ (map (gmul x) r)) by (rewrite tMulConstVector_erase; apply MulConstVector_ok). cbn [snd tlift]. rewrite app_nil_r. apply tMulConstVector_records.
Qed.

Lemma tgenericEvaluate_records M N d x out :
  length M = d + 1 -> (forall c, c <= d -> length (nth c M []) = N) -> N <= length out ->
  snd (tgenericEvaluate M x out) = flat_map (fun i => mulRecords ArchGeneric x (map (hornerAt (fun c => nth c M []) (S i) d x) (seq 0 N))) (rev (seq 0 d)).
Proof.
  intros HM Hr Ho. pose proof (genericEvaluate_ok M N d x out HM Hr Ho) as OK. rewrite <- tgenericEvaluate_erase in OK. unfold tgenericEvaluate in *.
  rewrite (idx_ok M 0 []) in * by lia. rewrite (snd_tlift _ _ _ eq_refl). cbv zeta in *.
  rewrite fst_tbind in OK. cbn [fst tlift bind] in OK. rewrite (Hr 0) in * by lia.
  rewrite HM, Nat.add_sub in *. rewrite (idx_ok M d []) in * by lia. rewrite fst_tbind in OK. cbn [fst tlift bind] in OK. rewrite (snd_tlift _ _ _ eq_refl).
  rewrite gocopy_same in * by (rewrite zeros_length, Hr; lia).
  apply fst_tbind_inv in OK as (res & E1 & OK). rewrite (snd_tbind _ _ res E1). rewrite slice_ok by lia. rewrite (snd_tlift _ _ _ eq_refl). cbn [snd tret]. rewrite app_nil_r.
  refine (horner_records _ (mulRecords ArchGeneric x) (fun c => nth c M []) N d x Hr _). intros i r Hi Lr. rewrite (idx_ok M i []) by lia. split.
  - rewrite fst_tbind. cbn [fst tlift bind]. rewrite fst_tbind, tMulConstVectorGeneric_erase, MulConstVectorGeneric_ok. cbn [bind fst tlift]. apply AddVectorGeneric_ok. rewrite Hr, map_length by lia. congruence.
  - rewrite (snd_tlift _ _ _ eq_refl). rewrite (snd_tbind _ _ (map (gmul x) r)) by (rewrite tMulConstVectorGeneric_erase; apply MulConstVectorGeneric_ok). cbn [snd tlift]. rewrite app_nil_r. apply tMulConstVectorGeneric_records.
Qed.

(** the records of all evaluations of a matrix, in terms of the polynomials *)
Lemma matrix_records ar polys M t N xs n : 0 < t -> length polys = N -> n <= length xs ->
  Forall (fun p => length p = t) polys ->
  (forall c p, c < t -> p < N -> nth p (nth c M []) x00 = nth c (nth p polys []) x00) ->
  flat_map (fun i => let x := badd (nth i xs x00) x01 in flat_map (fun k => mulRecords ar x (map (hornerAt (fun c => nth c M []) (S k) (t - 1) x) (seq 0 N))) (rev (seq 0 (t - 1)))) (seq 0 n) =
  splitRecords ar t polys (tagsOf n xs).
Proof.
  intros Ht LP Hn Hf HV. unfold splitRecords, tagsOf. rewrite flat_map_map.
  assert (Q : firstn n xs = map (fun i => nth i xs x00) (seq 0 n)).
  { apply nth_ext with x00 x00; [rewrite map_length, seq_length, firstn_length; lia|]. intros i Li. rewrite firstn_length in Li. rewrite nth_map_seq by lia. apply nth_firstn. lia. }
  rewrite Q, flat_map_map. apply flat_map_ext_in. intros i _. cbv zeta. apply flat_map_ext_in. intros k _. f_equal.
  rewrite (map_as_seq (fun p => peval (skipn (S k) p) (badd (nth i xs x00) x01)) polys []), LP. apply map_ext_in. intros p Hp. apply in_seq in Hp.
  rewrite Forall_forall in Hf. apply hornerAt_suffix; [exact Ht|apply Hf, nth_In; lia|]. intros c Hc. apply HV; lia.
Qed.

Lemma tSplitGeneric_records perm stream secret parts threshold :
  checkArgs secret parts threshold = None -> (parts <= Z.of_nat (length perm))%Z ->
  let t := Z.to_nat threshold in
  snd (tSplitGeneric perm stream secret parts threshold) =
  splitRecords ArchGeneric t (polysGen t secret (take_stream stream ((t - 1) * length secret))) (tagsOf (Z.to_nat parts) (map i2b perm)).
Proof.
  intros Hck Hp t. unfold tSplitGeneric. rewrite Hck.
  apply checkArgs_None in Hck as (Ht & Hpp & Hs). cbv zeta.
  set (N := length secret). set (n := Z.to_nat parts). set (xs := map i2b perm).
  assert (Hn : n <= length xs) by (unfold xs; rewrite map_length; lia).
  assert (HN : 0 < N) by (unfold N; destruct secret; [congruence|cbn; lia]).
  assert (Hdeg : Z.to_nat (threshold - 1) = t - 1) by (unfold t; lia).
  assert (Ht0 : 0 < t) by lia.
  rewrite layoutRows_ok by exact Hn. rewrite (snd_tlift _ _ _ eq_refl). rewrite makePolynomials_ok, Hdeg. rewrite (snd_tlift _ _ _ eq_refl). fold N.
  replace (t - 1 + 1) with t by lia.
  set (polys := polysGen t secret (take_stream stream ((t - 1) * N))).
  assert (Lp : length polys = N) by (unfold polys, polysGen; rewrite map_length, seq_length; reflexivity).
  assert (Fp : Forall (fun p => length p = t) polys).
  { apply Forall_forall. intros q Hq. unfold polys, polysGen in Hq. apply in_map_iff in Hq as (p & <- & Hpp'). apply in_seq in Hpp'.
    cbn [length]. rewrite row_length; [lia|]. rewrite take_stream_length. fold N in Hpp'. nia. }
  destruct (transpose_ok polys t) as (M & E2 & LM & VM).
  { intros E. rewrite E in Lp. cbn in Lp. lia. }
  { intros j Hj. rewrite Forall_forall in Fp. apply Fp, nth_In, Hj. }
  rewrite E2. rewrite (snd_tlift _ _ _ eq_refl). rewrite Lp in VM.
  rewrite <- (matrix_records ArchGeneric polys M t N xs n Ht0 Lp Hn Fp) by (intros c p Hc Hp'; apply VM; assumption).
  apply (tforeach_records (fun l s => (forall i, In i l -> i < n) /\ length s = n /\ forall i, i < n -> length (nth i s []) = N + 1)).
  - intros i r s (Li & Ls & Lr). pose proof (Li i (or_introl eq_refl)) as Hi. rewrite tagOf_ok by lia. rewrite (idx_ok s i []) by lia.
    assert (EV : fst (tgenericEvaluate M (badd (nth i xs x00) x01) (nth i s [])) = Ret (map (hornerAt (fun c => nth c M []) 0 (t - 1) (badd (nth i xs x00) x01)) (seq 0 N) ++ skipn N (nth i s []))).
    { rewrite tgenericEvaluate_erase. apply genericEvaluate_ok; [lia|intros c Hc; apply VM; lia|rewrite Lr by exact Hi; lia]. }
    eexists. split; [|split].
    + rewrite fst_tbind. cbn [fst tlift bind]. rewrite fst_tbind. cbn [fst tlift bind]. rewrite fst_tbind, EV. cbn [fst tlift bind]. apply upd_ok. lia.
    + rewrite (snd_tlift _ _ _ eq_refl), (snd_tlift _ _ _ eq_refl), (snd_tbind _ _ _ EV). cbn [snd tlift]. rewrite app_nil_r. cbv zeta.
      apply tgenericEvaluate_records; [lia|intros c Hc; apply VM; lia|rewrite Lr by exact Hi; lia].
    + split; [intros j Hj; apply Li; right; exact Hj|]. split; [rewrite set_nth_length; lia|]. intros j Hj. rewrite nth_set_nth by lia.
      destruct (j =? i); [|apply Lr, Hj]. rewrite app_length, map_length, seq_length, skipn_length, Lr by exact Hi. lia.
  - split; [intros i Hi; apply in_seq in Hi; lia|]. split; [rewrite map_length, seq_length; reflexivity|]. intros i Hi. rewrite nth_map_seq by exact Hi. rewrite app_length, zeros_length. reflexivity.
Qed.

Lemma tSplitWithRandomizerOld_records ar growcap ks evBufs secret parts threshold xs :
  grow_ok growcap -> checkArgs secret parts threshold = None ->
  Perm ks xff = Ret xs -> (parts <= Z.of_nat (length xs))%Z ->
  let t := Z.to_nat threshold in
  snd (tSplitWithRandomizerOld ar growcap ks evBufs secret parts threshold) =
  splitRecords ar t (polysOf t secret (take_stream ks (t * length secret))) (tagsOf (Z.to_nat parts) xs).
Proof.
  intros G Hck Hxs Hlx t. unfold tSplitWithRandomizerOld. rewrite Hck, Hxs. rewrite (snd_tlift _ _ _ eq_refl).
  apply checkArgs_None in Hck as (Ht & Hpp & Hs). cbv zeta.
  set (N := length secret). set (n := Z.to_nat parts).
  assert (Hn : n <= length xs) by lia.
  assert (HN : 0 < N) by (unfold N; destruct secret; [congruence|cbn; lia]).
  assert (Hdeg : Z.to_nat (threshold - 1) + 1 = t) by (unfold t; lia).
  assert (Ht0 : 0 < t) by lia.
  destruct (layoutFlat_ok N n xs) as (buff & E1 & L1 & R1); [lia|]. rewrite E1. rewrite (snd_tlift _ _ _ eq_refl).
  rewrite makePolynomialsWithRandomizer_ok, Hdeg. rewrite (snd_tlift _ _ _ eq_refl). fold N.
  set (polys := polysOf t secret (take_stream ks (t * N))).
  assert (Lp : length polys = N) by apply polysOf_length.
  assert (Fp : Forall (fun p => length p = t) polys) by (apply polysOf_row_length; [exact Ht0|apply take_stream_length]).
  destruct (transpose_ok polys t) as (M & E2 & LM & VM).
  { intros E. rewrite E in Lp. cbn in Lp. lia. }
  { intros j Hj. rewrite Forall_forall in Fp. apply Fp, nth_In, Hj. }
  rewrite E2. rewrite (snd_tlift _ _ _ eq_refl). rewrite Lp in VM.
  rewrite <- (matrix_records ar polys M t N xs n Ht0 Lp Hn Fp) by (intros c p Hc Hp'; apply VM; assumption).
  pose (step := fun i buff =>
         let s := (N + 1) * i in
         tdo w <- tlift (slice buff s (s + N + 1));
         tdo x <- tlift (tagOf xs i);
         tdo w' <- tevaluateRows ar growcap (evBufs i) M x w;
         tret (splice buff s w')).
  assert (ST : forall i s, i < n -> length s = (N + 1) * n -> exists s', fst (step i s) = Ret s' /\ length s' = (N + 1) * n /\
    snd (step i s) = flat_map (fun k => mulRecords ar (badd (nth i xs x00) x01) (map (hornerAt (fun c => nth c M []) (S k) (t - 1) (badd (nth i xs x00) x01)) (seq 0 N))) (rev (seq 0 (t - 1)))).
  { intros i s Hi Ls. unfold step. cbv zeta. replace ((N + 1) * i + N + 1) with ((N + 1) * i + (N + 1)) by lia. rewrite slice_row by nia. rewrite tagOf_ok by lia.
    assert (Lr : length (row (N + 1) s i) = N + 1) by (apply row_length; nia).
    assert (EV : fst (tevaluateRows ar growcap (evBufs i) M (badd (nth i xs x00) x01) (row (N + 1) s i)) = Ret (map (hornerAt (fun c => nth c M []) 0 (t - 1) (badd (nth i xs x00) x01)) (seq 0 N) ++ skipn N (row (N + 1) s i))).
    { rewrite tevaluateRows_erase. apply evaluateMatrix_ok; [exact G|lia|intros c Hc; apply VM; lia|lia]. }
    eexists. split; [|split].
    - rewrite fst_tbind. cbn [fst tlift bind]. rewrite fst_tbind. cbn [fst tlift bind]. rewrite fst_tbind, EV. cbn [fst tret bind]. reflexivity.
    - rewrite splice_length; [exact Ls|]. rewrite app_length, map_length, seq_length, skipn_length, Lr. nia.
    - rewrite (snd_tlift _ _ _ eq_refl), (snd_tlift _ _ _ eq_refl), (snd_tbind _ _ _ EV). cbn [snd tret]. rewrite app_nil_r.
      apply tevaluateRows_records; [exact G|lia|intros c Hc; apply VM; lia|lia]. }
  assert (FO : exists o, fst (tforeach (seq 0 n) step buff) = Ret o).
  { assert (K : forall l s, (forall i, In i l -> i < n) -> length s = (N + 1) * n -> exists o, fst (tforeach l step s) = Ret o).
    { induction l as [|i l IH]; intros s Li Ls; [eexists; reflexivity|]. cbn [tforeach]. destruct (ST i s (Li i (or_introl eq_refl)) Ls) as (s' & A1 & A2 & _).
      rewrite fst_tbind, A1. cbn [bind]. apply IH; [intros j Hj; apply Li; right; exact Hj|exact A2]. }
    apply K; [intros i Hi; apply in_seq in Hi; lia|exact L1]. }
  destruct FO as (o & FO). rewrite (snd_tbind _ _ o FO). cbn [snd tlift]. rewrite app_nil_r.
  apply (tforeach_records (fun l s => (forall i, In i l -> i < n) /\ length s = (N + 1) * n)).
  - intros i r s (Li & Ls). destruct (ST i s (Li i (or_introl eq_refl)) Ls) as (s' & A1 & A2 & A3). exists s'. split; [exact A1|]. split; [exact A3|]. split; [intros j Hj; apply Li; right; exact Hj|exact A2].
  - split; [intros i Hi; apply in_seq in Hi; lia|exact L1].
Qed.

Lemma tSplitWithRandomizer_records fuel ar growcap ks polB trB evBufs secret parts threshold xs :
  grow_ok growcap -> checkArgs secret parts threshold = None ->
  GetUniqueBytes fuel ks (z2b parts) = Ret xs -> (parts <= Z.of_nat (length xs))%Z ->
  let t := Z.to_nat threshold in
  snd (tSplitWithRandomizer fuel ar growcap ks polB trB evBufs secret parts threshold) =
  splitRecords ar t (polysOf t secret (Read ks (firstn (t * length secret) (resetGrow growcap polB (t * length secret))))) (tagsOf (Z.to_nat parts) xs).
Proof.
  intros G Hck Hxs Hp t. unfold tSplitWithRandomizer. rewrite Hck, Hxs. rewrite (snd_tlift _ _ _ eq_refl). set (n := Z.to_nat parts). set (N := length secret).
  apply checkArgs_None in Hck as (Ht & Hpp & Hs).
  assert (HN : 0 < N) by (unfold N; destruct secret; [congruence|cbn; lia]).
  assert (Hdeg : Z.to_nat (threshold - 1) + 1 = t) by (unfold t; lia).
  assert (Ht0 : 0 < t) by lia. cbv zeta. rewrite Hdeg.
  destruct (layoutFlat_ok N n xs) as (buff & E1 & L1 & R1); [lia|].
  rewrite E1. rewrite (snd_tlift _ _ _ eq_refl).
  pose proof (resetGrow_length growcap polB (t * N) G) as HG1.
  rewrite slice_ok by lia. rewrite Nat.sub_0_r. cbn [skipn]. rewrite (snd_tlift _ _ _ eq_refl). unfold makePolynomialsWithBuffAndRandomizer.
  set (buf := Read ks (firstn (t * N) (resetGrow growcap polB (t * N)))).
  assert (Lbuf : length buf = t * N) by (unfold buf; rewrite Read_length, firstn_length; lia).
  destruct (setIntercepts_ok secret (Z.to_nat (threshold - 1)) buf) as (pol & E2 & L2 & R2).
  { rewrite Lbuf, Hdeg. reflexivity. }
  rewrite Hdeg in L2, R2. rewrite E2. rewrite (snd_tlift _ _ _ eq_refl). rewrite L2. fold N in L2, R2 |- *.
  pose proof (resetGrow_length growcap trB (t * N) G) as HG2.
  rewrite slice_ok by lia. rewrite (snd_tlift _ _ _ eq_refl).
  destruct (split_core ar growcap evBufs xs secret n t buf pol
     (firstn (t * N - 0) (skipn 0 (resetGrow growcap trB (t * N)))) buff) as (coef & E3 & L3 & V3 & o & E4 & E5); try assumption.
  { lia. }
  { rewrite firstn_length, skipn_length, L2. fold N. lia. }
  rewrite E3. rewrite (snd_tlift _ _ _ eq_refl). fold N in E4, E5, V3.
  rewrite (snd_tbind _ _ o) by (rewrite tevalLoop_erase; exact E4). cbn [snd tlift]. rewrite app_nil_r.
  rewrite (tevalLoop_records ar growcap evBufs coef N n (t - 1)); try assumption; [|lia|rewrite L3, L2; replace (t - 1 + 1) with t by lia; lia].
  set (M := map (row N coef) (seq 0 t)).
  assert (Lp : length (polysOf t secret buf) = N) by apply polysOf_length.
  rewrite <- (matrix_records ar (polysOf t secret buf) M t N xs n Ht0 Lp ltac:(lia)).
  - apply flat_map_ext_in. intros i _. cbv zeta. apply flat_map_ext_in. intros k _. f_equal. apply map_ext. intros p. unfold hornerAt. f_equal. apply map_ext_in. intros c Hc. apply in_seq in Hc.
    unfold M. rewrite nth_map_seq by lia. reflexivity.
  - apply polysOf_row_length; [exact Ht0|exact Lbuf].
  - intros c p Hc Hp'. unfold M. rewrite nth_map_seq by exact Hc. rewrite nth_row by exact Hp'. rewrite V3 by lia.
    unfold polysOf. rewrite nth_map_seq by exact Hp'. reflexivity.
Qed.
