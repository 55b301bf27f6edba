(** Facts about concurrent use of the whole library (C70). *)
From Coq Require Import List NArith ZArith Lia Arith Bool Permutation.
From Coq.Init Require Import Byte.
From Verif Require Import GoSem Bytes Spec SpecKr Galois GF PolyFacts GoFacts VectorFacts Vector Csprng Pool Polynomial PolynomialFacts Shamir SplitFacts CombineFacts
  Libs Krawczyk Concurrency SpecConc ConcFacts ConcSplit ConcAll SpecConcAll.
Import ListNotations.

(** ** the calls keep the rules of the pool *)
Lemma wbk_seq_keep {A B} own (m : prog A) (f : A -> B) : wbk own m -> wbk own (pmap f m).
Proof. intros W. apply wbk_bind; [exact W|]. intros a. apply wbk_done. Qed.

Lemma wbk_evaluateAt ar growcap own coefficients x out : wbk own (evaluateAtP ar growcap coefficients x out).
Proof.
  unfold evaluateAtP. apply wbk_bind; [apply wbk_done|]. intros c0. cbv zeta. apply wbk_get. intros rb Hrb.
  assert (Ir : In rb (rb :: own)) by (left; reflexivity).
  piece; [apply wbk_resetGrow, Ir|]. intros _. piece; [apply wbk_bytes, Ir|]. intros _.
  piece; [apply wbk_done|]. intros top. piece; [apply wbk_storeN, Ir|]. intros _.
  piece.
  - apply wbk_foreach. intros i loc. apply wbk_bind; [apply wbk_done|]. intros ci.
    apply wbk_bind; [destruct loc; [apply wbk_done|apply wbk_loadN, Ir]|]. intros result.
    apply wbk_bind; [apply wbk_done|]. intros m. apply wbk_bind; [apply wbk_done|]. intros r.
    destruct ar; try apply wbk_done. apply wbk_bind; [apply wbk_storeN, Ir|]. intros _. apply wbk_bind; [apply wbk_storeN, Ir|]. intros _. apply wbk_done.
  - intros loc. piece; [destruct loc; [apply wbk_done|apply wbk_loadN, Ir]|]. intros result. piece; [apply wbk_done|]. intros w.
    cbn [wbQ pret]. split; [exact Ir|]. apply remove_head, Hrb.
Qed.

Lemma wbk_Old ar growcap ks secret parts threshold own : wbk own (SplitWithRandomizerOldProg ar growcap ks secret parts threshold).
Proof.
  unfold SplitWithRandomizerOldProg. destruct (checkArgs secret parts threshold); [apply wbk_done|]. cbv zeta.
  do 4 (apply wbk_bind; [apply wbk_done|]; intros ?). apply wbk_bind; [|intros ?; apply wbk_done]. apply wbk_foreach. intros i buff.
  do 2 (apply wbk_bind; [apply wbk_done|]; intros ?). apply wbk_bind; [apply wbk_evaluateAt|]. intros ?. apply wbk_done.
Qed.

Lemma wbk_krSplitWith E zp key share secret parts threshold own : (forall s p t, wbk own (share s p t)) -> wbk own (krSplitWithProg E zp key share secret parts threshold).
Proof.
  intros W. unfold krSplitWithProg. destruct (krCheck _ parts threshold); [apply wbk_done|]. apply wbk_bind; [apply wbk_done|]. intros c.
  destruct (rsNew zp threshold (parts - threshold)); [apply wbk_done|]. cbv zeta. do 3 (apply wbk_bind; [apply wbk_done|]; intros ?).
  apply wbk_bind; [apply W|]. intros ?. apply wbk_done.
Qed.

Lemma wbk_api b c own : wbk own (apiProg b c).
Proof.
  destruct c; cbn [apiProg]; try apply wbk_done; apply wbk_seq_keep.
  - exact (wbk_call _ _ (CSplit perm stream secret parts threshold) own).
  - exact (wbk_call _ _ (CSplitWithRandomizer fuel ks secret parts threshold) own).
  - apply wbk_Old.
  - apply wbk_krSplitWith. intros s p t. exact (wbk_call _ _ (CSplit perm stream s p t) own).
  - apply wbk_krSplitWith. intros s p t. exact (wbk_call _ _ (CSplitWithRandomizer fuel ks s p t) own).
Qed.

Lemma wb_client b n next : forall own results, well_behaved own (client b n next results).
Proof.
  intros own results. apply wbQ_wb with (Q := fun _ _ => True). revert own results. induction n as [|n IH]; intros own results; cbn [client]; [exact I|].
  destruct (next results) as [c|]; [|exact I]. apply wbQ_seq. eapply wbQ_mono; [|apply wbk_api]. intros own' o _. destruct o; try exact I; apply IH.
Qed.

(** ** what they return alone *)
Lemma aw_evaluateAt ar growcap coefficients x out own h N : grow_ok growcap -> coefficients <> [] -> (forall c, In c coefficients -> length c = N) ->
  aw own h (evaluateAtP ar growcap coefficients x out)
    (follows own (fun (r : list byte) h' t => r = t) (evaluatePolynomialsAt ar growcap [] coefficients x out)).
Proof.
  intros G Hne HN. unfold evaluateAtP, evaluatePolynomialsAt. assert (L0 : 0 < length coefficients) by (destruct coefficients; [congruence|cbn; lia]).
  assert (HI : forall i, i < length coefficients -> exists c, idx coefficients i = Ret c /\ length c = N).
  { intros i Hi. exists (nth i coefficients []). split; [apply idx_ok, Hi|]. apply HN, nth_In, Hi. }
  apply aw_bind_done. destruct (HI 0 L0) as (c0 & E0 & Lc0). rewrite E0. cbn [bind]. cbv zeta. rewrite Lc0.
  assert (Lg : N <= length (resetGrow growcap [] N)) by (apply resetGrow_len, G).
  rewrite (slice_ok (resetGrow growcap [] N)) by (try lia; exact Lg). cbn [bind].
  cbn [aw]. intros rb c Hrb.
  eapply aw_bind_R; [apply awR_resetGrow, G|]. intros h1 (_ & L1 & F1).
  eapply aw_bind_R; [apply awR_bytes, L1|]. intros ? ->.
  set (degree := length coefficients - 1). destruct (HI degree ltac:(unfold degree; lia)) as (top & Et & Lt). rewrite Et. cbn [bind]. apply aw_bind_done.
  rewrite Nat.sub_0_r. rewrite gocopy_same by (rewrite firstn_length, skipn_length; lia). rewrite (firstn_all2 (n := N) top) by lia.
  eapply aw_bind_R; [apply awR_storeN; lia|]. intros h2 (S2 & F2).
  apply aw_bind.
  set (R := fun (loc : option (list byte)) (h' : nat -> list byte) (t : list byte) =>
     (match loc with Some r => r | None => firstn N (h' rb) end) = t /\ length t = N /\ N <= length (h' rb)).
  match goal with |- context [bind (foreach (rev (seq 0 degree)) ?g top) _] => set (Gf := g) end.
  match goal with |- context [pforeach (rev (seq 0 degree)) ?f None] => set (Pf := f) end.
  assert (LOOP : aw (rb :: own) h2 (pforeach (rev (seq 0 degree)) Pf None) (follows (rb :: own) R (foreach (rev (seq 0 degree)) Gf top))).
  { apply aw_foreach.
    - intros i loc h' t Hi (E & Lt' & Lr). unfold Pf, Gf. apply in_rev, in_seq in Hi.
      destruct (HI i ltac:(unfold degree in Hi; lia)) as (ci & Ei & Lci). rewrite Ei. cbn [bind]. apply aw_bind_done.
      assert (LL : awR (rb :: own) h' (match loc with Some r => pret r | None => loadN rb 0 N end) t (fun h'' => h'' = h')).
      { destruct loc as [r|]; [subst r; unfold awR; cbn; auto|]. rewrite <- E. apply (awR_loadN _ _ _ _ 0). exact Lr. }
      eapply aw_bind_R; [exact LL|]. intros ? ->.
      rewrite MulConstVector_ok. cbn [bind]. rewrite AddVector_ok by (rewrite map_length; congruence).
      apply aw_bind_done. apply aw_bind_done. rewrite ?AddVector_ok by (rewrite map_length; congruence). set (m := map (gmul x) t). set (r := xor_bytes ci m).
      assert (Lm : length m = N) by (unfold m; rewrite map_length; exact Lt').
      assert (Lrr : length r = N) by (unfold r; rewrite xor_bytes_length; congruence).
      destruct ar; [|cbn [aw pret follows]; exists (Some r); repeat split; assumption..].
      eapply aw_bind_R; [apply awR_storeN; lia|]. intros h3 (S3 & F3).
      assert (L3 : length (h3 rb) = length (h' rb)) by (rewrite S3, splice_length; lia).
      eapply aw_bind_R; [apply awR_storeN; lia|]. intros h4 (S4 & F4). cbn [aw pret follows]. exists None. split; [reflexivity|]. split; [reflexivity|].
      unfold R. split; [rewrite S4; rewrite <- Lrr at 1; apply firstn_splice_0; lia|]. split; [exact Lrr|]. rewrite S4, splice_length; lia.
    - unfold R. split; [rewrite S2; rewrite <- Lt at 1; apply firstn_splice_0; lia|]. split; [exact Lt|]. rewrite S2, splice_length; lia. }
  eapply aw_mono; [|exact LOOP]. intros own' h3 o Ho. unfold follows in Ho. destruct (foreach (rev (seq 0 degree)) Gf top) as [res|?|?| |]; cbn [bind]; try (subst o; reflexivity).
  destruct Ho as (loc & -> & -> & E & Lres & Lr).
  assert (LL : awR (rb :: own) h3 (match loc with Some r => pret r | None => loadN rb 0 N end) res (fun h'' => h'' = h3)).
  { destruct loc as [r|]; [subst r; unfold awR; cbn; auto|]. rewrite <- E. apply (awR_loadN _ _ _ _ 0). exact Lr. }
  eapply aw_bind_R; [exact LL|]. intros ? ->. apply aw_bind_done. destruct (slice out 0 N) as [w|?|?| |]; cbn [bind]; try reflexivity.
  cbn [aw pret]. rewrite remove_head by exact Hrb. cbn [follows]. eexists. repeat split.
Qed.

Lemma aw_Old ar growcap ks secret parts threshold own h : grow_ok growcap ->
  aw own h (SplitWithRandomizerOldProg ar growcap ks secret parts threshold)
    (fun own' h' o => o = SplitWithRandomizerOld ar growcap ks (fun _ => []) secret parts threshold).
Proof.
  intros G. unfold SplitWithRandomizerOldProg, SplitWithRandomizerOld. destruct (checkArgs secret parts threshold) eqn:Ck; [reflexivity|]. cbv zeta.
  apply checkArgs_None in Ck as (T2 & T3 & Hs). set (N := length secret) in *. set (n := Z.to_nat parts).
  apply aw_bind_done. destruct (Perm ks xff) as [xs|?|?| |]; cbn [bind]; try reflexivity.
  apply aw_bind_done. destruct (layoutFlat N n xs) as [buff|?|?| |]; cbn [bind]; try reflexivity.
  apply aw_bind_done. rewrite makePolynomialsWithRandomizer_ok. cbn [bind].
  set (polys := polysOf (Z.to_nat (threshold - 1) + 1) secret (take_stream ks ((Z.to_nat (threshold - 1) + 1) * length secret))).
  assert (Lp : length polys = N) by apply polysOf_length.
  assert (HN0 : 0 < N) by (unfold N; destruct secret; [congruence|cbn; lia]).
  destruct (transpose_ok polys (Z.to_nat (threshold - 1) + 1)) as (cf & Ec & Lc & Rc).
  { intros Q. rewrite Q in Lp. cbn in Lp. lia. }
  { assert (Fp : Forall (fun p => length p = Z.to_nat (threshold - 1) + 1) polys) by (apply polysOf_row_length; [lia|apply take_stream_length]).
    rewrite Forall_forall in Fp. intros j Hj. apply Fp, nth_In, Hj. }
  apply aw_bind_done. rewrite Ec. cbn [bind].
  assert (HC : forall c, In c cf -> length c = N).
  { intros c Hc. apply (In_nth _ _ []) in Hc as (i & Hi & <-). rewrite (proj1 (Rc i ltac:(lia))). exact Lp. }
  set (body := fun i buff => do w <- slice buff ((N + 1) * i) ((N + 1) * i + N + 1); do x <- tagOf xs i; do w' <- evaluatePolynomialsAt ar growcap [] cf x w; Ret (splice buff ((N + 1) * i) w')).
  apply aw_bind. eapply aw_mono; [|apply (aw_foreach own (fun (s : list byte) (_ : nat -> list byte) t => s = t) _ body); [|reflexivity]].
  2:{ intros i s h0 t Hi ->. unfold body.
      apply aw_bind_done. destruct (slice t ((N + 1) * i) ((N + 1) * i + N + 1)) as [w|?|?| |]; cbn [bind]; [|reflexivity..].
      apply aw_bind_done. destruct (tagOf xs i) as [x|?|?| |]; cbn [bind]; [|reflexivity..].
      apply aw_bind. eapply aw_mono; [|apply (aw_evaluateAt ar growcap cf x w own h0 N G); [intros Q; rewrite Q in Lc; cbn in Lc; lia|exact HC]].
      intros own' h' o Ho. unfold follows in Ho. destruct (evaluatePolynomialsAt ar growcap [] cf x w) as [o'|?|?| |]; cbn [bind]; try (subst o; cbn; reflexivity).
      destruct Ho as (r & -> & -> & ->). cbn. eexists. repeat split. }
  intros own' h' o Ho. unfold follows in Ho. cbv beta in Ho.
  change (match o with Ret a => aw own' h' (PDone (windows N n a)) (fun _ _ o0 => o0 = (do bf <- foreach (seq 0 n) body buff; windows N n bf)) | _ => pfail o = (do bf <- foreach (seq 0 n) body buff; windows N n bf) end).
  destruct (foreach (seq 0 n) body buff) as [bf|?|?| |]; cbn [bind].
  2,3,4,5: subst o; reflexivity.
  destruct Ho as (r & -> & -> & ->). reflexivity.
Qed.

Lemma aw_krSplitWith {X} E zp key shareP (share : X -> list byte -> Z -> Z -> outcome (list (list byte))) (x0 : X) secret parts threshold own h :
  (forall s p t own h, aw own h (shareP s p t) (fun own' h' o => exists x, o = share x s p t)) ->
  aw own h (krSplitWithProg E zp key shareP secret parts threshold)
    (fun own' h' o => exists x, o = krSplitWith E zp key (share x) secret parts threshold).
Proof.
  intros W. unfold krSplitWithProg, krSplitWith. destruct (krCheck _ parts threshold); [exists x0; reflexivity|].
  apply aw_bind_done. destruct (encrypt E secret key) as [c|?|?| |]; cbn [bind]; try (exists x0; reflexivity).
  destruct (rsNew zp threshold (parts - threshold)); [exists x0; reflexivity|]. cbv zeta.
  apply aw_bind_done. destruct (rsSplit (Z.to_nat threshold) (Z.to_nat parts) c) as [e1|?|?| |]; cbn [bind]; try (exists x0; reflexivity).
  apply aw_bind_done. destruct (rsEncode (Z.to_nat threshold) (Z.to_nat parts) e1) as [e2|?|?| |]; cbn [bind]; try (exists x0; reflexivity).
  apply aw_bind_done. match goal with |- match ?Y with _ => _ end => destruct Y as [e3|?|?| |] end; cbn [bind]; try (exists x0; reflexivity).
  apply aw_bind. eapply aw_mono; [|apply W]. intros own' h' o (x & ->). destruct (share x _ parts threshold) as [m|?|?| |] eqn:Es; cbn [aw pfail bind].
  all: exists x; rewrite Es; reflexivity.
Qed.

(** the outcome of a call made alone, on some pool *)
Definition apiTo (b : build) (c : apicall) (o : outcome result) : Prop :=
  exists polB trB, o = match c with
  | ASplit perm stream secret parts threshold => omap RShares (Split (b_arch b) (b_grow b) perm stream polB trB (fun _ => []) secret parts threshold)
  | ASplitWithRandomizer fuel ks secret parts threshold => omap RShares (SplitWithRandomizer fuel (b_arch b) (b_grow b) ks polB trB (fun _ => []) secret parts threshold)
  | ASplitWithRandomizerOld ks secret parts threshold => omap RShares (SplitWithRandomizerOld (b_arch b) (b_grow b) ks (fun _ => []) secret parts threshold)
  | ASplitGeneric perm stream secret parts threshold => omap RShares (SplitGeneric perm stream secret parts threshold)
  | ACombine shares => omap RSecret (Combine shares)
  | ARegenerate fuel stream u shares n => omap RShares (Regenerate fuel stream u shares n)
  | AKrSplit krand perm stream secret parts threshold => omap RShares (krSplit (b_cipher b) (b_zp b) (b_arch b) (b_grow b) krand perm stream polB trB (fun _ => []) secret parts threshold)
  | AKrSplitWithRandomizer fuel ks secret parts threshold => omap RShares (krSplitWithRandomizer fuel (b_cipher b) (b_zp b) (b_arch b) (b_grow b) ks polB trB (fun _ => []) secret parts threshold)
  | AKrCombine shares parts threshold => omap RSecret (krCombineCap (b_cipher b) (b_zp b) (b_rd b) shares parts threshold)
  end.

Lemma aw_pmap {A B} (f : A -> B) (p : prog A) own h (Q : outcome A -> Prop) : aw own h p (fun _ _ o => Q o) -> aw own h (pmap f p) (fun _ _ o => exists o', Q o' /\ o = omap f o').
Proof. intros W. apply aw_bind. eapply aw_mono; [|exact W]. intros own' h' [a|e|x| |] H; cbn [aw pret]; eexists; (split; [exact H|reflexivity]). Qed.

Lemma aw_api b c own h : grow_ok (b_grow b) -> aw own h (apiProg b c) (fun own' h' o => apiTo b c o).
Proof.
  intros G. destruct c; cbn [apiProg]; try (exists [], []; reflexivity).
  - eapply aw_mono; [|apply aw_pmap; apply (aw_call (b_arch b) (b_grow b) (CSplit perm stream secret parts threshold) own h G)].
    intros own' h' o (o' & (polB & trB & ->) & ->). exists polB, trB. reflexivity.
  - eapply aw_mono; [|apply aw_pmap; apply (aw_call (b_arch b) (b_grow b) (CSplitWithRandomizer fuel ks secret parts threshold) own h G)].
    intros own' h' o (o' & (polB & trB & ->) & ->). exists polB, trB. reflexivity.
  - eapply aw_mono; [|apply aw_pmap; apply (aw_Old (b_arch b) (b_grow b) ks secret parts threshold own h G)].
    intros own' h' o (o' & -> & ->). exists [], []. reflexivity.
  - eapply aw_mono; [|apply aw_pmap].
    2:{ apply (aw_krSplitWith (X := bbuf * bbuf) (b_cipher b) (b_zp b) (take_stream krand LenKey) _ (fun x => Split (b_arch b) (b_grow b) perm stream (fst x) (snd x) (fun _ => [])) ([], [])).
        intros s p t own0 h0. eapply aw_mono; [|apply (aw_call (b_arch b) (b_grow b) (CSplit perm stream s p t) own0 h0 G)].
        intros own' h' o (polB & trB & ->). exists (polB, trB). reflexivity. }
    intros own' h' o (o' & (x & ->) & ->). exists (fst x), (snd x). reflexivity.
  - eapply aw_mono; [|apply aw_pmap].
    2:{ apply (aw_krSplitWith (X := bbuf * bbuf) (b_cipher b) (b_zp b) (Read ks (zeros LenKey)) _ (fun x => SplitWithRandomizer fuel (b_arch b) (b_grow b) ks (fst x) (snd x) (fun _ => [])) ([], [])).
        intros s p t own0 h0. eapply aw_mono; [|apply (aw_call (b_arch b) (b_grow b) (CSplitWithRandomizer fuel ks s p t) own0 h0 G)].
        intros own' h' o (polB & trB & ->). exists (polB, trB). reflexivity. }
    intros own' h' o (o' & (x & ->) & ->). exists (fst x), (snd x). reflexivity.
Qed.

(** a client makes its calls one after the other, and each returns what it returns alone *)
Lemma aw_client b next : grow_ok (b_grow b) -> forall n results own h,
  aw own h (client b n next results) (fun _ _ o =>
    exists new calls, calls_made next results new = Some calls /\ Forall (fun co => apiTo b (fst co) (snd co) /\ ~ fatal (snd co)) calls /\
      ((o = Ret (results ++ new) /\ (length new = n \/ next (results ++ new) = None)) \/
       (exists c bad, length new < n /\ next (results ++ new) = Some c /\ apiTo b c bad /\ fatal bad /\ o = pfail bad))).
Proof.
  intros G. induction n as [|n IH]; intros results own h; cbn [client].
  - cbn. exists [], []. rewrite app_nil_r. split; [reflexivity|]. split; [constructor|]. left. split; [reflexivity|left; reflexivity].
  - destruct (next results) as [c|] eqn:En.
    2:{ cbn. exists [], []. rewrite app_nil_r. split; [reflexivity|]. split; [constructor|]. left. split; [reflexivity|right; exact En]. }
    apply aw_seq; [reflexivity|]. eapply aw_mono; [|apply aw_api, G]. intros own' h' o Ho.
    assert (REC : ~ fatal o -> aw own' h' (client b n next (results ++ [o])) (fun _ _ o0 =>
      exists new calls, calls_made next results new = Some calls /\ Forall (fun co => apiTo b (fst co) (snd co) /\ ~ fatal (snd co)) calls /\
      ((o0 = Ret (results ++ new) /\ (length new = Datatypes.S n \/ next (results ++ new) = None)) \/
       (exists c bad, length new < Datatypes.S n /\ next (results ++ new) = Some c /\ apiTo b c bad /\ fatal bad /\ o0 = pfail bad)))).
    { intros NF. eapply aw_mono; [|apply IH]. intros o1 h1 x (new & calls & C1 & C2 & C3). exists (o :: new), ((c, o) :: calls). split; [cbn [calls_made]; rewrite En, C1; reflexivity|].
      split; [constructor; [split; assumption|exact C2]|]. rewrite <- app_assoc in C3. cbn [app] in C3. destruct C3 as [(C3 & C4)|(c' & bad & C3 & C4 & C5)]; [left|right].
      - split; [exact C3|]. destruct C4 as [C4|C4]; [left; cbn [length]; lia|right; exact C4].
      - exists c', bad. split; [cbn [length]; lia|]. split; [exact C4|exact C5]. }
    destruct o as [r|e|p| |]; try (apply REC; intros []); cbn [aw pfail bind].
    all: exists [], []; rewrite app_nil_r; split; [reflexivity|]; split; [constructor|]; right; exists c; eexists; split; [cbn; lia|]; split; [exact En|]; split; [exact Ho|split; [exact I|reflexivity]].
Qed.
