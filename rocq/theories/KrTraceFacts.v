(** Facts about the access pattern of krawczyk (C86). *)
From Coq Require Import List NArith ZArith Lia Arith Bool Permutation.
From Coq.Init Require Import Byte.
From Verif Require Import GoSem Bytes Spec SpecKr Galois Vector Csprng Pool Polynomial Shamir GoFacts GF VectorFacts PolyFacts PolynomialFacts SplitFacts CombineFacts
  Libs Krawczyk KrawczykFacts KrawczykCombine KrawczykContract RandomizerFacts CountFacts Pf6 Asm Trace SpecTrace TraceFacts TraceMore TraceMoreFacts CombineTrace Pf19 KrTrace.
Import ListNotations.
Local Open Scope go_scope.

Lemma bind_assoc' {A B C} (o : outcome A) (f : A -> outcome B) (g : B -> outcome C) : bind (bind o f) g = bind o (fun a => bind (f a) g).
Proof. destruct o; reflexivity. Qed.

Lemma tkrSplitWith_erase E zp key share secret parts threshold :
  fst (tkrSplitWith E zp key share secret parts threshold) = krSplitWith E zp key (fun s n t => fst (share s n t)) secret parts threshold.
Proof.
  unfold tkrSplitWith, krSplitWith. destruct (krCheck (length secret) parts threshold); [reflexivity|].
  rewrite fst_tbind. cbn [fst tlift]. apply bind_ext. intros c. destruct (rsNew zp threshold (parts - threshold)); [reflexivity|]. cbv zeta.
  do 3 (rewrite fst_tbind; cbn [fst tlift]; apply bind_ext; intros ?).
  rewrite fst_tbind. apply bind_ext. intros ms. reflexivity.
Qed.

Lemma krSplitWith_ext E zp key share share' secret parts threshold : (forall s n t, share s n t = share' s n t) ->
  krSplitWith E zp key share secret parts threshold = krSplitWith E zp key share' secret parts threshold.
Proof.
  intros H. unfold krSplitWith. destruct (krCheck (length secret) parts threshold); [reflexivity|].
  apply bind_ext. intros c. destruct (rsNew zp threshold (parts - threshold)); [reflexivity|]. cbv zeta.
  do 3 (apply bind_ext; intros ?). rewrite H. reflexivity.
Qed.

Lemma tbind_lift {A B} (o : outcome A) (k : A -> T B) a : o = Ret a -> tbind (tlift o) k = k a.
Proof. intros ->. unfold tbind, tlift. cbn [fst snd app]. destruct (k a). reflexivity. Qed.
Lemma tbind_lift_bad {A B} (o : outcome A) (k : A -> T B) r : fst (tbind (tlift o) k) = Ret r -> exists a, o = Ret a.
Proof. unfold tbind, tlift. cbn [fst]. destruct o; cbn; try discriminate. eauto. Qed.

(** a krawczyk split that returns has called the shamir split with the 20 bytes of key and length, and leaves its records *)
Lemma tkrSplitWith_records E zp key share secret parts threshold shares : length key = 16 ->
  fst (tkrSplitWith E zp key share secret parts threshold) = Ret shares ->
  snd (tkrSplitWith E zp key share secret parts threshold) = snd (share (krMeta key (length secret)) parts threshold).
Proof.
  intros Hk R. unfold tkrSplitWith in *. destruct (krCheck (length secret) parts threshold); [discriminate|].
  rewrite encrypt_ok in * by (unfold aesKeyOk; rewrite Hk; reflexivity). fold (krCipher E key secret) in *.
  rewrite (tbind_lift _ _ _ eq_refl) in *.
  destruct (rsNew zp threshold (parts - threshold)); [discriminate|]. cbv zeta in *.
  do 3 (match goal with H : fst (tbind (tlift ?o) ?k) = _ |- _ => destruct (tbind_lift_bad _ _ _ H) as (? & ?); erewrite (tbind_lift o k) in * by eassumption end).
  rewrite krCipher_length in *. fold (krMeta key (length secret)) in *.
  unfold tbind in *. cbn [fst snd tlift] in *. destruct (share (krMeta key (length secret)) parts threshold) as [[ms|e|p| |] l]; cbn [fst snd] in *; apply app_nil_r.
Qed.

Lemma tkrSplit_erase E zp ar growcap krand perm stream polB trB evBufs secret parts threshold :
  fst (tkrSplit E zp ar growcap krand perm stream polB trB evBufs secret parts threshold) = krSplit E zp ar growcap krand perm stream polB trB evBufs secret parts threshold.
Proof. unfold tkrSplit, krSplit. rewrite tkrSplitWith_erase. apply krSplitWith_ext. intros. apply tSplit_erase. Qed.

Lemma tkrSWR_erase fuel E zp ar growcap ks polB trB evBufs secret parts threshold :
  fst (tkrSplitWithRandomizer fuel E zp ar growcap ks polB trB evBufs secret parts threshold) = krSplitWithRandomizer fuel E zp ar growcap ks polB trB evBufs secret parts threshold.
Proof. unfold tkrSplitWithRandomizer, krSplitWithRandomizer. rewrite tkrSplitWith_erase. apply krSplitWith_ext. intros. apply tSplitWithRandomizer_erase. Qed.

Lemma krShares_meta E key s t ms n : length ms = n -> (forall i, i < n -> length (nth i ms []) = 21) -> map kr_meta (map (krShare E key s t ms) (seq 0 n)) = ms.
Proof.
  intros L M. rewrite map_map. transitivity (map (fun i => nth i ms []) (seq 0 n)); [|rewrite <- L; symmetry; apply list_as_map].
  apply map_ext_in. intros i Hi. apply in_seq in Hi. apply krShare_meta, M. lia.
Qed.

(** what a recorded split that returns has done *)
Lemma tkrSplit_inner E zp ar growcap krand perm stream polB trB evBufs secret parts threshold shares records :
  grow_ok growcap -> Permutation perm (seq 0 255) ->
  tkrSplit E zp ar growcap krand perm stream polB trB evBufs secret parts threshold = (Ret shares, records) ->
  kr_valid_args zp secret parts threshold /\ krSplit E zp ar growcap krand perm stream polB trB evBufs secret parts threshold = Ret shares /\
  tSplit ar growcap perm stream polB trB evBufs (krMeta (take_stream krand 16) (length secret)) parts threshold = (Ret (map kr_meta shares), records) /\
  kr_shape E secret (take_stream krand 16) (Z.to_nat parts) (Z.to_nat threshold) shares.
Proof.
  intros G P R. pose proof (f_equal fst R) as R1. pose proof (f_equal snd R) as R2. cbn [fst snd] in R1, R2.
  pose proof R1 as R1'. rewrite tkrSplit_erase in R1.
  assert (V : kr_valid_args zp secret parts threshold) by (apply (C34_contract_pf E zp ar growcap krand perm stream polB trB evBufs secret parts threshold G P); exists shares; exact R1).
  split; [exact V|]. split; [exact R1|].
  destruct (krSplit_ok E zp ar growcap krand perm stream polB trB evBufs secret parts threshold G P V) as (ms & polys & E1 & E2 & S & E3).
  unfold tkrSplit in R1', R2. change LenKey with 16 in R1', R2. rewrite (tkrSplitWith_records _ _ _ _ _ _ _ shares (take_stream_length _ _) R1') in R2.
  rewrite E3 in R1. injection R1 as <-. split.
  - rewrite krShares_meta; [|exact E2|].
    + rewrite (surjective_pairing (tSplit _ _ _ _ _ _ _ _ _ _)), tSplit_erase. rewrite E1, R2. reflexivity.
    + intros i Hi. rewrite (is_sharing_lengths _ _ _ _ _ i S) by lia. rewrite krMeta_length by apply take_stream_length. reflexivity.
  - exact (kr_shape_ok E zp secret (take_stream krand 16) parts threshold ms polys _ V (take_stream_length _ _) E2 S).
Qed.

(** key, length and [threshold] pieces determine the secret *)
Lemma kr_shape_secret E s1 s2 key n t sh1 sh2 is : 0 < t -> n <= 255 -> length s1 = length s2 ->
  kr_shape E s1 key n t sh1 -> kr_shape E s2 key n t sh2 -> selection n t is ->
  map kr_piece (pick [] sh1 is) = map kr_piece (pick [] sh2 is) -> s1 = s2.
Proof.
  intros Ht Hn LS (A1 & _ & _ & (B1 & C1) & c1 & (O1 & O1') & D1) (A2 & _ & _ & (B2 & C2) & c2 & (O2 & O2') & D2) (ND & Hi & Lis) EQ.
  rewrite <- LS in *. set (len := ceil_div (length s1) t) in *.
  assert (Tn : t <= n). { etransitivity; [exact Lis|]. rewrite <- (seq_length n 0). apply NoDup_incl_length; [exact ND|]. intros i I. apply in_seq. specialize (Hi i I). lia. }
  assert (PQ : forall i, In i is -> kr_piece (nth i sh1 []) = kr_piece (nth i sh2 [])).
  { intros i I. unfold pick in EQ. rewrite !map_map in EQ. apply In_nth with (d := 0) in I as (k & Hk & <-).
    apply (f_equal (fun l => nth k l [])) in EQ. rewrite !(nth_map' (fun i => kr_piece (nth i _ [])) is k [] 0) in EQ by exact Hk. exact EQ. }
  assert (PA : forall i, i < n -> kr_piece (nth i sh1 []) = kr_piece (nth i sh2 [])).
  { intros i I. apply nth_ext with x00 x00; [rewrite B1, B2 by exact I; reflexivity|]. intros k Hk. rewrite B1 in Hk by exact I.
    destruct (C1 k Hk) as (f1 & F1 & F1'). destruct (C2 k Hk) as (f2 & F2 & F2'). rewrite F1', F2' by exact I. f_equal.
    apply (poly_unique f1 f2 (map i2b is)); [congruence|rewrite map_length; lia| |].
    - apply NoDup_nth with (d := x00). rewrite map_length. intros a b Ha Hb X. rewrite !(nth_map' i2b is _ x00 0) in X by assumption.
      apply (f_equal b2i) in X. rewrite !b2i_i2b in X by (assert (nth a is 0 < n) by (apply Hi, nth_In, Ha); assert (nth b is 0 < n) by (apply Hi, nth_In, Hb); lia).
      exact (proj1 (NoDup_nth is 0) ND a b Ha Hb X).
    - intros r Hr. apply in_map_iff in Hr as (j & <- & Hj). rewrite <- !peval_heval. rewrite <- F1', <- F2' by (apply Hi, Hj). rewrite (PQ j Hj). reflexivity. }
  assert (EF : map kr_piece (firstn t sh1) = map kr_piece (firstn t sh2)).
  { apply nth_ext with [] []; [rewrite !map_length, !firstn_length, A1, A2; reflexivity|]. intros i I. rewrite map_length, firstn_length, A1 in I.
    rewrite (nth_map' kr_piece (firstn t sh1) i [] []), (nth_map' kr_piece (firstn t sh2) i [] []) by (rewrite firstn_length; lia). rewrite !nth_firstn by lia. apply PA. lia. }
  rewrite EF, D2 in D1. apply app_inj in D1 as [D1 _]; [|congruence]. subst c2.
  apply nth_ext with x00 x00; [exact LS|]. intros i I. specialize (O1' i I). specialize (O2' i ltac:(lia)). rewrite O1' in O2'. symmetry. symmetry in O2'. exact (cancel_r _ _ _ O2').
Qed.

(** ** Combine *)
Lemma tkrCombineCap_erase E zp rd ss parts threshold : fst (tkrCombineCap E zp rd ss parts threshold) = krCombineCap E zp rd ss parts threshold.
Proof.
  unfold tkrCombineCap, krCombineCap. rewrite fst_tbind. cbn [fst tlift]. apply bind_ext. intros s0.
  destruct (krCheck _ parts threshold); [reflexivity|]. cbv zeta. rewrite fst_tbind. cbn [fst tlift]. apply bind_ext. intros total.
  rewrite fst_tbind. cbn [fst tlift]. apply bind_ext. intros [enc md]. rewrite fst_tbind, tCombine_erase. apply bind_ext. intros m. reflexivity.
Qed.

Lemma splitShares_inv parts : forall l enc md enc' md', foreach l
    (fun '(s, spare) '(encodedData, ssMetadata) =>
       do m <- slice (s ++ spare) 0 (LenKey + LenLen + 1);
       if length s =? 0 then Panic PIndex else
       do partID <- idx s (length s - 1);
       if bltb (z2b parts) partID then Fail EWrongPartId else
       do d <- slice s (LenKey + LenLen + 1) (length s - 1);
       do encodedData <- upd encodedData (b2i partID) d;
       Ret (encodedData, ssMetadata ++ [m])) (enc, md) = Ret (enc', md') ->
  md' = md ++ map (fun x => kr_meta (fst x)) l /\ Forall (fun x : list byte * list byte => 22 <= length (fst x)) l.
Proof.
  induction l as [|[s spare] l IH]; intros enc md enc' md' R; cbn [foreach] in R.
  - injection R as <- <-. cbn [map]. rewrite app_nil_r. split; [reflexivity|constructor].
  - change (LenKey + LenLen + 1) with 21 in R.
    destruct (slice (s ++ spare) 0 21) as [m| | | |] eqn:S1; cbn [bind] in R; try discriminate.
    destruct (length s =? 0) eqn:L0; [discriminate|].
    destruct (idx s (length s - 1)) as [pid| | | |]; cbn [bind] in R; try discriminate.
    destruct (bltb (z2b parts) pid); [discriminate|].
    destruct (slice s 21 (length s - 1)) as [d| | | |] eqn:S2; cbn [bind] in R; try discriminate.
    destruct (upd enc (b2i pid) d) as [enc1| | | |]; cbn [bind] in R; try discriminate.
    assert (L22 : 22 <= length s).
    { apply Nat.eqb_neq in L0. destruct (Nat.le_gt_cases 22 (length s)) as [|H]; [assumption|]. exfalso. unfold slice in S2.
      destruct (Nat.leb_spec 21 (length s - 1)); [lia|]. cbn [andb] in S2. discriminate. }
    assert (E : m = kr_meta s).
    { rewrite slice_ok in S1 by (rewrite ?app_length; lia). transitivity (firstn 21 (s ++ spare)); [change (firstn (21 - 0) (skipn 0 (s ++ spare))) with (firstn 21 (s ++ spare)) in S1; congruence|].
      rewrite firstn_app. replace (21 - length s) with 0 by lia. rewrite firstn_O, app_nil_r. reflexivity. }
    apply IH in R as (-> & F). split; [|constructor; assumption]. rewrite E, <- app_assoc. reflexivity.
Qed.

Lemma cleanShares_somes ss : cleanShares ss = somes ss.
Proof. induction ss as [|[s|] ss IH]; cbn [cleanShares somes]; [reflexivity|f_equal; exact IH|exact IH]. Qed.

Lemma tkrCombineCap_inner E zp rd ss parts threshold out records : tkrCombineCap E zp rd ss parts threshold = (Ret out, records) ->
  exists md, tCombine (map (fun x => kr_meta (fst x)) (somes ss)) = (Ret md, records) /\ length md = 20 /\ Forall (fun x : list byte * list byte => 22 <= length (fst x)) (somes ss).
Proof.
  intros R. pose proof (f_equal fst R) as R1. pose proof (f_equal snd R) as R2. cbn [fst snd] in R1, R2. clear R.
  unfold tkrCombineCap in R1, R2. destruct (tbind_lift_bad _ _ _ R1) as (s0 & E0). rewrite (tbind_lift _ _ _ E0) in R1, R2.
  destruct (krCheck _ parts threshold); [discriminate|]. cbv zeta in R1, R2.
  destruct (tbind_lift_bad _ _ _ R1) as (total & Et). rewrite (tbind_lift _ _ _ Et) in R1, R2.
  destruct (tbind_lift_bad _ _ _ R1) as ([enc md] & Em). rewrite (tbind_lift _ _ _ Em) in R1, R2. cbv beta iota in R1, R2.
  unfold splitShares in Em. apply splitShares_inv in Em as (-> & F). cbn [app] in R1, R2. rewrite cleanShares_somes in *.
  set (ms := map (fun x => kr_meta (fst x)) (somes ss)) in *.
  unfold tbind in R1, R2. cbn [fst snd tlift] in R1, R2. destruct (tCombine ms) as [[md| | | |] l] eqn:ET; cbn [fst snd] in R1, R2; try discriminate.
  rewrite app_nil_r in R2. subst l. exists md. split; [reflexivity|]. split; [|exact F].
  pose proof (f_equal fst ET) as EC. cbn [fst] in EC. rewrite tCombine_erase in EC. apply Combine_inv in EC as (L & H1 & H2 & H3 & ND & -> & HL).
  rewrite interpAt_length. assert (X : length (nth 0 ms []) = 21); [|lia].
  unfold ms in *. rewrite map_length in H1. rewrite (nth_map' _ (somes ss) 0 [] ([], [])) by lia. unfold kr_meta. rewrite firstn_length.
  assert (I0 : In (nth 0 (somes ss) ([], [])) (somes ss)) by (apply nth_In; lia). rewrite Forall_forall in F. specialize (F _ I0). lia.
Qed.
