(** Proofs about what the access pattern of SplitGeneric, SplitWithRandomizer, SplitWithRandomizerOld, SplitP and Regenerate shows (C73). *)
From Coq Require Import List NArith ZArith Lia Arith Bool Permutation.
From Coq.Init Require Import Byte.
From Verif Require Import GoSem Bytes Spec Galois Vector Csprng Pool Polynomial Shamir GoFacts GF VectorFacts PolyFacts PolynomialFacts SplitFacts CombineFacts RegenFacts Secrecy CsprngFacts RandomizerFacts Randomizer Derived SplitP SplitPFacts SplitPMore SplitPTop Trace SpecTrace TraceFacts CombineTrace TraceMore SpecTraceMore TraceMoreFacts TraceMoreP Pf19.
Import ListNotations.
Local Open Scope go_scope.

(*PROPS
From Coq Require Import List NArith ZArith Lia Arith Bool Permutation.
From Coq.Init Require Import Byte.
From Verif Require Import GoSem Bytes Spec Vector Csprng Pool Polynomial Shamir SplitP Trace SpecTrace TraceMore SpecTraceMore ExData Pf26.
Import ListNotations.
*)

Lemma leak_core ar t s1 s2 q1 q2 tags sh1 sh2 i : 2 <= t -> length s1 = length s2 ->
  is_sharing s1 t q1 tags sh1 -> is_sharing s2 t q2 tags sh2 -> splitRecords ar t q1 tags = splitRecords ar t q2 tags ->
  i < length sh1 -> nth i sh1 [] = nth i sh2 [] -> ar = ArchGeneric \/ tag (nth i sh1 []) <> x01 ->
  lastBytes (scalarPart ar (length s1)) s1 = lastBytes (scalarPart ar (length s1)) s2.
Proof.
  intros T2 LS (P1 & R1' & _ & ->) (P2 & R2' & _ & ->) R1 Li SE TG.
  assert (L1 : length q1 = length s1) by (rewrite <- P1, map_length; reflexivity). assert (L2 : length q2 = length s2) by (rewrite <- P2, map_length; reflexivity).
  rewrite map_length in Li. rewrite (nth_map' (share_at q1) tags i [] x00) in SE, TG by exact Li. rewrite (nth_map' (share_at q2) tags i [] x00) in SE by exact Li.
  rewrite tag_share_at in TG. set (x := nth i tags x00) in *.
  assert (K := splitRecords_inj ar t q1 q2 tags x T2 ltac:(congruence) (nth_In tags x00 Li) TG R1). rewrite L1 in K.
  unfold share_at in SE. apply app_inj in SE as [SE _]; [|rewrite !map_length; congruence].
  assert (K' : forall p, length s1 - scalarPart ar (length s1) <= p < length s1 -> nth p (map (fun p => peval (skipn 1 p) x) q1) x00 = nth p (map (fun p => peval (skipn 1 p) x) q2) x00).
  { intros p Hp. refine (lastBytes_nth _ _ _ _ K p _); [rewrite !map_length, L1, L2; exact LS|rewrite map_length, L1; exact Hp]. }
  clear K. rename K' into K.
  apply lastBytes_ext; [exact LS|]. intros p Hp. specialize (K p Hp).
  rewrite <- P1, <- P2. pose proof (f_equal (fun l => nth p l x00) SE) as Q. cbv beta in Q.
  rewrite !(nth_map' _ q1 p x00 []) in * by lia. rewrite !(nth_map' _ q2 p x00 []) in * by lia.
  assert (LQ1 : length (nth p q1 []) = t) by (rewrite Forall_forall in R1'; apply R1', nth_In; lia).
  assert (LQ2 : length (nth p q2 []) = t) by (rewrite Forall_forall in R2'; apply R2', nth_In; lia).
  rewrite (peval_first (nth p q1 [])), (peval_first (nth p q2 [])) in Q by lia. cbv beta in K. rewrite K in Q. clear - Q.
  exact (cancel_r _ _ _ Q).
Qed.

Lemma splitRecords_tails ar t q1 q2 tags : map (skipn 1) q1 = map (@skipn byte 1) q2 -> splitRecords ar t q1 tags = splitRecords ar t q2 tags.
Proof.
  intros E. unfold splitRecords. apply flat_map_ext_in. intros x _. apply flat_map_ext_in. intros k _. f_equal.
  assert (H : forall q, map (fun p => peval (skipn (S k) p) x) q = map (fun p => peval (skipn k p) x) (map (skipn 1) q))
    by (intros q; rewrite map_map; apply map_ext; intros p; rewrite skipn_skipn'; reflexivity).
  rewrite (H q1), (H q2), E. reflexivity.
Qed.

Lemma polysOf_tails t s1 s2 buf : length s1 = length s2 -> map (skipn 1) (polysOf t s1 buf) = map (@skipn byte 1) (polysOf t s2 buf).
Proof. intros L. unfold polysOf. rewrite !map_map, L. apply map_ext. intros p. reflexivity. Qed.
Lemma polysGen_tails t s1 s2 buf : length s1 = length s2 -> map (skipn 1) (polysGen t s1 buf) = map (@skipn byte 1) (polysGen t s2 buf).
Proof. intros L. unfold polysGen. rewrite !map_map, L. apply map_ext. intros p. reflexivity. Qed.

(** C73. SplitGeneric: the function of values, and for the polynomials that the shares lie on exactly the table entries read. *)
Lemma C73_generic_pf : forall perm stream secret parts threshold shares, Permutation perm (seq 0 255) ->
  fst (tSplitGeneric perm stream secret parts threshold) = SplitGeneric perm stream secret parts threshold /\
  (SplitGeneric perm stream secret parts threshold = Ret shares ->
   exists polys, is_sharing secret (Z.to_nat threshold) polys (map tag shares) shares /\
     snd (tSplitGeneric perm stream secret parts threshold) = splitRecords ArchGeneric (Z.to_nat threshold) polys (map tag shares)).
Proof.
  intros perm stream secret parts threshold shares P. split; [apply tSplitGeneric_erase|]. intros E.
  destruct (checkArgs secret parts threshold) eqn:CK; [unfold SplitGeneric in E; rewrite CK in E; discriminate E|].
  pose proof CK as CK'. apply checkArgs_None in CK' as (H2 & H3 & Hs).
  destruct (perm_coords perm P) as (ND & NF & L255). rewrite map_length in L255.
  assert (LP : (parts <= Z.of_nat (length perm))%Z) by lia.
  rewrite SplitGeneric_ok in E by assumption. injection E as <-.
  eexists. rewrite map_tag_shares. split; [|apply tSplitGeneric_records; assumption].
  apply is_sharing_shares; [| |apply tagsOf_NoDup; assumption].
  - unfold polysGen. rewrite map_map. cbn [nth]. symmetry. apply list_as_map.
  - apply (shiftable_polysGen (Z.to_nat threshold) (length secret)); [lia|reflexivity|apply take_stream_length].
Qed.

(** C73. SplitWithRandomizerOld, and SplitWithRandomizer. *)
Lemma C73_old_pf : forall ar growcap ks evBufs secret parts threshold shares, grow_ok growcap ->
  fst (tSplitWithRandomizerOld ar growcap ks evBufs secret parts threshold) = SplitWithRandomizerOld ar growcap ks evBufs secret parts threshold /\
  (SplitWithRandomizerOld ar growcap ks evBufs secret parts threshold = Ret shares ->
   exists polys, is_sharing secret (Z.to_nat threshold) polys (map tag shares) shares /\
     snd (tSplitWithRandomizerOld ar growcap ks evBufs secret parts threshold) = splitRecords ar (Z.to_nat threshold) polys (map tag shares)).
Proof.
  intros ar growcap ks ev secret parts threshold shares G. split; [apply tSplitWithRandomizerOld_erase|]. intros E.
  destruct (SWROld_inv _ _ _ _ _ _ _ _ G E) as (V & _ & xs & Ex & Lx & ND & _ & ->). pose proof V as (Hs & H2 & H3 & H4).
  eexists. rewrite map_tag_shares. split; [|apply tSplitWithRandomizerOld_records; [exact G|apply valid_checkArgs, V|exact Ex|lia]].
  apply polysOf_sharing; [lia|apply take_stream_length|apply tagsOf_NoDup, ND].
Qed.
Lemma C73_randomizer_pf : forall fuel ar growcap ks polB trB evBufs secret parts threshold shares, grow_ok growcap ->
  fst (tSplitWithRandomizer fuel ar growcap ks polB trB evBufs secret parts threshold) = SplitWithRandomizer fuel ar growcap ks polB trB evBufs secret parts threshold /\
  (SplitWithRandomizer fuel ar growcap ks polB trB evBufs secret parts threshold = Ret shares ->
   exists polys, is_sharing secret (Z.to_nat threshold) polys (map tag shares) shares /\
     snd (tSplitWithRandomizer fuel ar growcap ks polB trB evBufs secret parts threshold) = splitRecords ar (Z.to_nat threshold) polys (map tag shares)).
Proof.
  intros fuel ar growcap ks polB trB ev secret parts threshold shares G. split; [apply tSplitWithRandomizer_erase|]. intros E.
  destruct (SWR_inv _ _ _ _ _ _ _ _ _ _ _ G E) as (V & xs & Ex & ->). pose proof V as (Hs & H2 & H3 & H4).
  destruct (GetUniqueBytes_inv _ _ _ _ Ex) as (L & ND). rewrite b2i_z2b in L by lia.
  eexists. rewrite map_tag_shares. split; [|refine (tSplitWithRandomizer_records fuel ar growcap ks polB trB ev secret parts threshold xs G _ Ex _); [apply valid_checkArgs, V|lia]].
  apply polysOf_sharing; [lia|apply swrBuf_length, G|apply tagsOf_NoDup, ND].
Qed.

(** C73. With the same randomness the records of these three functions do not depend on the secret, only on its length. *)
Lemma C73_generic_blind_pf : forall perm stream secret1 secret2 parts threshold, Permutation perm (seq 0 255) -> length secret1 = length secret2 ->
  snd (tSplitGeneric perm stream secret1 parts threshold) = snd (tSplitGeneric perm stream secret2 parts threshold).
Proof.
  intros perm st s1 s2 parts threshold P LS.
  assert (CE : checkArgs s1 parts threshold = checkArgs s2 parts threshold) by (unfold checkArgs; rewrite LS; reflexivity).
  destruct (checkArgs s1 parts threshold) eqn:CK1; [unfold tSplitGeneric; rewrite CK1, <- CE; reflexivity|]. symmetry in CE.
  pose proof CK1 as CK'. apply checkArgs_None in CK' as (H2 & H3 & Hs).
  destruct (perm_coords perm P) as (ND & NF & L255). rewrite map_length in L255.
  rewrite !tSplitGeneric_records by (assumption || lia). rewrite LS. apply splitRecords_tails, polysGen_tails, LS.
Qed.
Lemma C73_old_blind_pf : forall ar growcap ks evBufs1 evBufs2 secret1 secret2 parts threshold, grow_ok growcap -> length secret1 = length secret2 ->
  snd (tSplitWithRandomizerOld ar growcap ks evBufs1 secret1 parts threshold) = snd (tSplitWithRandomizerOld ar growcap ks evBufs2 secret2 parts threshold).
Proof.
  intros ar growcap ks ev1 ev2 s1 s2 parts threshold G LS.
  assert (CE : checkArgs s1 parts threshold = checkArgs s2 parts threshold) by (unfold checkArgs; rewrite LS; reflexivity).
  destruct (checkArgs s1 parts threshold) eqn:CK1; [unfold tSplitWithRandomizerOld; rewrite CK1, <- CE; reflexivity|]. symmetry in CE.
  pose proof CK1 as CK'. apply checkArgs_None in CK' as (H2 & H3 & Hs).
  destruct (Perm ks xff) as [xs|e|p| |] eqn:Ex; try (unfold tSplitWithRandomizerOld; rewrite CK1, CE, Ex; reflexivity).
  assert (K : ks 0 <> xfe) by (intros K; rewrite (Perm255_panic ks K) in Ex; discriminate Ex).
  destruct (Perm255_ok ks K) as (xs' & Ex' & L & ND & NF). assert (xs' = xs) by congruence. subst xs'.
  rewrite (tSplitWithRandomizerOld_records _ _ _ _ s1 _ _ xs), (tSplitWithRandomizerOld_records _ _ _ _ s2 _ _ xs) by (assumption || lia). rewrite LS. apply splitRecords_tails, polysOf_tails, LS.
Qed.

Lemma C73_randomizer_blind_pf : forall fuel ar growcap ks polB trB1 trB2 evBufs1 evBufs2 secret1 secret2 parts threshold, grow_ok growcap -> length secret1 = length secret2 ->
  snd (tSplitWithRandomizer fuel ar growcap ks polB trB1 evBufs1 secret1 parts threshold) = snd (tSplitWithRandomizer fuel ar growcap ks polB trB2 evBufs2 secret2 parts threshold).
Proof.
  intros fuel ar growcap ks polB tB1 tB2 ev1 ev2 s1 s2 parts threshold G LS.
  assert (CE : checkArgs s1 parts threshold = checkArgs s2 parts threshold) by (unfold checkArgs; rewrite LS; reflexivity).
  destruct (checkArgs s1 parts threshold) eqn:CK1; [unfold tSplitWithRandomizer; rewrite CK1, <- CE; reflexivity|]. symmetry in CE.
  pose proof CK1 as CK'. apply checkArgs_None in CK' as (H2 & H3 & Hs).
  destruct (GetUniqueBytes fuel ks (z2b parts)) as [xs|e|p| |] eqn:Ex; [|unfold tSplitWithRandomizer; rewrite CK1, CE, Ex; cbn [tlift tbind fst snd]; reflexivity..].
  destruct (GetUniqueBytes_inv _ _ _ _ Ex) as (L & ND). rewrite b2i_z2b in L by lia.
  rewrite (tSplitWithRandomizer_records _ _ _ _ _ _ _ s1 _ _ xs), (tSplitWithRandomizer_records _ _ _ _ _ _ _ s2 _ _ xs) by (assumption || lia). rewrite LS. apply splitRecords_tails, polysOf_tails, LS.
Qed.

(** C73. But together with one single share the records determine the secret (SplitGeneric), or its last bytes: as many as the build treats one
    by one. *)
Lemma C73_generic_leak_pf : forall perm1 perm2 stream1 stream2 secret1 secret2 parts threshold shares1 shares2 records i,
  Permutation perm1 (seq 0 255) -> Permutation perm2 (seq 0 255) -> length secret1 = length secret2 ->
  tSplitGeneric perm1 stream1 secret1 parts threshold = (Ret shares1, records) ->
  tSplitGeneric perm2 stream2 secret2 parts threshold = (Ret shares2, records) ->
  map tag shares1 = map tag shares2 -> i < length shares1 -> nth i shares1 [] = nth i shares2 [] ->
  secret1 = secret2.
Proof.
  intros p1 p2 st1 st2 s1 s2 parts threshold sh1 sh2 rs i P1 P2 LS E1 E2 TG Li SE.
  destruct (C73_generic_pf p1 st1 s1 parts threshold sh1 P1) as [Q1 R1]. destruct (C73_generic_pf p2 st2 s2 parts threshold sh2 P2) as [Q2 R2].
  rewrite E1, E2 in *. cbn [fst snd] in *. symmetry in Q1, Q2. destruct (R1 Q1) as (q1 & S1 & T1). destruct (R2 Q2) as (q2 & S2 & T2).
  assert (V : (2 <= threshold)%Z).
  { destruct (checkArgs s1 parts threshold) eqn:CK; [unfold SplitGeneric in Q1; rewrite CK in Q1; discriminate Q1|]. apply checkArgs_None in CK. lia. }
  rewrite <- TG in S2, T2. rewrite T1 in T2.
  pose proof (leak_core ArchGeneric (Z.to_nat threshold) s1 s2 q1 q2 _ sh1 sh2 i ltac:(lia) LS S1 S2 T2 Li SE (or_introl eq_refl)) as K.
  cbn [scalarPart] in K. unfold lastBytes in K. rewrite LS, Nat.sub_diag in K. exact K.
Qed.
Lemma C73_old_leak_pf : forall ar growcap ks1 ks2 evBufs1 evBufs2 secret1 secret2 parts threshold shares1 shares2 records i,
  grow_ok growcap -> length secret1 = length secret2 ->
  tSplitWithRandomizerOld ar growcap ks1 evBufs1 secret1 parts threshold = (Ret shares1, records) ->
  tSplitWithRandomizerOld ar growcap ks2 evBufs2 secret2 parts threshold = (Ret shares2, records) ->
  map tag shares1 = map tag shares2 -> i < length shares1 -> nth i shares1 [] = nth i shares2 [] -> ar = ArchGeneric \/ tag (nth i shares1 []) <> x01 ->
  lastBytes (scalarPart ar (length secret1)) secret1 = lastBytes (scalarPart ar (length secret1)) secret2.
Proof.
  intros ar growcap k1 k2 ev1 ev2 s1 s2 parts threshold sh1 sh2 rs i G LS E1 E2 TG Li SE TG1.
  destruct (C73_old_pf ar growcap k1 ev1 s1 parts threshold sh1 G) as [Q1 R1]. destruct (C73_old_pf ar growcap k2 ev2 s2 parts threshold sh2 G) as [Q2 R2].
  rewrite E1, E2 in *. cbn [fst snd] in *. symmetry in Q1, Q2. destruct (R1 Q1) as (q1 & S1 & T1). destruct (R2 Q2) as (q2 & S2 & T2).
  destruct (SWROld_inv _ _ _ _ _ _ _ _ G Q1) as ((_ & V & _) & _).
  assert (V2 : 2 <= Z.to_nat threshold) by lia. rewrite <- TG in S2, T2. rewrite T1 in T2. exact (leak_core ar (Z.to_nat threshold) s1 s2 q1 q2 _ sh1 sh2 i V2 LS S1 S2 T2 Li SE TG1).
Qed.
Lemma C73_randomizer_leak_pf : forall fuel1 fuel2 ar growcap ks1 ks2 polB1 polB2 trB1 trB2 evBufs1 evBufs2 secret1 secret2 parts threshold shares1 shares2 records i,
  grow_ok growcap -> length secret1 = length secret2 ->
  tSplitWithRandomizer fuel1 ar growcap ks1 polB1 trB1 evBufs1 secret1 parts threshold = (Ret shares1, records) ->
  tSplitWithRandomizer fuel2 ar growcap ks2 polB2 trB2 evBufs2 secret2 parts threshold = (Ret shares2, records) ->
  map tag shares1 = map tag shares2 -> i < length shares1 -> nth i shares1 [] = nth i shares2 [] -> ar = ArchGeneric \/ tag (nth i shares1 []) <> x01 ->
  lastBytes (scalarPart ar (length secret1)) secret1 = lastBytes (scalarPart ar (length secret1)) secret2.
Proof.
  intros f1 f2 ar growcap k1 k2 pB1 pB2 tB1 tB2 ev1 ev2 s1 s2 parts threshold sh1 sh2 rs i G LS E1 E2 TG Li SE TG1.
  destruct (C73_randomizer_pf f1 ar growcap k1 pB1 tB1 ev1 s1 parts threshold sh1 G) as [Q1 R1]. destruct (C73_randomizer_pf f2 ar growcap k2 pB2 tB2 ev2 s2 parts threshold sh2 G) as [Q2 R2].
  rewrite E1, E2 in *. cbn [fst snd] in *. symmetry in Q1, Q2. destruct (R1 Q1) as (q1 & S1 & T1). destruct (R2 Q2) as (q2 & S2 & T2).
  destruct (SWR_inv _ _ _ _ _ _ _ _ _ _ _ G Q1) as ((_ & V & _) & _).
  assert (V2 : 2 <= Z.to_nat threshold) by lia. rewrite <- TG in S2, T2. rewrite T1 in T2. exact (leak_core ar (Z.to_nat threshold) s1 s2 q1 q2 _ sh1 sh2 i V2 LS S1 S2 T2 Li SE TG1).
Qed.

(** C73. SplitP: for the polynomials that the shares lie on, exactly what each goroutine (number k works on the bytes from 1024*k on) leaves,
    whatever the schedule. *)
Lemma C73_splitp_pf : forall perm stream secret parts threshold sched shares,
  Permutation perm (seq 0 255) -> (N.of_nat (length secret) < 4294967296)%N ->
  SplitPRun perm stream secret parts threshold sched = Some (Ret shares) ->
  exists polys, is_sharing secret (Z.to_nat threshold) polys (map tag shares) shares /\
    forall k, recordsOf (S k) (SplitPRecords perm stream secret parts threshold sched) =
              flat_map (fun p => flat_map (evalRecords p) (map tag shares)) (firstn 1024 (skipn (1024 * k) polys)).
Proof.
  intros perm stream secret parts threshold sched shares P SM H.
  destruct (SplitP_records _ _ _ _ _ _ _ P SM H) as (order & V & NO & -> & K). cbv zeta in *. pose proof V as (Hs & H2 & H3 & H4). destruct (valid_deg _ _ _ V) as (D1 & D2).
  destruct (perm_coords perm P) as (ND & NF & L255). 
  eexists. rewrite map_tag_shares. split; [|exact K].
  pose proof (polysP_sharing secret (z2b (threshold - 1)) stream order _ (tagsOf_NoDup (Z.to_nat parts) (map i2b perm) ND)) as S0. cbv zeta in S0.
  replace (N.to_nat (secretLen secret)) with (length secret) in S0 by (unfold secretLen, u32; rewrite N.mod_small by exact SM; lia).
  rewrite firstn_all, Nat.sub_diag, app_nil_r in S0. rewrite D1 in S0. replace (S (Z.to_nat threshold - 1)) with (Z.to_nat threshold) in S0 by lia. exact S0.
Qed.

(** C73. With the same randomness and the same schedule the records of SplitP do not depend on the secret. *)
Lemma C73_splitp_blind_pf : forall perm stream secret1 secret2 parts threshold sched shares,
  Permutation perm (seq 0 255) -> (N.of_nat (length secret1) <= 4294967296 - 1024)%N -> length secret1 = length secret2 ->
  SplitPRun perm stream secret1 parts threshold sched = Some (Ret shares) ->
  SplitPRecords perm stream secret1 parts threshold sched = SplitPRecords perm stream secret2 parts threshold sched.
Proof.
  intros perm stream s1 s2 parts threshold sched shares P SM L H. apply (SplitP_blind perm stream s1 s2 parts threshold sched shares P); [|exact L|exact H].
  unfold secretLen, u32. rewrite N.mod_small by lia. exact SM.
Qed.

Lemma flat_map_inj2 {A B} (f : A -> list B) l1 : forall l2, length l1 = length l2 -> (forall a b, In a l1 -> In b l2 -> length (f a) = length (f b)) ->
  flat_map f l1 = flat_map f l2 -> forall i d, i < length l1 -> f (nth i l1 d) = f (nth i l2 d).
Proof.
  induction l1 as [|x l1 IH]; intros [|y l2] L H E i d Hi; cbn [length] in *; try lia. cbn [flat_map] in E.
  apply app_inj in E as [E1 E2]; [|apply H; left; reflexivity]. destruct i as [|i]; [exact E1|]. cbn [nth].
  apply IH; [lia| |exact E2|lia]. intros a b Ha Hb. apply H; right; assumption.
Qed.

Lemma length_evalRecords p q x : length p = length q -> length (evalRecords p x) = length (evalRecords q x).
Proof. intros L. unfold evalRecords. cbn [length]. rewrite L. destruct (beq x x00); [reflexivity|]. rewrite !map_length. reflexivity. Qed.

Lemma evalRecords_inj p q x : 2 <= length p -> length p = length q -> x <> x00 -> evalRecords p x = evalRecords q x -> peval (skipn 1 p) x = peval (skipn 1 q) x.
Proof.
  intros L2 L X E. unfold evalRecords in E. assert (B : beq x x00 = false) by (destruct (beq x x00) eqn:B; [apply beq_true in B; contradiction|reflexivity]).
  rewrite B, L in E. injection E as E. pose proof (fun H => ext_in_map E 0 H) as K. cbv beta in K.
  assert (I0 : In 0 (rev (seq 0 (length q - 1)))) by (apply -> in_rev; apply in_seq; lia). specialize (K I0). injection K as K. exact K.
Qed.

Lemma block_records B q1 q2 tags t p x : 0 < B -> 2 <= t -> length q1 = length q2 -> (forall q, In q q1 -> length q = t) -> (forall q, In q q2 -> length q = t) ->
  In x tags -> x <> x00 -> p < length q1 ->
  flat_map (fun p => flat_map (evalRecords p) tags) (firstn B (skipn (B * (p / B)) q1)) = flat_map (fun p => flat_map (evalRecords p) tags) (firstn B (skipn (B * (p / B)) q2)) ->
  peval (skipn 1 (nth p q1 [])) x = peval (skipn 1 (nth p q2 [])) x.
Proof.
  intros HB T2 LQ R1 R2 Hx X0 Hp RE.
  pose proof (Nat.div_mod p B ltac:(lia)) as DM. pose proof (Nat.mod_upper_bound p B ltac:(lia)) as MB.
  assert (HIn : forall (l : list (list byte)) a, In a (firstn B (skipn (B * (p / B)) l)) -> In a l).
  { intros l a Ha. rewrite <- (firstn_skipn (B * (p / B)) l). apply in_or_app. right. rewrite <- (firstn_skipn B (skipn _ l)). apply in_or_app. left. exact Ha. }
  assert (NE : forall l : list (list byte), nth (p mod B) (firstn B (skipn (B * (p / B)) l)) [] = nth p l []).
  { intros l. rewrite nth_firstn by exact MB. rewrite nth_skipn. f_equal. lia. }
  remember (B * (p / B)) as base eqn:Eb. remember (p mod B) as rest eqn:Er.
  assert (W := flat_map_inj2 (fun p => flat_map (evalRecords p) tags) (firstn B (skipn base q1)) (firstn B (skipn base q2))). cbv beta in W.
  specialize (W ltac:(rewrite !firstn_length, !skipn_length; lia)).
  specialize (W (fun a b Ha Hb => length_flat _ _ tags (fun y _ => length_evalRecords a b y (eq_trans (R1 a (HIn _ _ Ha)) (eq_sym (R2 b (HIn _ _ Hb))))))).
  specialize (W RE rest [] ltac:(rewrite firstn_length, skipn_length; lia)). rewrite !NE in W.
  assert (LQ1 : length (nth p q1 []) = t) by (apply R1, nth_In; lia). assert (LQ2 : length (nth p q2 []) = t) by (apply R2, nth_In; lia).
  pose proof (flat_map_inj _ _ _ (fun y _ => length_evalRecords _ _ y (eq_trans LQ1 (eq_sym LQ2))) W x Hx) as W2. cbv beta in W2.
  apply evalRecords_inj; [lia|congruence|exact X0|exact W2].
Qed.

(** C73. But what the goroutines leave, together with one single share, determines the secret, whatever the two schedules were. *)
Lemma C73_splitp_leak_pf : forall perm1 perm2 stream1 stream2 secret1 secret2 parts threshold sched1 sched2 shares1 shares2 i,
  Permutation perm1 (seq 0 255) -> Permutation perm2 (seq 0 255) -> (N.of_nat (length secret1) < 4294967296)%N -> length secret1 = length secret2 ->
  SplitPRun perm1 stream1 secret1 parts threshold sched1 = Some (Ret shares1) ->
  SplitPRun perm2 stream2 secret2 parts threshold sched2 = Some (Ret shares2) ->
  (forall k, recordsOf (S k) (SplitPRecords perm1 stream1 secret1 parts threshold sched1) = recordsOf (S k) (SplitPRecords perm2 stream2 secret2 parts threshold sched2)) ->
  map tag shares1 = map tag shares2 -> i < length shares1 -> nth i shares1 [] = nth i shares2 [] ->
  secret1 = secret2.
Proof.
  intros pm1 pm2 st1 st2 s1 s2 parts threshold sc1 sc2 sh1 sh2 i P1 P2 SM LS E1 E2 RE TG Li SE.
  destruct (SplitP_records _ _ _ _ _ _ _ P1 SM E1) as (o1 & (V1 & V2 & V3 & V4) & _ & Z1 & _).
  destruct (C73_splitp_pf _ _ _ _ _ _ _ P1 SM E1) as (q1 & (I1 & R1 & ND1 & S1) & K1). rewrite LS in SM. destruct (C73_splitp_pf _ _ _ _ _ _ _ P2 SM E2) as (q2 & (I2 & R2 & _ & S2) & K2).
  assert (L1 : length q1 = length s1) by (rewrite <- I1, map_length; reflexivity). assert (L2 : length q2 = length s2) by (rewrite <- I2, map_length; reflexivity).
  rewrite <- TG in S2, K2. set (tags := map tag sh1) in *. assert (T2 : 2 <= Z.to_nat threshold) by lia.
  assert (NZ : forall x, In x tags -> x <> x00).
  { intros x Hx F. subst x. unfold tags in Hx. rewrite Z1, map_tag_shares in Hx. apply (In_nth _ _ x00) in Hx as (j & Hj & Fj).
    destruct (perm_coords pm1 P1) as (ND & NF & L255). rewrite tagsOf_length in Hj by lia. rewrite nth_tagsOf in Fj by lia.
    apply NF. replace xff with (nth j (map i2b pm1) x00); [apply nth_In; lia|].
    rewrite <- (bsub_badd (nth j (map i2b pm1) x00)), Fj. reflexivity. }
  assert (Li' : i < length tags) by (unfold tags; rewrite map_length; exact Li).
  rewrite S1, S2 in SE. rewrite (nth_map' (share_at q1) tags i [] x00), (nth_map' (share_at q2) tags i [] x00) in SE by exact Li'.
  set (x := nth i tags x00) in *. assert (Hx : In x tags) by (apply nth_In; exact Li').
  unfold share_at in SE. apply app_inj in SE as [SE _]; [|rewrite !map_length; congruence].
  rewrite <- I1, <- I2. apply nth_ext with x00 x00; [rewrite !map_length; congruence|]. rewrite map_length. intros p Hp.
  pose proof (f_equal (fun l => nth p l x00) SE) as Q. cbv beta in Q.
  rewrite !(nth_map' _ q1 p x00 []) in * by lia. rewrite !(nth_map' _ q2 p x00 []) in * by lia.
  rewrite Forall_forall in R1, R2.
  assert (LQ1 : length (nth p q1 []) = Z.to_nat threshold) by (apply R1, nth_In; lia).
  assert (LQ2 : length (nth p q2 []) = Z.to_nat threshold) by (apply R2, nth_In; lia).
  rewrite (peval_first (nth p q1 [])), (peval_first (nth p q2 [])) in Q by lia.
  assert (K : peval (skipn 1 (nth p q1 [])) x = peval (skipn 1 (nth p q2 [])) x); [|rewrite K in Q; exact (cancel_r _ _ _ Q)].
  specialize (RE (p / 1024)). rewrite K1, K2 in RE. clear K1 K2 Q.
  refine (block_records 1024 q1 q2 tags (Z.to_nat threshold) p x _ T2 _ R1 R2 Hx (NZ x Hx) Hp RE); [apply Nat.lt_0_succ|congruence].
Qed.

(** C73. Regenerate: the function of values; a call that returns takes the same branches whatever the shares are... *)
Lemma C73_regenerate_branches_pf : forall fuel stream u parts num r,
  fst (tRegenerate fuel stream u parts num) = Regenerate fuel stream u parts num /\
  (Regenerate fuel stream u parts num = Ret r ->
   branches (snd (tRegenerate fuel stream u parts num)) = repeat (Branch false) (length r * ((length (nth 0 parts []) - 1) * (length parts * (length parts - 1))))).
Proof. intros fuel stream u parts num r. split; [apply tRegenerate_erase|]. rewrite <- tRegenerate_erase. apply tRegenerate_branches. Qed.

(** ... but if it makes at least one share, the table entries it reads determine the bodies of the shares completely, and their tags up to adding the
    difference of the new tags to all of them; together with one of the new shares, everything. *)
Lemma C73_regenerate_leak_pf : forall fuel1 fuel2 stream1 stream2 u1 u2 parts1 parts2 num r1 r2 records k,
  tRegenerate fuel1 stream1 u1 parts1 num = (Ret r1, records) -> tRegenerate fuel2 stream2 u2 parts2 num = (Ret r2, records) ->
  map (@length byte) parts1 = map (@length byte) parts2 -> k < length r1 ->
  map (@removelast byte) parts1 = map (@removelast byte) parts2 /\
  map tag parts2 = map (gadd (gadd (tag (nth k r1 [])) (tag (nth k r2 [])))) (map tag parts1) /\
  (tag (nth k r1 []) = tag (nth k r2 []) -> parts1 = parts2).
Proof.
  intros f1 f2 st1 st2 u1 u2 p1 p2 num r1 r2 rs k E1 E2 LS Hk.
  pose proof (f_equal fst E1) as F1. pose proof (f_equal fst E2) as F2. pose proof (f_equal snd E1) as S1. pose proof (f_equal snd E2) as S2. cbn [fst snd] in *.
  assert (TGS : forall fuel stream u parts r, fst (tRegenerate fuel stream u parts num) = Ret r -> length r = Z.to_nat num /\ forall j, j < Z.to_nat num -> tag (nth j r []) = stream j).
  { intros fuel stream u parts r E. rewrite tRegenerate_erase in E. destruct (Regenerate_cases fuel stream u parts num) as [(e & _ & _ & Q)|[(_ & _ & Q)|[(_ & _ & Q)|(r' & _ & _ & [Q|Q])]]]; rewrite E in Q; try discriminate Q.
    injection Q as ->. rewrite map_length, take_stream_length. split; [reflexivity|]. intros j Hj.
    rewrite (nth_map' _ (take_stream stream (Z.to_nat num)) j [] x00) by (rewrite take_stream_length; exact Hj). rewrite nth_take_stream by exact Hj. unfold regenShare. apply last_last. }
  destruct (TGS _ _ _ _ _ F1) as [L1 T1]. destruct (TGS _ _ _ _ _ F2) as [L2 T2]. rewrite L1 in Hk. rewrite T1, T2 by exact Hk.
  destruct (tRegenerate_shift f1 f2 st1 st2 u1 u2 p1 p2 num r1 r2 F1 F2 LS ltac:(congruence) k Hk) as [A B]. split; [exact A|]. split; [exact B|].
  intros TE. rewrite TE, gadd_self in B.
  assert (B' : map tag p2 = map tag p1) by (rewrite B, map_map; apply map_ext; intros a; ring).
  apply tRegenerate_inv in F1 as ((A1 & A2 & A3) & _). apply tRegenerate_inv in F2 as ((B1 & B2 & B3) & _).
  assert (LP : length p1 = length p2) by (rewrite <- (map_length (@length byte) p1), LS, map_length; reflexivity).
  apply nth_ext with [] []; [exact LP|]. intros i Hi. assert (Hi2 : i < length p2) by lia.
  assert (N1 : nth i p1 [] <> []) by (intros F; pose proof (A3 _ (nth_In p1 [] Hi)) as Q; rewrite F in Q; cbn [length] in Q; lia).
  assert (N2 : nth i p2 [] <> []) by (intros F; pose proof (B3 _ (nth_In p2 [] Hi2)) as Q; rewrite F in Q; cbn [length] in Q; lia).
  rewrite (app_removelast_last x00 N1), (app_removelast_last x00 N2). f_equal.
  - pose proof (f_equal (fun l => nth i l []) A) as Q. cbv beta in Q. rewrite (nth_map' _ p1 i [] []), (nth_map' _ p2 i [] []) in Q by lia. exact Q.
  - pose proof (f_equal (fun l => nth i l x00) B') as Q. cbv beta in Q. rewrite (nth_map' _ p1 i x00 []), (nth_map' _ p2 i x00 []) in Q by lia. unfold tag in Q. rewrite Q. reflexivity.
Qed.

(*COPY
(** "hello", 3 of 5: what SplitGeneric, SplitWithRandomizerOld, SplitWithRandomizer and one goroutine of SplitP leave; and 2 new shares of a 2-of-2 sharing. *)
Example C73_runs :
  (exists sh r, tSplitGeneric ex_perm ex_stream ex_secret 5 3 = (Ret sh, r) /\ length sh = 5 /\ length r = 50) /\
  (exists sh r, tSplitWithRandomizerOld ex_ar growcap117 ex_stream ex_ev ex_secret 5 3 = (Ret sh, r) /\ length sh = 5 /\ length r = 60) /\
  (exists sh r, tSplitWithRandomizer 10 ex_ar growcap117 ex_stream ex_stale ex_stale ex_ev ex_secret 5 3 = (Ret sh, r) /\ length sh = 5 /\ length r = 60).
Proof. split; [|split]; eexists _, _; (split; [vm_compute; reflexivity|split; vm_compute; reflexivity]). Qed.
Example C73_splitp_run : exists sh, SplitPRun ex_perm ex_stream [x68; x69] 2 2 [0; 1; 0; 1; 1; 1; 1; 1; 1; 1; 1; 0] = Some (Ret sh) /\
  length (recordsOf 1 (SplitPRecords ex_perm ex_stream [x68; x69] 2 2 [0; 1; 0; 1; 1; 1; 1; 1; 1; 1; 1; 0])) = 8.
Proof. eexists. split; vm_compute; reflexivity. Qed.
Example C73_regenerate_run : exists r1 r2,
  fst (tRegenerate 10 (fun i => i2b (9 + i)) ex_stream [[x05; x01]; [x07; x02]] 2) = Ret r1 /\
  fst (tRegenerate 10 (fun i => i2b (9 + i)) ex_stream [[x05; x01]; [x08; x02]] 2) = Ret r2 /\
  snd (tRegenerate 10 (fun i => i2b (9 + i)) ex_stream [[x05; x01]; [x07; x02]] 2) <> snd (tRegenerate 10 (fun i => i2b (9 + i)) ex_stream [[x05; x01]; [x08; x02]] 2) /\
  branches (snd (tRegenerate 10 (fun i => i2b (9 + i)) ex_stream [[x05; x01]; [x07; x02]] 2)) = repeat (Branch false) 4.
Proof. eexists _, _. split; [vm_compute; reflexivity|]. split; [vm_compute; reflexivity|]. split; [vm_compute; discriminate|vm_compute; reflexivity]. Qed.
(** Both hypotheses of the leak theorems are met by any run compared with itself; and equal records alone do not determine the secret: the two
    runs below differ in the secret only, and their shares differ. *)
Example C73_generic_same_records : forall r1 r2, r1 = tSplitGeneric ex_perm ex_stream ex_secret 5 3 -> r2 = tSplitGeneric ex_perm ex_stream (x00 :: tl ex_secret) 5 3 ->
  snd r1 = snd r2 /\ fst r1 <> fst r2.
Proof. intros r1 r2 -> ->. split; [apply C73_generic_blind_pf; [apply ex_perm_ok|reflexivity]|vm_compute; discriminate]. Qed.
END*)
