(** Proofs about what the access pattern of Split and Combine shows (C66). *)
From Coq Require Import List NArith ZArith Lia Arith Bool Permutation.
From Coq.Init Require Import Byte.
From Verif Require Import GoSem Bytes Spec Galois Vector Csprng Pool Polynomial Shamir GoFacts GF VectorFacts PolyFacts PolynomialFacts SplitFacts CombineFacts RandomizerFacts Derived Asm Trace SpecTrace TraceFacts CombineTrace AsmTrace.
Import ListNotations.
Local Open Scope go_scope.

(*PROPS
From Coq Require Import List NArith ZArith Lia Arith Bool Permutation.
From Coq.Init Require Import Byte.
From Verif Require Import GoSem Bytes Spec Vector Csprng Pool Polynomial Shamir Asm Trace SpecTrace ExData Pf19.
Import ListNotations.
*)

Lemma length_mulRecords ar c v1 v2 : length v1 = length v2 -> length (mulRecords ar c v1) = length (mulRecords ar c v2).
Proof.
  intros L. destruct ar as [|a b d|]; cbn [mulRecords]; [rewrite !map_length; exact L| |];
    (cbn [length]; f_equal; destruct (beq c x01); [reflexivity|]; unfold lastBytes; rewrite !map_length, !skipn_length, L; reflexivity).
Qed.
Lemma map_inj {A B} (f : A -> B) : (forall a b, f a = f b -> a = b) -> forall l1 l2, map f l1 = map f l2 -> l1 = l2.
Proof. intros H. induction l1 as [|a l1 IH]; intros [|b l2] E; try discriminate E; [reflexivity|]. injection E as E1 E2. f_equal; [apply H, E1|apply IH, E2]. Qed.
Lemma mulRecords_inj ar c v1 v2 : ar = ArchGeneric \/ c <> x01 -> length v1 = length v2 -> mulRecords ar c v1 = mulRecords ar c v2 ->
  lastBytes (scalarPart ar (length v1)) v1 = lastBytes (scalarPart ar (length v1)) v2.
Proof.
  intros H L E. destruct ar as [|a b d|]; cbn [mulRecords] in E.
  - f_equal. revert E. apply map_inj. intros p q Q. injection Q as Q. exact Q.
  - destruct H as [H|H]; [discriminate H|]. destruct (beq c x01) eqn:Q; [apply beq_true in Q; contradiction|].
    injection E as E. rewrite <- L in E. revert E. apply map_inj. intros p q Q'. injection Q' as Q'. exact Q'.
  - destruct H as [H|H]; [discriminate H|]. destruct (beq c x01) eqn:Q; [apply beq_true in Q; contradiction|].
    injection E as E. rewrite <- L in E. revert E. apply map_inj. intros p q Q'. injection Q' as Q'. exact Q'.
Qed.
Lemma mulRecords_last ar c v1 v2 : length v1 = length v2 -> lastBytes (scalarPart ar (length v1)) v1 = lastBytes (scalarPart ar (length v1)) v2 ->
  mulRecords ar c v1 = mulRecords ar c v2.
Proof.
  intros L E. destruct ar as [|a b d|]; cbn [mulRecords].
  - f_equal. unfold lastBytes in E. cbn [scalarPart] in E. rewrite <- L, Nat.sub_diag in E. exact E.
  - rewrite <- L, E. reflexivity.
  - rewrite <- L, E. reflexivity.
Qed.

Lemma flat_map_inj {A B} (f g : A -> list B) l : (forall a, In a l -> length (f a) = length (g a)) -> flat_map f l = flat_map g l -> forall a, In a l -> f a = g a.
Proof.
  induction l as [|x l IH]; intros H E a Ha; [destruct Ha|]. cbn [flat_map] in E. apply app_inj in E as [E1 E2]; [|apply H; left; reflexivity].
  destruct Ha as [<-|Ha]; [exact E1|]. apply IH; [|exact E2|exact Ha]. intros b Hb. apply H. right. exact Hb.
Qed.

Lemma length_flat {A B} (f g : A -> list B) l : (forall a, In a l -> length (f a) = length (g a)) -> length (flat_map f l) = length (flat_map g l).
Proof. induction l as [|x l IH]; intros H; [reflexivity|]. cbn [flat_map]. rewrite !app_length, (H x) by (left; reflexivity). f_equal. apply IH. intros b Hb. apply H. right. exact Hb. Qed.

Lemma splitRecords_inj ar t polys1 polys2 tags x : 2 <= t -> length polys1 = length polys2 -> In x tags -> ar = ArchGeneric \/ x <> x01 ->
  splitRecords ar t polys1 tags = splitRecords ar t polys2 tags ->
  lastBytes (scalarPart ar (length polys1)) (map (fun p => peval (skipn 1 p) x) polys1) = lastBytes (scalarPart ar (length polys1)) (map (fun p => peval (skipn 1 p) x) polys2).
Proof.
  intros Ht HL Hx H E. unfold splitRecords in E.
  assert (ML : forall y k, length (mulRecords ar y (map (fun p => peval (skipn (S k) p) y) polys1)) = length (mulRecords ar y (map (fun p => peval (skipn (S k) p) y) polys2)))
    by (intros y k; apply length_mulRecords; rewrite !map_length; exact HL).
  assert (E1 := flat_map_inj _ _ _ (fun y _ => length_flat _ _ _ (fun k _ => ML y k)) E x Hx). cbv beta in E1.
  assert (E2 := flat_map_inj _ _ _ (fun k _ => ML x k) E1 0 ltac:(apply -> in_rev; apply in_seq; lia)). cbv beta in E2.
  apply mulRecords_inj in E2; [rewrite map_length in E2; exact E2|exact H|rewrite !map_length; exact HL].
Qed.

Lemma peval_first p x : 0 < length p -> peval p x = gadd (nth 0 p x00) (gmul x (peval (skipn 1 p) x)).
Proof. destruct p as [|a p]; cbn [length]; [lia|]. intros _. rewrite !peval_heval. reflexivity. Qed.

Lemma nth_lastBytes k l i : k <= length l -> nth i (lastBytes k l) x00 = nth (length l - k + i) l x00.
Proof. intros H. unfold lastBytes. apply nth_skipn. Qed.
Lemma lastBytes_ext k l1 l2 : length l1 = length l2 -> (lastBytes k l1 = lastBytes k l2 <-> forall i, length l1 - k <= i < length l1 -> nth i l1 x00 = nth i l2 x00).
Proof.
  intros L. unfold lastBytes. rewrite <- L. split.
  - intros E i Hi. pose proof (f_equal (fun l => nth (i - (length l1 - k)) l x00) E) as Q. cbv beta in Q. rewrite !nth_skipn in Q. replace (length l1 - k + (i - (length l1 - k))) with i in Q by lia. exact Q.
  - intros E. apply nth_ext with x00 x00; [rewrite !skipn_length; lia|]. intros i Hi. rewrite skipn_length in Hi. rewrite !nth_skipn. apply E. lia.
Qed.

Lemma cancel_r a b c : gadd a c = gadd b c -> a = b.
Proof.
  intros Q. assert (E : gadd (gadd a c) c = gadd (gadd b c) c) by (rewrite Q; reflexivity).
  replace (gadd (gadd a c) c) with a in E by (transitivity (gadd a (gadd c c)); [rewrite gadd_self; ring|ring]).
  replace (gadd (gadd b c) c) with b in E by (transitivity (gadd b (gadd c c)); [rewrite gadd_self; ring|ring]). exact E.
Qed.
Lemma lastBytes_nth k l1 l2 : length l1 = length l2 -> lastBytes k l1 = lastBytes k l2 -> forall i, length l1 - k <= i < length l1 -> nth i l1 x00 = nth i l2 x00.
Proof. intros L E. apply (proj1 (lastBytes_ext k l1 l2 L) E). Qed.

(** C66. MulConstVector: the function of values, and exactly the table entries read. *)
Lemma C66_mulconstvector_pf : forall ar c v,
  fst (tMulConstVector ar c v) = MulConstVector ar c v /\ snd (tMulConstVector ar c v) = mulRecords ar c v.
Proof. intros ar c v. split; [apply tMulConstVector_erase|apply tMulConstVector_records]. Qed.

(** C66. Split: the function of values, and for the polynomials that the shares lie on exactly the table entries read and branches taken. *)
Lemma C66_split_pf : forall ar growcap perm stream polB trB evBufs secret parts threshold shares,
  grow_ok growcap -> Permutation perm (seq 0 255) ->
  fst (tSplit ar growcap perm stream polB trB evBufs secret parts threshold) = Split ar growcap perm stream polB trB evBufs secret parts threshold /\
  (Split ar growcap perm stream polB trB evBufs secret parts threshold = Ret shares ->
   exists polys, is_sharing secret (Z.to_nat threshold) polys (map tag shares) shares /\
     snd (tSplit ar growcap perm stream polB trB evBufs secret parts threshold) = splitRecords ar (Z.to_nat threshold) polys (map tag shares)).
Proof.
  intros ar growcap perm stream polB trB evBufs secret parts threshold shares G P. split; [apply tSplit_erase|]. intros E.
  destruct (checkArgs secret parts threshold) eqn:CK; [unfold Split, SplitBufs in E; rewrite CK in E; discriminate E|].
  pose proof CK as CK'. apply checkArgs_None in CK' as (H2 & H3 & Hs).
  destruct (perm_coords perm P) as (ND & NF & L255). rewrite map_length in L255.
  assert (LP : (parts <= Z.of_nat (length perm))%Z) by lia.
  rewrite (Split_ok ar growcap perm stream polB trB evBufs secret parts threshold G CK LP) in E. injection E as <-.
  exists (polysOf (Z.to_nat threshold) secret (take_stream stream (Z.to_nat threshold * length secret))). rewrite map_tag_shares. split.
  - apply polysOf_sharing; [lia|apply take_stream_length|apply tagsOf_NoDup; assumption].
  - apply tSplit_records; assumption.
Qed.

(** C66. The records of Split do not depend on the secret, and of the random bytes only on those for the last bytes of the secret (as many as
    the build treats one by one); with none such, on nothing but the arguments' sizes and the tags. *)
Lemma C66_split_blind_pf : forall ar growcap perm stream1 stream2 polB1 polB2 trB1 trB2 evBufs1 evBufs2 secret1 secret2 parts threshold,
  grow_ok growcap -> Permutation perm (seq 0 255) -> length secret1 = length secret2 ->
  (forall j, Z.to_nat threshold * (length secret1 - scalarPart ar (length secret1)) <= j < Z.to_nat threshold * length secret1 -> stream1 j = stream2 j) ->
  snd (tSplit ar growcap perm stream1 polB1 trB1 evBufs1 secret1 parts threshold) =
  snd (tSplit ar growcap perm stream2 polB2 trB2 evBufs2 secret2 parts threshold).
Proof.
  intros ar growcap perm st1 st2 pB1 pB2 tB1 tB2 ev1 ev2 s1 s2 parts threshold G P LS ST.
  assert (CE : checkArgs s1 parts threshold = checkArgs s2 parts threshold) by (unfold checkArgs; rewrite LS; reflexivity).
  destruct (checkArgs s1 parts threshold) eqn:CK1; [unfold tSplit; rewrite CK1, <- CE; reflexivity|]. symmetry in CE.
  pose proof CK1 as CK'. apply checkArgs_None in CK' as (H2 & H3 & Hs).
  destruct (perm_coords perm P) as (ND & NF & L255). rewrite map_length in L255.
  assert (LP : (parts <= Z.of_nat (length perm))%Z) by lia.
  rewrite (tSplit_records ar growcap perm st1 pB1 tB1 ev1 s1 parts threshold G CK1 LP), (tSplit_records ar growcap perm st2 pB2 tB2 ev2 s2 parts threshold G CE LP).
  set (t := Z.to_nat threshold) in *. set (N := length s1) in *. rewrite <- LS. unfold splitRecords. apply flat_map_ext_in. intros x _. apply flat_map_ext_in. intros k _.
  apply mulRecords_last; [unfold polysOf; rewrite !map_length, !seq_length; exact LS|].
  unfold polysOf. rewrite !map_map, map_length, seq_length. fold N. rewrite <- LS.
  apply lastBytes_ext; [rewrite !map_length; reflexivity|]. rewrite map_length, seq_length. intros i Hi. rewrite !nth_map_seq by lia. f_equal.
  unfold polyOf. change (S k) with (1 + k). rewrite <- !skipn_skipn'. match goal with |- skipn _ (skipn 1 (?a :: ?b)) = skipn _ (skipn 1 (?c :: ?d)) => change (skipn k b = skipn k d) end. f_equal. f_equal.
  assert (T0 : 0 < t) by (unfold t; lia).
  apply nth_ext with x00 x00; [rewrite !row_length; rewrite ?take_stream_length; nia|]. intros c Hc. rewrite row_length in Hc by (rewrite take_stream_length; nia).
  rewrite !nth_row by exact Hc. rewrite !nth_take_stream by nia. apply ST. nia.
Qed.

(** C66. But together with one single share (whose tag is not 1, or in a build without assembler) the records of Split determine the last bytes
    of the secret: as many as the build treats one by one, all of them without assembler. *)
Lemma C66_split_leak_pf : forall ar growcap perm stream1 stream2 polB1 polB2 trB1 trB2 evBufs1 evBufs2 secret1 secret2 parts threshold shares1 shares2 records i,
  grow_ok growcap -> Permutation perm (seq 0 255) -> length secret1 = length secret2 ->
  tSplit ar growcap perm stream1 polB1 trB1 evBufs1 secret1 parts threshold = (Ret shares1, records) ->
  tSplit ar growcap perm stream2 polB2 trB2 evBufs2 secret2 parts threshold = (Ret shares2, records) ->
  i < length shares1 -> nth i shares1 [] = nth i shares2 [] -> ar = ArchGeneric \/ tag (nth i shares1 []) <> x01 ->
  lastBytes (scalarPart ar (length secret1)) secret1 = lastBytes (scalarPart ar (length secret1)) secret2.
Proof.
  intros ar growcap perm st1 st2 pB1 pB2 tB1 tB2 ev1 ev2 s1 s2 parts threshold sh1 sh2 rs i G P LS E1 E2 Li SE TG.
  assert (CE : checkArgs s1 parts threshold = checkArgs s2 parts threshold) by (unfold checkArgs; rewrite LS; reflexivity).
  destruct (checkArgs s1 parts threshold) eqn:CK1; [unfold tSplit in E1; rewrite CK1 in E1; discriminate E1|]. symmetry in CE.
  pose proof CK1 as CK'. apply checkArgs_None in CK' as (H2 & H3 & Hs).
  destruct (perm_coords perm P) as (ND & NF & L255). rewrite map_length in L255.
  assert (LP : (parts <= Z.of_nat (length perm))%Z) by lia.
  pose proof (f_equal snd E1) as R1. pose proof (f_equal snd E2) as R2. pose proof (f_equal fst E1) as F1. pose proof (f_equal fst E2) as F2. cbn [fst snd] in F1, F2, R1, R2. clear E1 E2.
  rewrite tSplit_erase in F1, F2.
  rewrite (Split_ok ar growcap perm st1 pB1 tB1 ev1 s1 parts threshold G CK1 LP) in F1. rewrite (Split_ok ar growcap perm st2 pB2 tB2 ev2 s2 parts threshold G CE LP) in F2.
  rewrite (tSplit_records ar growcap perm st1 pB1 tB1 ev1 s1 parts threshold G CK1 LP) in R1. rewrite (tSplit_records ar growcap perm st2 pB2 tB2 ev2 s2 parts threshold G CE LP) in R2.
  injection F1 as <-. injection F2 as <-. rewrite <- R2 in R1. clear R2. set (t := Z.to_nat threshold) in *.
  set (q1 := polysOf t s1 (take_stream st1 (t * length s1))) in *. set (q2 := polysOf t s2 (take_stream st2 (t * length s2))) in *. set (tags := tagsOf (Z.to_nat parts) (map i2b perm)) in *.
  assert (T2 : 2 <= t) by (unfold t; lia).
  assert (L1 : length q1 = length s1) by apply polysOf_length. assert (L2 : length q2 = length s2) by apply polysOf_length.
  assert (R1' : Forall (fun p => length p = t) q1) by (apply polysOf_row_length; [lia|apply take_stream_length]).
  assert (R2' : Forall (fun p => length p = t) q2) by (apply polysOf_row_length; [lia|apply take_stream_length]).
  rewrite map_length in Li. rewrite (nth_map' (share_at q1) tags i [] x00) in SE, TG by exact Li. rewrite (nth_map' (share_at q2) tags i [] x00) in SE by exact Li.
  rewrite tag_share_at in TG. set (x := nth i tags x00) in *.
  assert (K := splitRecords_inj ar t q1 q2 tags x T2 ltac:(congruence) (nth_In tags x00 Li) TG R1). rewrite L1 in K.
  unfold share_at in SE. apply app_inj in SE as [SE _]; [|rewrite !map_length; congruence].
  assert (K' : forall p, length s1 - scalarPart ar (length s1) <= p < length s1 -> nth p (map (fun p => peval (skipn 1 p) x) q1) x00 = nth p (map (fun p => peval (skipn 1 p) x) q2) x00).
  { intros p Hp. refine (lastBytes_nth _ _ _ _ K p _); [rewrite !map_length, L1, L2; exact LS|rewrite map_length, L1; exact Hp]. }
  clear K. rename K' into K.
  apply lastBytes_ext; [exact LS|]. intros p Hp. specialize (K p Hp).
  assert (P1 := polysOf_intercepts t s1 (take_stream st1 (t * length s1))). fold q1 in P1. assert (P2 := polysOf_intercepts t s2 (take_stream st2 (t * length s2))). fold q2 in P2.
  rewrite <- P1, <- P2. pose proof (f_equal (fun l => nth p l x00) SE) as Q. cbv beta in Q.
  rewrite !(nth_map' _ q1 p x00 []) in * by lia. rewrite !(nth_map' _ q2 p x00 []) in * by lia.
  assert (LQ1 : length (nth p q1 []) = t) by (rewrite Forall_forall in R1'; apply R1', nth_In; lia).
  assert (LQ2 : length (nth p q2 []) = t) by (rewrite Forall_forall in R2'; apply R2', nth_In; lia).
  rewrite (peval_first (nth p q1 [])), (peval_first (nth p q2 [])) in Q by lia. cbv beta in K. rewrite K in Q. clear - Q.
  exact (cancel_r _ _ _ Q).
Qed.

(*COPY
(** With AVX2 a secret of 64 bytes is handled by vector instructions only (other secret, other random bytes, same records), one of 32 bytes is
    looked up byte by byte; for the 5 bytes of "hello" the records differ as soon as the random bytes do, and share 1 alone does not show the
    difference between these two runs. *)
Example C66_sizes : map (scalarPart (ArchAmd64 true true true)) [5; 32; 33; 64; 100; 128; 160] = [5; 32; 1; 0; 4; 0; 32] /\
  map (scalarPart (ArchAmd64 true true false)) [5; 16; 17] = [5; 16; 1] /\ map (scalarPart ArchArm64) [5; 32; 33] = [5; 0; 1].
Proof. vm_compute. repeat split. Qed.
Example C66_run64 : forall sec1 sec2, sec1 = repeat x41 64 -> sec2 = map i2b (seq 7 64) ->
  snd (tSplit ex_ar growcap117 ex_perm ex_stream ex_stale ex_stale ex_ev sec1 5 3) =
  snd (tSplit ex_ar growcap117 ex_perm (fun i => i2b (i * i)) [] [] ex_ev sec2 5 3) /\
  length (snd (tSplit ex_ar growcap117 ex_perm ex_stream ex_stale ex_stale ex_ev sec1 5 3)) = 10.
Proof. intros sec1 sec2 -> ->. split; vm_compute; reflexivity. Qed.
Definition ex_other (i : nat) : byte := if i =? 1 then x55 else if i =? 2 then x88 else ex_stream i.
Example C66_run5 : forall sec2, sec2 = x88 :: tl ex_secret ->
  exists sh1 sh2 r1 r2,
    tSplit ex_ar growcap117 ex_perm ex_stream ex_stale ex_stale ex_ev ex_secret 5 3 = (Ret sh1, r1) /\
    tSplit ex_ar growcap117 ex_perm ex_other ex_stale ex_stale ex_ev sec2 5 3 = (Ret sh2, r2) /\
    nth 1 sh1 [] = nth 1 sh2 [] /\ tag (nth 1 sh1 []) = x02 /\ r1 <> r2 /\ length r1 = 50.
Proof. intros sec2 ->. eexists _, _, _, _. split; [vm_compute; reflexivity|]. split; [vm_compute; reflexivity|]. split; [vm_compute; reflexivity|]. split; [vm_compute; reflexivity|]. split; [vm_compute; discriminate|vm_compute; reflexivity]. Qed.
END*)

(** C66. Combine: the function of values; a call that returns takes the same branches whatever the shares are (the promise of the comments at
    mult and div)... *)
Lemma C66_combine_branches_pf : forall parts r, fst (tCombine parts) = Combine parts /\
  (Combine parts = Ret r -> branches (snd (tCombine parts)) = repeat (Branch false) (length r * (length parts * (length parts - 1)))).
Proof. intros parts r. split; [apply tCombine_erase|]. rewrite <- tCombine_erase. apply tCombine_branches. Qed.

(** ... but the table entries it reads determine the shares completely, and so the secret. *)
Lemma C66_combine_leak_pf : forall parts1 parts2 r1 r2 records,
  tCombine parts1 = (Ret r1, records) -> tCombine parts2 = (Ret r2, records) -> length parts1 = length parts2 -> length r1 = length r2 ->
  parts1 = parts2 /\ r1 = r2.
Proof.
  intros p1 p2 r1 r2 rs E1 E2 LP LR.
  assert (Q : p1 = p2) by (apply (tCombine_inj p1 p2 r1 r2); rewrite ?E1, ?E2; auto). split; [exact Q|]. rewrite Q, E2 in E1. congruence.
Qed.

(*COPY
(** two calls for the shares of two different secrets: the same branches, other table entries *)
Example C66_combine_run : exists r1 r2, fst (tCombine [[x01; x02; x01]; [x03; x04; x02]]) = Ret r1 /\ fst (tCombine [[x01; x02; x01]; [x03; x05; x02]]) = Ret r2 /\ r1 <> r2 /\
  branches (snd (tCombine [[x01; x02; x01]; [x03; x04; x02]])) = repeat (Branch false) 4 /\
  length (snd (tCombine [[x01; x02; x01]; [x03; x04; x02]])) = 40 /\
  snd (tCombine [[x01; x02; x01]; [x03; x04; x02]]) <> snd (tCombine [[x01; x02; x01]; [x03; x05; x02]]).
Proof. eexists _, _. split; [vm_compute; reflexivity|]. split; [vm_compute; reflexivity|]. split; [discriminate|]. split; [vm_compute; reflexivity|]. split; [vm_compute; reflexivity|vm_compute; discriminate]. Qed.
END*)

(** C66. The assembler routines: which instruction is executed next and which addresses are read and written do not depend on the bytes in
    memory; for every program made of the modelled instructions, for any number of steps. *)
Lemma C66_asm_amd64_pf : forall code args n s1 s2, xlike s1 s2 -> xtrace code args n s1 = xtrace code args n s2.
Proof. intros. apply xtrace_like. assumption. Qed.
Lemma C66_asm_arm64_pf : forall code args n s1 s2, alike s1 s2 -> atrace code args n s1 = atrace code args n s2.
Proof. intros. apply atrace_like. assumption. Qed.

(** C66. These records are what the instructions do: the k-th record belongs to the state after k steps, and says exactly which bytes of memory the
    next step accesses ([acts_on]); there is such a record for every instruction executed. *)
Lemma C66_asm_amd64_faithful_pf : forall code args n s k, xwide s ->
  match nth_error (xtrace code args n s) k with
  | Some (pc, acc) => exists s', steps (xstep code args) k s = Some s' /\ pc = xpc s' /\ acts_on (xstep code args) xmem xput s' acc
  | None => k < n -> match steps (xstep code args) k s with Some s' => nth_error code (xpc s') = None | None => True end
  end.
Proof. intros. apply xtrace_faithful. assumption. Qed.
Lemma C66_asm_arm64_faithful_pf : forall code args n s k, awide s ->
  match nth_error (atrace code args n s) k with
  | Some (pc, acc) => exists s', steps (astep code args) k s = Some s' /\ pc = apc s' /\ acts_on (astep code args) amem aput s' acc
  | None => k < n -> match steps (astep code args) k s with Some s' => nth_error code (apc s') = None | None => True end
  end.
Proof. intros. apply atrace_faithful. assumption. Qed.

(*COPY
(** 64 bytes at address 1000 multiplied into address 2000, tables at 4000 and 5000, for memories full of zeros and full of other bytes: 40
    instructions, six of them reading and two writing *)
Definition ex_xstate (b : byte) : xstate :=
  {| xg := fun _ => 0%N; xv := fun _ => (repeat b 16, repeat b 16); xz := false; xmem := fun a => if (a <? 8192)%N then Some b else None; xpc := 0 |}.
Definition ex_args (off : N) : N :=
  match off with 0%N => 4000%N | 24%N => 5000%N | 48%N => 1000%N | 56%N => 64%N | 72%N => 2000%N | _ => 64%N end.
Example C66_asm_run : xlike (ex_xstate x00) (ex_xstate x5a) /\
  xtrace galMulAVX2_code ex_args 100 (ex_xstate x00) = xtrace galMulAVX2_code ex_args 100 (ex_xstate x5a) /\
  map snd (filter (fun e => match snd e with Some _ => true | None => false end) (xtrace galMulAVX2_code ex_args 100 (ex_xstate x5a))) =
    [Some (4000%N, 16, false); Some (5000%N, 16, false); Some (1000%N, 32, false); Some (2000%N, 32, true); Some (1032%N, 32, false); Some (2032%N, 32, true)].
Proof.
  assert (X : xlike (ex_xstate x00) (ex_xstate x5a)).
  { split; [reflexivity|]. split; [reflexivity|]. split; [reflexivity|]. split; [|intros r; split; reflexivity].
    intros a. unfold ex_xstate. cbn [xmem]. destruct (a <? 8192)%N; split; (discriminate || reflexivity). }
  split; [exact X|]. split; [apply C66_asm_amd64, X|]. vm_compute. reflexivity.
Qed.
Example C66_asm_wide : xwide (ex_xstate x5a).
Proof. intros r. split; reflexivity. Qed.
END*)
