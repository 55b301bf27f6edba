(** Proofs about what the access pattern of krawczyk's Split, SplitWithRandomizer and Combine shows (C86). *)
From Coq Require Import List NArith ZArith Lia Arith Bool Permutation.
From Coq.Init Require Import Byte.
From Verif Require Import GoSem Bytes Spec SpecKr Galois Vector Csprng Pool Polynomial Shamir GoFacts GF VectorFacts PolyFacts PolynomialFacts SplitFacts CombineFacts
  Libs Krawczyk KrawczykFacts KrawczykCombine KrawczykContract RandomizerFacts CountFacts Pf6 Pf12 Asm Trace SpecTrace TraceFacts TraceMore TraceMoreFacts CombineTrace Pf19 Pf26 KrTrace KrTraceFacts.
Import ListNotations.
Local Open Scope go_scope.

(*PROPS
From Coq Require Import List NArith ZArith Lia Arith Bool Permutation.
From Coq.Init Require Import Byte.
From Verif Require Import GoSem Bytes Spec SpecKr Vector Csprng Pool Polynomial Shamir Libs Krawczyk Asm Trace SpecTrace TraceMore KrTrace ExData Pf41.
Import ListNotations.
*)

Lemma meta_le32 key (secret : list byte) zp parts threshold : kr_valid_args zp secret parts threshold -> krMeta key (length secret) = key ++ le32 (N.of_nat (length secret)).
Proof. intros (_ & HL & _). unfold krMeta. rewrite le32_leBytes by exact HL. reflexivity. Qed.

(** C86. krawczyk.Split: the function of values, and the records are those of the shamir sharing of key and length on which the metadata lie. *)
Lemma C86_split_pf : forall E zp ar growcap krand perm stream polB trB evBufs secret parts threshold shares,
  grow_ok growcap -> Permutation perm (seq 0 255) ->
  let call := tkrSplit E zp ar growcap krand perm stream polB trB evBufs secret parts threshold in
  fst call = krSplit E zp ar growcap krand perm stream polB trB evBufs secret parts threshold /\
  (fst call = Ret shares ->
   exists polys, is_sharing (map krand (seq 0 16) ++ le32 (N.of_nat (length secret))) (Z.to_nat threshold) polys (map (fun s => tag (kr_meta s)) shares) (map kr_meta shares) /\
     snd call = splitRecords ar (Z.to_nat threshold) polys (map (fun s => tag (kr_meta s)) shares)).
Proof.
  intros E zp ar growcap krand perm stream polB trB evBufs secret parts threshold shares G P call. split; [apply tkrSplit_erase|]. intros R.
  destruct (tkrSplit_inner E zp ar growcap krand perm stream polB trB evBufs secret parts threshold shares (snd call) G P) as (V & _ & T & _).
  { rewrite <- R. apply surjective_pairing. }
  rewrite (meta_le32 _ secret zp parts threshold V) in T.
  destruct (C66_split_pf ar growcap perm stream polB trB evBufs (take_stream krand 16 ++ le32 (N.of_nat (length secret))) parts threshold (map kr_meta shares) G P) as (_ & K).
  destruct K as (polys & S & SR); [rewrite <- tSplit_erase, T; reflexivity|]. rewrite map_map in S, SR.
  exists polys. split; [exact S|]. rewrite T in SR. exact SR.
Qed.

(** C86. The same for krawczyk.SplitWithRandomizer. *)
Lemma C86_randomizer_pf : forall fuel E zp ar growcap ks polB trB evBufs secret parts threshold shares,
  grow_ok growcap ->
  let call := tkrSplitWithRandomizer fuel E zp ar growcap ks polB trB evBufs secret parts threshold in
  fst call = krSplitWithRandomizer fuel E zp ar growcap ks polB trB evBufs secret parts threshold /\
  (fst call = Ret shares ->
   exists polys, is_sharing (map ks (seq 0 16) ++ le32 (N.of_nat (length secret))) (Z.to_nat threshold) polys (map (fun s => tag (kr_meta s)) shares) (map kr_meta shares) /\
     snd call = splitRecords ar (Z.to_nat threshold) polys (map (fun s => tag (kr_meta s)) shares)).
Proof.
  intros fuel E zp ar growcap ks polB trB evBufs secret parts threshold shares G call. split; [apply tkrSWR_erase|]. intros R.
  pose proof R as R0. unfold call in R0. rewrite tkrSWR_erase in R0.
  destruct (krSWR_inv _ _ _ _ _ _ _ _ _ _ _ _ _ G R0) as (V & Hk & ms & polys0 & tags & E1 & E2 & S0 & Esh).
  assert (RC : snd call = snd (tSplitWithRandomizer fuel ar growcap ks polB trB evBufs (krMeta (Read ks (zeros 16)) (length secret)) parts threshold)).
  { unfold call, tkrSplitWithRandomizer in *. change LenKey with 16 in *. exact (tkrSplitWith_records _ _ _ _ _ _ _ shares Hk R). }
  assert (EM : map kr_meta shares = ms).
  { rewrite Esh. apply krShares_meta; [exact E2|]. intros i Hi. rewrite (is_sharing_lengths _ _ _ _ _ i S0) by lia. rewrite krMeta_length by exact Hk. reflexivity. }
  destruct (C73_randomizer_pf fuel ar growcap ks polB trB evBufs (krMeta (Read ks (zeros 16)) (length secret)) parts threshold ms G) as (_ & K).
  destruct (K E1) as (polys & S & SR). rewrite (meta_le32 _ secret zp parts threshold V), Read_zeros in *. rewrite <- EM, map_map in *.
  exists polys. split; [exact S|]. rewrite RC. exact SR.
Qed.

(** C86. The records of krawczyk.Split depend neither on the secret (not even on its length) nor on the AES key, and of the random bytes only on
    those for the last bytes of the 20 bytes of key and length. *)
Lemma C86_split_blind_pf : forall E1 E2 zp1 zp2 ar growcap krand1 krand2 perm stream1 stream2 polB1 polB2 trB1 trB2 evBufs1 evBufs2 secret1 secret2 parts threshold,
  grow_ok growcap -> Permutation perm (seq 0 255) -> kr_valid_args zp1 secret1 parts threshold -> kr_valid_args zp2 secret2 parts threshold ->
  (forall j, Z.to_nat threshold * (20 - scalarPart ar 20) <= j < Z.to_nat threshold * 20 -> stream1 j = stream2 j) ->
  snd (tkrSplit E1 zp1 ar growcap krand1 perm stream1 polB1 trB1 evBufs1 secret1 parts threshold) =
  snd (tkrSplit E2 zp2 ar growcap krand2 perm stream2 polB2 trB2 evBufs2 secret2 parts threshold).
Proof.
  intros E1 E2 zp1 zp2 ar growcap kr1 kr2 perm st1 st2 pB1 pB2 tB1 tB2 ev1 ev2 s1 s2 parts threshold G P V1 V2 ST.
  destruct (proj2 (proj1 (C34_contract_pf E1 zp1 ar growcap kr1 perm st1 pB1 tB1 ev1 s1 parts threshold G P)) V1) as (sh1 & R1).
  destruct (proj2 (proj1 (C34_contract_pf E2 zp2 ar growcap kr2 perm st2 pB2 tB2 ev2 s2 parts threshold G P)) V2) as (sh2 & R2).
  rewrite <- tkrSplit_erase in R1, R2. unfold tkrSplit in *. change LenKey with 16 in *.
  rewrite (tkrSplitWith_records _ _ _ _ _ _ _ sh1 (take_stream_length _ _) R1), (tkrSplitWith_records _ _ _ _ _ _ _ sh2 (take_stream_length _ _) R2).
  apply C66_split_blind_pf; [exact G|exact P|rewrite !krMeta_length by apply take_stream_length; reflexivity|].
  rewrite krMeta_length by apply take_stream_length. exact ST.
Qed.

(** C86. But with the metadata of one single share (whose tag is not 1, or in a build without assembler) they determine the last bytes of key and
    length, as many as the build treats one by one... *)
Lemma C86_split_leak_pf : forall E zp ar growcap krand1 krand2 perm stream1 stream2 polB1 polB2 trB1 trB2 evBufs1 evBufs2 secret1 secret2 parts threshold
    shares1 shares2 records i,
  grow_ok growcap -> Permutation perm (seq 0 255) ->
  tkrSplit E zp ar growcap krand1 perm stream1 polB1 trB1 evBufs1 secret1 parts threshold = (Ret shares1, records) ->
  tkrSplit E zp ar growcap krand2 perm stream2 polB2 trB2 evBufs2 secret2 parts threshold = (Ret shares2, records) ->
  i < length shares1 -> kr_meta (nth i shares1 []) = kr_meta (nth i shares2 []) -> ar = ArchGeneric \/ tag (kr_meta (nth i shares1 [])) <> x01 ->
  let key_and_length krand (secret : list byte) := map krand (seq 0 16) ++ le32 (N.of_nat (length secret)) in
  lastBytes (scalarPart ar 20) (key_and_length krand1 secret1) = lastBytes (scalarPart ar 20) (key_and_length krand2 secret2).
Proof.
  intros E zp ar growcap kr1 kr2 perm st1 st2 pB1 pB2 tB1 tB2 ev1 ev2 s1 s2 parts threshold sh1 sh2 rs i G P R1 R2 Li SE TG kl.
  destruct (tkrSplit_inner _ _ _ _ _ _ _ _ _ _ _ _ _ _ _ G P R1) as (V1 & _ & T1 & Sh1 & _). destruct (tkrSplit_inner _ _ _ _ _ _ _ _ _ _ _ _ _ _ _ G P R2) as (V2 & _ & T2 & Sh2 & _).
  pose proof (krMeta_length (take_stream kr1 16) (length s1) (take_stream_length _ _)) as L1. pose proof (krMeta_length (take_stream kr2 16) (length s2) (take_stream_length _ _)) as L2.
  pose proof (C66_split_leak_pf ar growcap perm st1 st2 pB1 pB2 tB1 tB2 ev1 ev2 _ _ parts threshold _ _ rs i G P (eq_trans L1 (eq_sym L2)) T1 T2) as K.
  rewrite map_length, L1, (nth_map' kr_meta sh1 i [] []), (nth_map' kr_meta sh2 i [] []) in K by lia. specialize (K Li SE TG).
  rewrite (meta_le32 _ s1 zp parts threshold V1), (meta_le32 _ s2 zp parts threshold V2) in K. exact K.
Qed.

(** ... which are the whole AES key and the length in every build but the one for amd64 with SSSE3 and without AVX2 (and there the length): then
    the pieces, of which [threshold] suffice, and the records determine the secret. *)
Lemma C86_split_secret_pf : forall E zp ar growcap krand1 krand2 perm stream1 stream2 polB1 polB2 trB1 trB2 evBufs1 evBufs2 secret1 secret2 parts threshold
    shares1 shares2 records i is,
  grow_ok growcap -> Permutation perm (seq 0 255) -> (forall sse2, ar <> ArchAmd64 sse2 true false) ->
  tkrSplit E zp ar growcap krand1 perm stream1 polB1 trB1 evBufs1 secret1 parts threshold = (Ret shares1, records) ->
  tkrSplit E zp ar growcap krand2 perm stream2 polB2 trB2 evBufs2 secret2 parts threshold = (Ret shares2, records) ->
  i < length shares1 -> kr_meta (nth i shares1 []) = kr_meta (nth i shares2 []) -> ar = ArchGeneric \/ tag (kr_meta (nth i shares1 [])) <> x01 ->
  map krand1 (seq 0 16) = map krand2 (seq 0 16) /\ length secret1 = length secret2 /\
  (selection (Z.to_nat parts) (Z.to_nat threshold) is -> map kr_piece (pick [] shares1 is) = map kr_piece (pick [] shares2 is) -> secret1 = secret2).
Proof.
  intros E zp ar growcap kr1 kr2 perm st1 st2 pB1 pB2 tB1 tB2 ev1 ev2 s1 s2 parts threshold sh1 sh2 rs i is G P NA R1 R2 Li SE TG.
  pose proof (C86_split_leak_pf _ _ _ _ _ _ _ _ _ _ _ _ _ _ _ _ _ _ _ _ _ _ _ G P R1 R2 Li SE TG) as K. cbv zeta in K.
  destruct (tkrSplit_inner _ _ _ _ _ _ _ _ _ _ _ _ _ _ _ G P R1) as (V1 & _ & _ & Sh1). destruct (tkrSplit_inner _ _ _ _ _ _ _ _ _ _ _ _ _ _ _ G P R2) as (V2 & _ & _ & Sh2).
  assert (SP : scalarPart ar 20 = 20).
  { destruct ar as [|sse2 ssse3 avx2|]; [reflexivity| |reflexivity]. destruct avx2; [reflexivity|]. destruct ssse3; [exfalso; exact (NA sse2 eq_refl)|reflexivity]. }
  assert (L20 : forall k (s : list byte), length (map k (seq 0 16) ++ le32 (N.of_nat (length s)) : list byte) = 20) by (intros k s; rewrite app_length, map_length; reflexivity).
  unfold lastBytes in K. rewrite SP, !L20, Nat.sub_diag in K. change (map kr1 (seq 0 16) ++ le32 (N.of_nat (length s1)) = map kr2 (seq 0 16) ++ le32 (N.of_nat (length s2))) in K.
  apply app_inj in K as [K1 K2]; [|rewrite !map_length; reflexivity].
  assert (LS : length s1 = length s2).
  { pose proof V1 as (_ & B1 & _). pose proof V2 as (_ & B2 & _). apply (f_equal le32_value) in K2. rewrite !le32_value_le32 in K2 by assumption. lia. }
  split; [exact K1|]. split; [exact LS|]. intros Sel EP. unfold take_stream in Sh1, Sh2. rewrite <- K1 in Sh2.
  destruct V1 as (_ & _ & H2 & H3 & H4 & _). exact (kr_shape_secret E s1 s2 _ (Z.to_nat parts) (Z.to_nat threshold) sh1 sh2 is ltac:(lia) ltac:(lia) LS Sh1 Sh2 Sel EP).
Qed.

(** C86. krawczyk.Combine: the function of values; a call that returns takes the same branches whatever the shares are... *)
Lemma C86_combine_branches_pf : forall E zp rd ss parts threshold out,
  let call := tkrCombineCap E zp rd ss parts threshold in
  fst call = krCombineCap E zp rd ss parts threshold /\
  (fst call = Ret out -> branches (snd call) = repeat (Branch false) (20 * (length (somes ss) * (length (somes ss) - 1)))).
Proof.
  intros E zp rd ss parts threshold out call. split; [apply tkrCombineCap_erase|]. intros R.
  destruct (tkrCombineCap_inner E zp rd ss parts threshold out (snd call)) as (md & T & L & F); [rewrite <- R; apply surjective_pairing|].
  pose proof (tCombine_branches (map (fun x => kr_meta (fst x)) (somes ss)) md) as B. rewrite T in B. cbn [fst snd] in B. rewrite (B eq_refl), L, map_length. reflexivity.
Qed.

(** ... and its records are a function of the metadata of the shares (the pieces, the parameters and the cipher leave none), from which the metadata
    can be read off: two calls with equally many shares leave the same records if and only if the metadata are the same. *)
Lemma C86_combine_metadata_pf : forall E1 E2 zp1 zp2 rd1 rd2 ss1 ss2 parts1 parts2 threshold1 threshold2 out1 out2 records1 records2,
  tkrCombineCap E1 zp1 rd1 ss1 parts1 threshold1 = (Ret out1, records1) -> tkrCombineCap E2 zp2 rd2 ss2 parts2 threshold2 = (Ret out2, records2) ->
  length (somes ss1) = length (somes ss2) ->
  (records1 = records2 <-> map (fun s => kr_meta (fst s)) (somes ss1) = map (fun s => kr_meta (fst s)) (somes ss2)).
Proof.
  intros E1 E2 zp1 zp2 rd1 rd2 ss1 ss2 n1 n2 t1 t2 o1 o2 r1 r2 R1 R2 L.
  apply tkrCombineCap_inner in R1 as (md1 & T1 & L1 & _). apply tkrCombineCap_inner in R2 as (md2 & T2 & L2 & _). split.
  - intros <-. refine (proj1 (C66_combine_leak_pf _ _ md1 md2 r1 T1 T2 _ _)); [rewrite !map_length; exact L|congruence].
  - intros EQ. rewrite EQ in T1. congruence.
Qed.

(** So the records of krawczyk.Combine, and the pieces, determine the secret. *)
Lemma C86_combine_secret_pf : forall E zp rd shares1 shares2 parts threshold out1 out2 records,
  tkrCombine E zp rd (map Some shares1) parts threshold = (Ret out1, records) -> tkrCombine E zp rd (map Some shares2) parts threshold = (Ret out2, records) ->
  length shares1 = length shares2 -> map (skipn 21) shares1 = map (skipn 21) shares2 -> out1 = out2.
Proof.
  intros E zp rd sh1 sh2 n t o1 o2 rs R1 R2 L EP.
  assert (EM : forall sh : list (list byte), map (fun s => kr_meta (fst s)) (somes (map (option_map (fun s : list byte => (s, @nil byte))) (map Some sh))) = map kr_meta sh).
  { induction sh as [|s sh IH]; [reflexivity|]. cbn [map option_map somes fst]. f_equal. exact IH. }
  assert (LM : forall sh : list (list byte), length (somes (map (option_map (fun s : list byte => (s, @nil byte))) (map Some sh))) = length sh).
  { induction sh as [|s sh IH]; [reflexivity|]. cbn [map option_map somes length]. f_equal. exact IH. }
  pose proof (C86_combine_metadata_pf E E zp zp rd rd _ _ n n t t o1 o2 rs rs R1 R2 ltac:(rewrite !LM; exact L)) as K.
  rewrite !EM in K. pose proof (proj1 K eq_refl) as K'.
  assert (Q : sh1 = sh2).
  { apply nth_ext with [] []; [exact L|]. intros i Hi. rewrite <- (firstn_skipn 21 (nth i sh1 [])), <- (firstn_skipn 21 (nth i sh2 [])).
    apply (f_equal (fun l => nth i l [])) in K', EP. rewrite !(nth_map' kr_meta _ i [] []) in K' by lia. rewrite !(nth_map' (skipn 21) _ i [] []) in EP by lia.
    unfold kr_meta in K'. rewrite K', EP. reflexivity. }
  subst sh2. congruence.
Qed.

(*COPY
(** the 20 bytes of key and length in the builds: generic, amd64 with AVX2, with SSSE3 only, with neither, arm64 *)
Example C86_builds : map (fun ar => scalarPart ar 20) [ArchGeneric; ArchAmd64 true true true; ArchAmd64 true true false; ArchAmd64 true false false; ArchArm64] = [20; 20; 4; 20; 20].
Proof. reflexivity. Qed.

(** two runs that return, with different records *)
Example C86_case : exists shares records, tkrSplit xor_bytes true ex_ar growcap117 (fun i => i2b (5 * i + 9)) ex_perm ex_stream ex_stale ex_stale ex_ev ex_secret 5 3 = (Ret shares, records) /\
  length records = 170 /\ tag (kr_meta (nth 1 shares [])) = x02 /\ kr_valid_args true ex_secret 5 3 /\
  exists records', tkrCombine xor_bytes true (fun _ => 512) (map Some (pick [] shares [4; 1; 2])) 5 3 = (Ret ex_secret, records') /\ length records' = 1020.
Proof.
  eexists _, _. split; [vm_compute; reflexivity|]. split; [vm_compute; reflexivity|]. split; [vm_compute; reflexivity|].
  split; [repeat split; try discriminate; left; reflexivity|]. eexists. split; vm_compute; reflexivity.
Qed.
END*)
