(** Lemmas about krawczyk.Combine. *)
From Coq Require Import List NArith ZArith Lia Arith Bool Permutation.
From Coq.Init Require Import Byte.
From Verif Require Import GoSem Bytes Spec GF PolyFacts GoFacts Vector Csprng Pool Shamir Libs Krawczyk SplitFacts CombineFacts SpecKr KrawczykFacts.
Import ListNotations.

Lemma cleanShares_somes ss : cleanShares (map (option_map (fun s => (s, []))) ss) = map (fun s => (s, [])) (somes ss).
Proof. induction ss as [|[s|] ss IH]; cbn; [reflexivity| |exact IH]. rewrite IH. reflexivity. Qed.

Lemma krShare_length E key s t ms i : length (nth i ms []) = 21 -> length (krShare E key s t ms i) = 22 + rsPerShard t (length s).
Proof. intros H. unfold krShare. rewrite !app_length, H, krPiece_length. cbn [length]. lia. Qed.

Lemma z2b_small parts : (0 <= parts <= 255)%Z -> b2n (z2b parts) = Z.to_N parts.
Proof. intros H. unfold z2b. rewrite Z.mod_small by lia. apply b2n_n2b_small. lia. Qed.

Lemma splitShares_ok parts E key s t ms n : (0 <= parts <= 255)%Z -> n = Z.to_nat parts ->
  (forall i, i < n -> length (nth i ms []) = 21) -> 0 < rsPerShard t (length s) ->
  forall is, (forall i, In i is -> i < n) -> forall enc md, length enc = n ->
  exists enc', foreach (map (fun s => (s, [])) (map (krShare E key s t ms) is))
    (fun '(s, spare) '(encodedData, ssMetadata) =>
       do m <- slice (s ++ spare) 0 (LenKey + LenLen + 1);
       if length s =? 0 then Panic PIndex else
       do partID <- idx s (length s - 1);
       if bltb (z2b parts) partID then Fail EWrongPartId else
       do d <- slice s (LenKey + LenLen + 1) (length s - 1);
       do encodedData <- upd encodedData (b2i partID) d;
       Ret (encodedData, ssMetadata ++ [m])) (enc, md) = Ret (enc', md ++ map (fun i => nth i ms []) is) /\
    length enc' = n /\
    forall i, i < n -> (In i is -> nth i enc' [] = krPiece E key s t i) /\ (~ In i is -> nth i enc' [] = nth i enc []).
Proof.
  intros Hp Hn Lm Hper. induction is as [|i is IH]; intros Hi enc md He.
  - exists enc. cbn. rewrite app_nil_r. split; [reflexivity|]. split; [exact He|]. intros i Hlt. split; [intros []|reflexivity].
  - assert (Hin : i < n) by (apply Hi; left; reflexivity).
    assert (Ls : length (krShare E key s t ms i) = 22 + rsPerShard t (length s)) by (apply krShare_length, Lm, Hin).
    cbn [map foreach]. rewrite app_nil_r.
    rewrite slice_ok by (change (LenKey + LenLen + 1) with 21; lia). cbn [bind].
    destruct (Nat.eqb_spec (length (krShare E key s t ms i)) 0) as [X|_]; [lia|].
    assert (Lx : nth (length (krShare E key s t ms i) - 1) (krShare E key s t ms i) x00 = i2b i).
    { rewrite <- last_nth. unfold krShare. rewrite app_assoc, last_last. reflexivity. }
    rewrite (idx_ok _ _ x00) by lia. cbn [bind]. rewrite Lx.
    assert (B : bltb (z2b parts) (i2b i) = false).
    { unfold bltb. apply N.ltb_ge. rewrite z2b_small by exact Hp. pose proof (b2i_i2b i ltac:(lia)) as B. unfold b2i in B. lia. }
    rewrite B. rewrite slice_ok by (change (LenKey + LenLen + 1) with 21; lia). cbn [bind].
    rewrite b2i_i2b by lia. rewrite upd_ok by lia. cbn [bind].
    match goal with |- exists enc', foreach _ _ (set_nth enc i ?pp, md ++ [?mm]) = _ /\ _ => assert (Ep : pp = krPiece E key s t i); [|assert (Em : mm = nth i ms [])] end.
    { change (LenKey + LenLen + 1) with 21. rewrite Ls. unfold krShare. pose proof (Lm i Hin) as L1.
      rewrite skipn_app, skipn_all2 by lia. rewrite L1, Nat.sub_diag, skipn_O. cbn [app].
      rewrite firstn_app, firstn_all2 by (rewrite krPiece_length; lia). rewrite krPiece_length.
      replace (22 + rsPerShard t (length s) - 1 - 21 - rsPerShard t (length s)) with 0 by lia. rewrite firstn_O, app_nil_r. reflexivity. }
    { change (LenKey + LenLen + 1 - 0) with 21. rewrite skipn_O. unfold krShare. pose proof (Lm i Hin) as L1. rewrite firstn_app, L1, Nat.sub_diag, firstn_O, app_nil_r.
      apply firstn_all2. lia. }
    rewrite Ep, Em.
    destruct (IH (fun j Hj => Hi j (or_intror Hj)) (set_nth enc i (krPiece E key s t i)) (md ++ [nth i ms []])) as (enc' & E1 & E2 & E3).
    { rewrite set_nth_length; lia. }
    exists enc'. split; [rewrite E1, <- app_assoc; reflexivity|]. split; [exact E2|]. intros j Hj. destruct (E3 j Hj) as (E4 & E5).
    destruct (in_dec Nat.eq_dec j is) as [I|I].
    + split; [intros _; apply E4, I|intros N; exfalso; apply N; right; exact I].
    + rewrite nth_set_nth in E5 by lia. destruct (Nat.eqb_spec j i) as [->|N].
      * split; [intros _; apply E5, I|intros N; exfalso; apply N; left; reflexivity].
      * split; [intros [X|X]; [congruence|contradiction]|intros _; apply E5, I].
Qed.

Lemma is_sharing_lengths secret t polys tags ms i : is_sharing secret t polys tags ms -> i < length ms -> length (nth i ms []) = length secret + 1.
Proof.
  intros (S1 & _ & _ & ->) Hi. rewrite map_length in Hi. rewrite nth_map' with (d' := x00) by exact Hi.
  rewrite share_at_length, <- S1, map_length. reflexivity.
Qed.

Lemma present_of (enc : list (list byte)) n is (f : nat -> list byte) : NoDup is -> (forall i, In i is -> i < n) ->
  (forall i, i < n -> 0 < length (f i)) ->
  (forall i, i < n -> (In i is -> nth i enc [] = f i) /\ (~ In i is -> nth i enc [] = [])) ->
  length (filter (fun i => negb (length (nth i enc []) =? 0)) (seq 0 n)) = length is.
Proof.
  intros ND Hi Hf H. apply Permutation_length, NoDup_Permutation; [apply NoDup_filter, seq_NoDup|exact ND|].
  intros i. rewrite filter_In, in_seq. split.
  - intros (Hr & Hn). destruct (in_dec Nat.eq_dec i is) as [I|I]; [exact I|]. destruct (H i ltac:(lia)) as (_ & X). rewrite X in Hn by exact I. discriminate.
  - intros I. specialize (Hi i I). split; [lia|]. destruct (H i Hi) as (X & _). rewrite X by exact I. apply negb_true_iff, Nat.eqb_neq. specialize (Hf i Hi). lia.
Qed.

Section core.
Context (E : blockCipher) (zp : bool) (rd : nat -> nat) (Hrd : forall i, 0 < rd i)
  (key secret : list byte) (parts threshold : Z) (V : kr_valid_args zp secret parts threshold) (Hk : length key = 16)
  (ms : list (list byte)) (polys : list (list byte)) (tags : list byte)
  (Hlen : length ms = Z.to_nat parts)
  (Sh : is_sharing (krMeta key (length secret)) (Z.to_nat threshold) polys tags ms).

Let t := Z.to_nat threshold.
Let n := Z.to_nat parts.
Let shares := map (krShare E key secret t ms) (seq 0 n).

Lemma core_ms i : i < n -> length (nth i ms []) = 21.
Proof. intros H. rewrite (is_sharing_lengths _ _ _ _ _ i Sh) by (rewrite Hlen; exact H). rewrite krMeta_length by exact Hk. reflexivity. Qed.

Lemma core_per : 0 < rsPerShard t (length secret).
Proof. destruct V as (Hs & _ & H2 & _). apply rsPerShard_pos; [unfold t; lia|destruct secret; [congruence|cbn; lia]]. Qed.

Lemma core_pick is : (forall i, In i is -> i < n) -> pick [] shares is = map (krShare E key secret t ms) is.
Proof.
  intros H. unfold pick. apply map_ext_in. intros i Hi. unfold shares. rewrite nth_map_seq by (apply H, Hi). reflexivity.
Qed.

(** everything up to the call of shamir.Combine *)
Lemma core_start ss is : ss <> [] -> (forall i, In i is -> i < n) -> somes ss = pick [] shares is ->
  exists enc, length enc = n /\
   (forall i, i < n -> (In i is -> nth i enc [] = krPiece E key secret t i) /\ (~ In i is -> nth i enc [] = [])) /\
   krCombine E zp rd ss parts threshold =
     (do metadata <- Combine (pick [] ms is);
      do key <- slice metadata 0 LenKey;
      do lenBytes <- slice metadata LenKey (length metadata);
      if length lenBytes <? 4 then Panic PIndex else
      do encodedData <- rsReconstructData t n enc;
      do ciphertext <- rsJoin t encodedData (N.to_nat (leNum (firstn 4 lenBytes)));
      decrypt E rd ciphertext key).
Proof.
  intros Hss Hi Hp. destruct V as (Hs & HL & H2 & H3 & H4 & Hz).
  rewrite core_pick in Hp by exact Hi.
  destruct (splitShares_ok parts E key secret t ms n ltac:(lia) eq_refl core_ms core_per is Hi (repeat [] n) [] (repeat_length _ _)) as (enc & E1 & E2 & E3).
  exists enc. split; [exact E2|]. split.
  { intros i Hlt. destruct (E3 i Hlt) as (A & B). split; [exact A|]. intros X. rewrite (B X). apply nth_repeat. }
  unfold krCombine, krCombineCap. rewrite cleanShares_somes, Hp.
  destruct ss as [|s0 ss]; [congruence|]. cbn [map idx nth_error bind].
  replace (krCheck _ parts threshold) with (@None err).
  - unfold make_len. destruct (Z.ltb_spec parts 0) as [X|_]; [lia|]. cbn [bind]. fold n.
    unfold splitShares. rewrite E1. cbn [bind app].
    rewrite rsNew_None by (first [lia|destruct Hz; [left; assumption|right; lia]]).
    reflexivity.
  - symmetry. apply krCheck_None. repeat split; try lia.
    assert (Lb : match s0 with Some s => length s | None => 0 end <= 22 + rsPerShard t (length secret)).
    { destruct s0 as [s|]; [|lia]. cbn in Hp. destruct is as [|i is]; [discriminate|]. cbn [map] in Hp. injection Hp as -> _.
      rewrite krShare_length; [lia|]. apply core_ms, Hi. left. reflexivity. }
    pose proof (rsPerShard_bounds t (length secret) ltac:(unfold t; lia)). assert (2 <= t) by (unfold t; lia).
    assert (2 * rsPerShard t (length secret) <= length secret + t).
    { nia. }
    unfold t in *.
    destruct s0 as [s|]; cbn [option_map]; lia.
Qed.

Lemma core_enough ss is : selection n t is -> somes ss = pick [] shares is -> krCombine E zp rd ss parts threshold = Ret secret.
Proof.
  intros Sel Hp. pose proof Sel as (N1 & N2 & N3). destruct V as (Hs & HL & H2 & H3 & H4 & Hz).
  assert (Hss : ss <> []).
  { intros ->. cbn in Hp. destruct is; [cbn in N3; unfold t in N3; lia|discriminate]. }
  destruct (core_start ss is Hss N2 Hp) as (enc & E1 & E2 & ->).
  assert (Hkm : krMeta key (length secret) <> []) by (intros X; apply (f_equal (@length byte)) in X; rewrite krMeta_length in X by exact Hk; discriminate).
  rewrite (Combine_is_sharing (krMeta key (length secret)) t polys tags); [|unfold t; lia|exact Hkm|exact Sh|rewrite Hlen; exact Sel].
  cbn [bind]. change LenKey with 16.
  rewrite slice_ok by (rewrite ?krMeta_length by exact Hk; lia). cbn [bind].
  rewrite slice_tail by (rewrite ?krMeta_length by exact Hk; lia). cbn [bind]. rewrite skipn_length, krMeta_length by exact Hk.
  change (20 - 16 <? 4) with false. cbn [bind].
  assert (K1 : firstn (16 - 0) (skipn 0 (krMeta key (length secret))) = key).
  { cbn [skipn Nat.sub]. unfold krMeta. rewrite firstn_app, Hk, Nat.sub_diag, firstn_O, app_nil_r. apply firstn_all2. lia. }
  assert (K2 : firstn 4 (skipn 16 (krMeta key (length secret))) = leBytes LenLen (N.of_nat (length secret) mod 4294967296)).
  { unfold krMeta. rewrite skipn_app, Hk, Nat.sub_diag, skipn_O, skipn_all2 by lia. cbn [app]. apply firstn_all2. rewrite leBytes_length. exact (le_n 4). }
  rewrite K1, K2, leNum_leBytes. change (256 ^ N.of_nat LenLen)%N with 4294967296%N. rewrite N.mod_mod by discriminate.
  rewrite N.mod_small by lia. rewrite Nat2N.id.
  set (c := krCipher E key secret). assert (Lc : length c = length secret) by apply krCipher_length.
  destruct (rsReconstruct_ok t n (rsPerShard t (length c)) (rsData t c) enc) as (o & R1 & R2 & R3).
  - unfold t; lia.
  - unfold t, n; lia.
  - unfold n; lia.
  - rewrite Lc. apply core_per.
  - apply rsData_length.
  - intros i Hi. apply rsData_row_length; [unfold t; lia|exact Hi].
  - exact E1.
  - intros i Hi. destruct (E2 i Hi) as (A & B). destruct (in_dec Nat.eq_dec i is) as [I|I]; [left; apply A, I|right; apply B, I].
  - rewrite (present_of enc n is (krPiece E key secret t)); [exact N3|exact N1|exact N2| |exact E2].
    intros i Hi. rewrite krPiece_length. apply core_per.
  - rewrite R1. cbn [bind]. rewrite <- Lc. rewrite (rsJoin_ok t c); [|unfold t; lia|rewrite R2; unfold t, n; lia|exact R3]. cbn [bind].
    rewrite decrypt_ok by (first [exact Hrd|apply aes16, Hk]). f_equal. apply xorStream_twice.
Qed.

Lemma core_few ss is : ss <> [] -> NoDup is -> (forall i, In i is -> i < n) -> length is < t -> somes ss = pick [] shares is ->
  krCombine E zp rd ss parts threshold = Fail (if length is <? 2 then ETooFewParts else ERSTooFewShards).
Proof.
  intros Hss N1 N2 N3 Hp. pose proof V as (Hs & HL & H2 & H3 & H4 & Hz).
  destruct (core_start ss is Hss N2 Hp) as (enc & E1 & E2 & ->).
  destruct (Nat.ltb_spec (length is) 2) as [F|F].
  - unfold Combine, checkParts. rewrite pick_length. apply Nat.ltb_lt in F. rewrite F. reflexivity.
  - destruct Sh as (S1 & S2 & S3 & S4).
    assert (Pm : pick [] ms is = map (share_at polys) (pick x00 tags is)).
    { rewrite S4. apply pick_map. rewrite S4, map_length in Hlen. intros i Hi. rewrite Hlen. apply N2, Hi. }
    rewrite (Combine_accept (pick [] ms is) 21).
    + cbn [bind]. change (21 - 1) with 20. set (md := interpAt _ _ _). assert (Lmd : length md = 20) by apply interpAt_length.
      change LenKey with 16. rewrite slice_ok by lia. rewrite slice_tail by lia. cbn [bind].
      rewrite skipn_length, Lmd. change (20 - 16 <? 4) with false. cbv iota.
      set (c := krCipher E key secret). assert (Lc : length c = length secret) by apply krCipher_length.
      rewrite (rsReconstruct_few t n (rsPerShard t (length c)) (rsData t c) enc); [reflexivity| | | | |].
      * unfold t, n; lia.
      * rewrite Lc. apply core_per.
      * exact E1.
      * intros i Hi. destruct (E2 i Hi) as (A & B). destruct (in_dec Nat.eq_dec i is) as [I|I]; [left; apply A, I|right; apply B, I].
      * rewrite (present_of enc n is (krPiece E key secret t)); [lia|exact N1|exact N2| |exact E2].
        intros i Hi. rewrite krPiece_length. apply core_per.
    + rewrite pick_length. exact F.
    + lia.
    + intros p Hpin. apply in_map_iff in Hpin as (i & <- & Hi). apply core_ms, N2, Hi.
    + rewrite Pm, map_tag_shares. rewrite S4, map_length in Hlen. apply pick_NoDup; [exact S3|exact N1|]. intros i Hi. rewrite Hlen. apply N2, Hi.
Qed.
End core.

(** ** which inputs make krawczyk.Combine panic *)
Definition splitStep (parts : Z) : list byte * list byte -> list (list byte) * list (list byte) -> outcome (list (list byte) * list (list byte)) :=
    (fun '(s, spare) '(encodedData, ssMetadata) =>
       do m <- slice (s ++ spare) 0 (LenKey + LenLen + 1);
       if length s =? 0 then Panic PIndex else
       do partID <- idx s (length s - 1);
       if bltb (z2b parts) partID then Fail EWrongPartId else
       do d <- slice s (LenKey + LenLen + 1) (length s - 1);
       do encodedData <- upd encodedData (b2i partID) d;
       Ret (encodedData, ssMetadata ++ [m])).

Lemma bltb_spec parts b : (0 <= parts <= 255)%Z -> bltb (z2b parts) b = (parts <? b2z b)%Z.
Proof.
  intros H. unfold bltb. rewrite z2b_small by exact H. unfold b2z.
  destruct (N.ltb_spec (Z.to_N parts) (b2n b)), (Z.ltb_spec parts (Z.of_N (b2n b))); try reflexivity; lia.
Qed.

Lemma tag_nth s : tag s = nth (length s - 1) s x00.
Proof. apply last_nth. Qed.

Lemma b2z_b2i b : b2z b = Z.of_nat (b2i b).
Proof. unfold b2z, b2i. lia. Qed.

Lemma splitStep_cases parts s spare enc md : (0 <= parts <= 255)%Z -> length enc = Z.to_nat parts ->
  (kr_acceptable parts s /\ exists enc' m, splitStep parts (s, spare) (enc, md) = Ret (enc', md ++ [m]) /\ length enc' = Z.to_nat parts /\ length m = 21) \/
  (~ kr_acceptable parts s /\ kr_panicking parts s spare /\ exists p, splitStep parts (s, spare) (enc, md) = Panic p) \/
  (~ kr_acceptable parts s /\ ~ kr_panicking parts s spare /\ splitStep parts (s, spare) (enc, md) = Fail EWrongPartId).
Proof.
  intros Hp He. unfold splitStep, kr_acceptable, kr_panicking. change (LenKey + LenLen + 1) with 21.
  destruct (Nat.lt_ge_cases (length s + length spare) 21) as [H1|H1].
  { rewrite slice_panic by (rewrite app_length; lia). right. left. split; [lia|]. split; [left; exact H1|]. eexists. reflexivity. }
  rewrite slice_ok by (rewrite ?app_length; lia). cbn [bind].
  destruct (Nat.eqb_spec (length s) 0) as [Z|Z].
  { right. left. split; [lia|]. split; [right; left; destruct s; [reflexivity|cbn in Z; lia]|]. eexists. reflexivity. }
  assert (Hne : s <> []) by (intros ->; cbn in Z; lia).
  rewrite (idx_ok s _ x00) by lia. cbn [bind]. rewrite <- tag_nth. rewrite bltb_spec by exact Hp.
  destruct (Z.ltb_spec parts (b2z (tag s))) as [H2|H2].
  { right. right. split; [lia|]. split; [|reflexivity]. intros [X|[X|X]]; [lia|contradiction|lia]. }
  destruct (Nat.lt_ge_cases (length s) 22) as [H3|H3].
  { rewrite slice_panic by lia. right. left. split; [lia|]. split; [right; right; lia|]. eexists. reflexivity. }
  rewrite slice_ok by lia. cbn [bind]. rewrite b2z_b2i in *.
  destruct (Nat.lt_ge_cases (b2i (tag s)) (Z.to_nat parts)) as [H4|H4].
  - rewrite upd_ok by lia. cbn [bind]. left. split; [lia|]. eexists _, _. split; [reflexivity|]. split; [rewrite set_nth_length; lia|].
    rewrite firstn_length, skipn_length, app_length. lia.
  - rewrite upd_panic by lia. right. left. split; [lia|]. split; [right; right; lia|]. eexists. reflexivity.
Qed.

Lemma splitShares_cases parts : (0 <= parts <= 255)%Z -> forall l enc md, length enc = Z.to_nat parts ->
  (Forall (fun x => kr_acceptable parts (fst x)) l /\ exists enc' ms, foreach l (splitStep parts) (enc, md) = Ret (enc', md ++ ms) /\
     length enc' = Z.to_nat parts /\ length ms = length l /\ Forall (fun m => length m = 21) ms) \/
  (exists pre s spare post, l = pre ++ (s, spare) :: post /\ Forall (fun x => kr_acceptable parts (fst x)) pre /\ ~ kr_acceptable parts s /\
     ((kr_panicking parts s spare /\ exists p, foreach l (splitStep parts) (enc, md) = Panic p) \/
      (~ kr_panicking parts s spare /\ foreach l (splitStep parts) (enc, md) = Fail EWrongPartId))).
Proof.
  intros Hp. induction l as [|[s spare] l IH]; intros enc md He.
  - left. split; [constructor|]. exists enc, []. rewrite app_nil_r. repeat split; [exact He|constructor].
  - cbn [foreach]. destruct (splitStep_cases parts s spare enc md Hp He) as [(A & enc' & m & E1 & E2 & E3)|[(A & B & p & E1)|(A & B & E1)]]; rewrite E1; cbn [bind].
    + destruct (IH enc' (md ++ [m]) E2) as [(F & enc2 & ms & G1 & G2 & G3 & G4)|(pre & s2 & sp2 & post & -> & F & F2 & G)].
      * left. split; [constructor; assumption|]. exists enc2, (m :: ms). rewrite G1, <- app_assoc. cbn [app length]. repeat split; [exact G2|lia|constructor; assumption].
      * right. exists ((s, spare) :: pre), s2, sp2, post. split; [reflexivity|]. split; [constructor; assumption|]. split; [exact F2|]. exact G.
    + right. exists [], s, spare, l. split; [reflexivity|]. split; [constructor|]. split; [exact A|]. left. split; [exact B|]. exists p. reflexivity.
    + right. exists [], s, spare, l. split; [reflexivity|]. split; [constructor|]. split; [exact A|]. right. split; [exact B|]. reflexivity.
Qed.

(** outcomes that are neither panics nor divergence *)
Definition calm {A} (o : outcome A) : Prop := (exists a, o = Ret a) \/ (exists e, o = Fail e).

Lemma calm_ret {A} (a : A) : calm (Ret a).
Proof. left. exists a. reflexivity. Qed.
Lemma calm_fail {A} e : calm (@Fail A e).
Proof. right. exists e. reflexivity. Qed.
Lemma calm_bind {A B} (m : outcome A) (k : A -> outcome B) : calm m -> (forall a, m = Ret a -> calm (k a)) -> calm (bind m k).
Proof. intros [(a & ->)|(e & ->)] H; [apply H; reflexivity|apply calm_fail]. Qed.

Lemma calm_reconstruct d total sh : calm (rsReconstructData d total sh).
Proof.
  unfold rsReconstructData. destruct (negb _); [apply calm_fail|]. destruct (rsCheckShards true sh); [apply calm_fail|]. cbv zeta.
  destruct (_ || _); [apply calm_ret|]. destruct (_ <? _); [apply calm_fail|apply calm_ret].
Qed.
Lemma calm_join d sh n : calm (rsJoin d sh n).
Proof. unfold rsJoin. destruct (_ <? _); [apply calm_fail|]. cbv zeta. destruct (_ <? _); [apply calm_fail|apply calm_ret]. Qed.
Lemma calm_decrypt E rd c k : (forall i, 0 < rd i) -> calm (decrypt E rd c k).
Proof. intros H. unfold decrypt. destruct (aesKeyOk k); [rewrite decryptLoop_ok by (assumption || lia); apply calm_ret|apply calm_fail]. Qed.

Lemma krCombineCap_cases E zp rd ss parts threshold : (forall i, 0 < rd i) ->
  (ss = [] /\ krCombineCap E zp rd ss parts threshold = Panic PIndex) \/
  exists s0 r, ss = s0 :: r /\
   let len0 := match s0 with Some (s, _) => length s | None => 0 end in
   ((~ kr_params len0 parts threshold /\ exists e, krCheck len0 parts threshold = Some e /\ krCombineCap E zp rd ss parts threshold = Fail e) \/
    (kr_params len0 parts threshold /\ (parts < 0)%Z /\ krCombineCap E zp rd ss parts threshold = Panic PMakeLen) \/
    (kr_params len0 parts threshold /\ (0 < parts)%Z /\ Forall (fun x => kr_acceptable parts (fst x)) (cleanShares ss) /\ calm (krCombineCap E zp rd ss parts threshold)) \/
    (kr_params len0 parts threshold /\ (0 < parts)%Z /\ exists pre s spare post, cleanShares ss = pre ++ (s, spare) :: post /\
       Forall (fun x => kr_acceptable parts (fst x)) pre /\ ~ kr_acceptable parts s /\
       ((kr_panicking parts s spare /\ exists p, krCombineCap E zp rd ss parts threshold = Panic p) \/
        (~ kr_panicking parts s spare /\ krCombineCap E zp rd ss parts threshold = Fail EWrongPartId)))).
Proof.
  intros Hrd. destruct ss as [|s0 r]; [left; split; reflexivity|right]. exists s0, r. split; [reflexivity|]. cbv zeta.
  unfold krCombineCap. cbn [idx nth_error bind]. set (len0 := match s0 with Some (s, _) => length s | None => 0 end).
  destruct (krCheck len0 parts threshold) as [e|] eqn:C.
  - left. split; [|exists e; split; reflexivity]. intros P. apply krCheck_None in P. congruence.
  - apply krCheck_None in C. right. unfold make_len. destruct (Z.ltb_spec parts 0) as [Hn|Hn].
    + left. split; [exact C|]. split; [exact Hn|]. reflexivity.
    + right. assert (Hp : (0 < parts)%Z) by (destruct C as (_ & _ & X & _); lia). cbn [bind]. unfold splitShares. fold (splitStep parts).
      destruct (splitShares_cases parts ltac:(destruct C; lia) (cleanShares (s0 :: r)) (repeat [] (Z.to_nat parts)) [] (repeat_length _ _))
        as [(F & enc & ms & E1 & E2 & E3 & E4)|(pre & s & spare & post & E1 & F1 & F2 & G)].
      * left. split; [exact C|]. split; [exact Hp|]. split; [exact F|]. rewrite E1. cbn [bind app].
        apply calm_bind.
        { destruct (Combine_cases ms) as [(_ & ->)|[(_ & _ & ->)|X]]; try apply calm_fail.
          destruct (checkParts ms) as [e|] eqn:K; [unfold Combine; rewrite K; apply calm_fail|]. apply checkParts_None in K as (K1 & K2 & K3).
          destruct (ListDec.NoDup_dec byte_eq_dec (map tag ms)) as [ND|ND].
          - rewrite (Combine_accept ms _ K1 K2 K3 ND). apply calm_ret.
          - unfold Combine. replace (checkParts ms) with (@None err) by (symmetry; apply checkParts_None; split; [exact K1|split; assumption]).
            cbv zeta. rewrite collectTags_dup; [apply calm_fail|lia|exact K3|exact ND]. }
        intros md Hmd. assert (Lmd : length md = 20).
        { destruct (checkParts ms) as [e|] eqn:K; [unfold Combine in Hmd; rewrite K in Hmd; discriminate|]. apply checkParts_None in K as (K1 & K2 & K3).
          assert (L0 : length (nth 0 ms []) = 21) by (rewrite Forall_forall in E4; apply E4, nth_In; lia).
          destruct (ListDec.NoDup_dec byte_eq_dec (map tag ms)) as [ND|ND].
          - rewrite (Combine_accept ms _ K1 K2 K3 ND) in Hmd. injection Hmd as <-. rewrite interpAt_length, L0. reflexivity.
          - unfold Combine in Hmd. replace (checkParts ms) with (@None err) in Hmd by (symmetry; apply checkParts_None; split; [exact K1|split; assumption]).
            cbv zeta in Hmd. rewrite collectTags_dup in Hmd; [discriminate|lia|exact K3|exact ND]. }
        change LenKey with 16. rewrite slice_ok by lia. cbn [bind]. rewrite slice_tail by lia. cbn [bind]. rewrite skipn_length, Lmd. change (20 - 16 <? 4) with false. cbv iota zeta.
        destruct (rsNew _ _ _); [apply calm_fail|]. apply calm_bind; [apply calm_reconstruct|]. intros sh _. apply calm_bind; [apply calm_join|]. intros c _. apply calm_decrypt, Hrd.
      * right. split; [exact C|]. split; [exact Hp|]. exists pre, s, spare, post. split; [exact E1|]. split; [exact F1|]. split; [exact F2|].
        destruct G as [(G1 & p & G2)|(G1 & G2)]; rewrite G2; cbn [bind]; [left; split; [exact G1|exists p; reflexivity]|right; split; [exact G1|reflexivity]].
Qed.
