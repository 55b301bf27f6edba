(** Proofs of the properties of krawczyk.Combine on shares from anywhere (C55-C57). *)
From Coq Require Import List NArith ZArith Lia Arith Bool Permutation.
From Coq.Init Require Import Byte.
From Verif Require Import GoSem Bytes Spec GF PolyFacts GoFacts Vector Csprng Pool Shamir Libs AES Krawczyk SplitFacts CombineFacts SpecKr KrawczykFacts KrawczykCombine CountFacts KrawczykContract ExData VectorFacts Pf6.
Import ListNotations.

(*PROPS
From Coq Require Import List NArith ZArith Lia Arith Bool Permutation.
From Coq.Init Require Import Byte.
From Verif Require Import GoSem Bytes Spec SpecKr Vector Csprng Pool Shamir Libs AES Krawczyk ExData Pf12.
Import ListNotations.
*)

Lemma somes_clean (ss : list kshare) : cleanShares ss = somes ss.
Proof. induction ss as [|[x|] ss IH]; cbn; [reflexivity|rewrite IH; reflexivity|exact IH]. Qed.

(** everything after a successful scan *)
Lemma contract_tail E zp rd ss parts threshold : (forall i, 0 < rd i) -> ss <> [] ->
  kr_params (first_length ss) parts threshold -> (0 < parts)%Z ->
  Forall (kr_acceptable parts) (map fst (somes ss)) ->
  (exists out, kr_combined E zp ss parts threshold out /\ krCombineCap E zp rd ss parts threshold = Ret out) \/
  (exists e, kr_combine_error zp ss parts threshold e /\ krCombineCap E zp rd ss parts threshold = Fail e).
Proof.
  intros Hrd Hss K Hp F. pose proof K as (K1 & K2 & K3 & K4 & K5).
  set (shares := map fst (somes ss)) in *.
  assert (F' : Forall (fun x : list byte * list byte => kr_acceptable parts (fst x)) (somes ss)).
  { apply Forall_forall. intros x Hx. rewrite Forall_forall in F. apply F. unfold shares. apply in_map. exact Hx. }
  destruct (scan_ok parts ltac:(lia) (somes ss) (repeat [] (Z.to_nat parts)) [] (repeat_length _ _) F') as (pieces & E1 & E2 & E3). fold shares in E1, E3.
  assert (PA : forall i, i < Z.to_nat parts -> piece_at shares i (nth i pieces [])).
  { intros i Hi. destruct (E3 i Hi) as [X|(X & Y)]; [left; destruct X as (pre & s & post & X); exists pre, s, post; exact X|right; split; [rewrite X; apply nth_repeat_lt; exact Hi|exact Y]]. }
  assert (EQ : krCombineCap E zp rd ss parts threshold =
    (do metadata <- Combine (map kr_meta shares);
     do key <- slice metadata 0 LenKey;
     do lenBytes <- slice metadata LenKey (length metadata);
     if length lenBytes <? 4 then Panic PIndex else
     let length := leNum (firstn 4 lenBytes) in
     match rsNew zp threshold (parts - threshold) with
     | Some e => Fail e
     | None =>
       do encodedData <- rsReconstructData (Z.to_nat threshold) (Z.to_nat parts) pieces;
       do ciphertext <- rsJoin (Z.to_nat threshold) encodedData (N.to_nat length);
       decrypt E rd ciphertext key
     end)).
  { unfold krCombineCap. destruct ss as [|s0 r]; [congruence|]. cbn [idx nth_error bind].
    replace (krCheck _ parts threshold) with (@None err).
    - unfold make_len. destruct (Z.ltb_spec parts 0) as [X|_]; [lia|]. cbn [bind]. unfold splitShares. fold (splitStep parts). rewrite somes_clean, E1. reflexivity.
    - symmetry. apply krCheck_None. destruct s0 as [[? ?]|]; exact K. }
  rewrite EQ. clear EQ.
  assert (Ec : Forall (kr_acceptable parts) shares) by exact F.
  destruct (metadata_combine shares parts F) as [(M1 & ->)|[(M1 & M2 & ->)|(M1 & M2 & md & M3 & ->)]].
  - right. exists ETooFewParts. split; [|reflexivity]. split; [exact Hss|]. cbv zeta. fold shares. do 4 right. split; [exact K|]. split; [exact Hp|].
    right. left. split; [exact F|]. left. split; [reflexivity|exact M1].
  - right. exists EDuplicatePart. split; [|reflexivity]. split; [exact Hss|]. cbv zeta. fold shares. do 4 right. split; [exact K|]. split; [exact Hp|].
    right. left. split; [exact F|]. right. left. split; [reflexivity|]. split; [exact M1|exact M2].
  - cbn [bind]. pose proof M3 as (Lmd & _). change LenKey with 16. rewrite slice_ok by lia. cbn [bind]. rewrite slice_tail by lia. cbn [bind].
    rewrite skipn_length, Lmd. change (20 - 16 <? 4) with false. cbv iota zeta. rewrite le32_value_leNum by (rewrite skipn_length, Lmd; reflexivity).
    rewrite skipn_O. change (16 - 0) with 16.
    destruct (rsNew zp threshold (parts - threshold)) as [e|] eqn:RN.
    + right. exists ERSInvShardNum. assert (X : e = ERSInvShardNum /\ ((threshold < 0)%Z \/ (threshold = parts /\ zp = false))).
      { unfold rsNew in RN. destruct (Z.leb_spec threshold 0); cbn [orb] in RN; [injection RN as <-; split; [reflexivity|left; lia]|].
        destruct (Z.ltb_spec (parts - threshold) 0); [lia|]. cbn [orb] in RN. destruct (Z.eqb_spec (parts - threshold) 0); cbn [andb] in RN.
        - destruct zp; cbn [negb] in RN; [destruct (Z.ltb_spec 256 (threshold + (parts - threshold))); [lia|discriminate]|injection RN as <-; split; [reflexivity|right; split; [lia|reflexivity]]].
        - destruct (Z.ltb_spec 256 (threshold + (parts - threshold))); [lia|discriminate]. }
      destruct X as (-> & X). split; [|reflexivity]. split; [exact Hss|]. cbv zeta. fold shares. do 4 right. split; [exact K|]. split; [exact Hp|].
      right. left. split; [exact F|]. right. right. split; [reflexivity|]. split; [exact M1|]. split; [exact M2|exact X].
    + assert (X : (0 < threshold)%Z /\ (zp = true \/ (threshold < parts)%Z)).
      { unfold rsNew in RN. destruct (Z.leb_spec threshold 0); cbn [orb] in RN; [discriminate|]. split; [lia|].
        destruct (Z.ltb_spec (parts - threshold) 0); [discriminate|]. cbn [orb] in RN. destruct (Z.eqb_spec (parts - threshold) 0); cbn [andb] in RN; [|right; lia].
        destruct zp; cbn [negb] in RN; [left; reflexivity|discriminate]. }
      destruct X as (X1 & X2).
      assert (SC : kr_scanned zp ss parts threshold shares pieces).
      { repeat (split; [first [assumption|reflexivity]|]). exact PA. }
      assert (T : 0 < Z.to_nat threshold <= length pieces) by lia.
      destruct (reconstruct_cases (Z.to_nat threshold) pieces ltac:(lia) ltac:(lia) ltac:(lia)) as [(R1 & R2)|[(R1 & R2)|(len & R0 & R1 & R2 & [(R3 & R4)|(R3 & o & R4 & R5 & R6)])]];
        rewrite E2 in *; rewrite ?R2, ?R4; cbn [bind].
      * right. exists ERSShardNoData. split; [|reflexivity]. split; [exact Hss|]. cbv zeta. fold shares. do 4 right. split; [exact K|]. split; [exact Hp|].
        right. right. exists pieces. split; [exact SC|]. left. split; [reflexivity|exact R1].
      * right. exists ERSShardSize. split; [|reflexivity]. split; [exact Hss|]. cbv zeta. fold shares. do 4 right. split; [exact K|]. split; [exact Hp|].
        right. right. exists pieces. split; [exact SC|]. right. left. split; [reflexivity|exact R1].
      * right. exists ERSTooFewShards. split; [|reflexivity]. split; [exact Hss|]. cbv zeta. fold shares. do 4 right. split; [exact K|]. split; [exact Hp|].
        right. right. exists pieces. split; [exact SC|]. right. right. exists len. split; [exact R0|]. split; [exact R1|]. split; [exact R2|]. left. split; [reflexivity|exact R3].
      * unfold rsJoin. destruct (Nat.ltb_spec (length o) (Z.to_nat threshold)) as [Y|_]; [lia|]. cbv zeta.
        assert (LC : length (concat (firstn (Z.to_nat threshold) o)) = Z.to_nat threshold * len).
        { pose proof R6 as (_ & Q1 & Q2). rewrite (concat_uniform_length _ len); [rewrite Q1; reflexivity|]. intros i Hi. rewrite Q1 in Hi. apply Q2, Hi. }
        rewrite LC. set (size := le32_value (skipn 16 md)).
        destruct (Nat.ltb_spec (Z.to_nat threshold * len) (N.to_nat size)) as [Y|Y]; cbn [bind].
        -- right. exists ERSShortData. split; [|reflexivity]. split; [exact Hss|]. cbv zeta. fold shares. do 4 right. split; [exact K|]. split; [exact Hp|].
           right. right. exists pieces. split; [exact SC|]. right. right. exists len. split; [exact R0|]. split; [exact R1|]. split; [exact R2|]. right. split; [reflexivity|]. split; [exact R3|].
           exists md. split; [exact M3|]. fold size. lia.
        -- left. eexists. split; [|apply decrypt_ok; [exact Hrd|apply aes16; rewrite firstn_length, Lmd; reflexivity]].
           exists shares, pieces, len, (firstn (Z.to_nat threshold) o), md. split; [exact SC|]. split; [exact R0|]. split; [exact R1|]. split; [exact R6|]. split; [exact M3|].
           cbv zeta. fold size. split; [lia|]. apply ofb_cipher_iff. reflexivity.
Qed.

Lemma kr_scanned_unique zp ss parts threshold sh ps sh' ps' :
  kr_scanned zp ss parts threshold sh ps -> kr_scanned zp ss parts threshold sh' ps' -> sh = sh' /\ ps = ps'.
Proof.
  intros (_ & _ & _ & A & _ & _ & _ & _ & _ & L & P) (_ & _ & _ & A' & _ & _ & _ & _ & _ & L' & P').
  split; [congruence|]. subst. eapply pieces_unique; eassumption.
Qed.

Lemma uniform_unique (ps : list (list byte)) l l' p : In p ps -> p <> [] ->
  (forall p, In p ps -> length p = l \/ p = []) -> (forall p, In p ps -> length p = l' \/ p = []) -> l = l'.
Proof. intros I N A B. destruct (A p I), (B p I); congruence. Qed.

Lemma completion_witness t len ps data : 0 < t -> rs_completion t len ps data -> exists p, In p ps /\ p <> [].
Proof.
  intros Ht (P & _). destruct (present ps) as [|i r] eqn:E; [cbn in P; lia|]. assert (I : In i (present ps)) by (rewrite E; left; reflexivity).
  apply present_In in I as (I1 & I2). exists (nth i ps []). split; [apply nth_In; exact I1|exact I2].
Qed.

Lemma combined_unique E zp ss parts threshold out out' :
  kr_combined E zp ss parts threshold out -> kr_combined E zp ss parts threshold out' -> out = out'.
Proof.
  intros (sh & ps & len & data & md & S & L & U & C & M & _ & O) (sh' & ps' & len' & data' & md' & S' & L' & U' & C' & M' & _ & O').
  destruct (kr_scanned_unique _ _ _ _ _ _ _ _ S S') as (<- & <-). pose proof S as (_ & (_ & _ & _ & _ & N5) & _ & _ & _ & _ & ND & T & _ & LP & _).
  destruct (completion_witness (Z.to_nat threshold) _ _ _ ltac:(lia) C) as (p & I & N). pose proof (uniform_unique _ _ _ _ I N U U') as <-.
  pose proof (completion_unique (Z.to_nat threshold) len ps data data' L ltac:(lia) C C') as <-. pose proof (metadata_unique _ _ _ ND M M') as <-.
  apply ofb_cipher_iff in O, O'. congruence.
Qed.

(** mutual exclusion of the specified results *)
Lemma wrong_not_all parts (l : list (list byte * list byte)) pre s sp post :
  l = pre ++ (s, sp) :: post -> ~ kr_acceptable parts s -> ~ Forall (kr_acceptable parts) (map fst l).
Proof. intros -> N F. rewrite map_app in F. apply Forall_app in F as (_ & F). inversion F; subst. cbn in *. contradiction. Qed.

Lemma error_facts zp ss parts threshold e : kr_combine_error zp ss parts threshold e ->
  forall sh ps, kr_scanned zp ss parts threshold sh ps ->
  (e = ERSShardNoData /\ forall p, In p ps -> p = []) \/
  (e = ERSShardSize /\ exists p q, In p ps /\ In q ps /\ p <> [] /\ q <> [] /\ length p <> length q) \/
  (exists len, 0 < len /\ (forall p, In p ps -> length p = len \/ p = []) /\ (exists p, In p ps /\ p <> []) /\
    ((e = ERSTooFewShards /\ length (present ps) < Z.to_nat threshold) \/
     (e = ERSShortData /\ Z.to_nat threshold <= length (present ps) /\
        exists md, kr_metadata sh md /\ (N.of_nat (Z.to_nat threshold * len) < le32_value (skipn 16 md))%N))).
Proof.
  intros (_ & H) sh ps S. pose proof S as (_ & (K1 & K2 & K3 & K4 & K5) & Hp & Esh & F & L2 & ND & T & Z & LP & P). cbv zeta in H. rewrite <- Esh in H.
  destruct H as [H|[H|[H|[H|(_ & _ & [H|[H|H]])]]]].
  - exfalso. lia.
  - exfalso. lia.
  - exfalso. lia.
  - exfalso. lia.
  - exfalso. destruct H as (_ & pre & s & sp & post & A & _ & N & _). rewrite Esh in F. exact (wrong_not_all parts _ _ _ _ _ A N F).
  - exfalso. destruct H as (_ & [(_ & H)|[(_ & _ & H)|(_ & _ & _ & [H|(H & H')])]]); [lia|contradiction|lia|]. destruct Z as [Z|Z]; [congruence|lia].
  - destruct H as (ps' & S' & H). destruct (kr_scanned_unique _ _ _ _ _ _ _ _ S S') as (_ & <-). exact H.
Qed.

Lemma error_not_combined E zp ss parts threshold e out : kr_combine_error zp ss parts threshold e -> kr_combined E zp ss parts threshold out -> False.
Proof.
  intros H (sh & ps & len & data & md & S & L & U & C & M & Sz & O). pose proof S as (_ & _ & _ & _ & _ & _ & ND & T & _).
  destruct (completion_witness (Z.to_nat threshold) _ _ _ ltac:(lia) C) as (p & I & N). pose proof C as (CP & _).
  destruct (error_facts _ _ _ _ _ H _ _ S) as [(_ & X)|[(_ & p1 & q & I1 & I2 & N1 & N2 & X)|(len' & L' & U' & _ & [(_ & X)|(_ & _ & md' & M' & X)])]].
  - apply N, X, I.
  - destruct (U p1 I1), (U q I2); congruence.
  - lia.
  - pose proof (metadata_unique _ _ _ ND M M') as <-. pose proof (uniform_unique _ _ _ _ I N U U') as <-. cbv zeta in Sz. lia.
Qed.

Lemma split_unique parts (l : list (list byte * list byte)) : forall pre s sp post pre' s' sp' post',
  l = pre ++ (s, sp) :: post -> l = pre' ++ (s', sp') :: post' ->
  Forall (fun x => kr_acceptable parts (fst x)) pre -> ~ kr_acceptable parts s ->
  Forall (fun x => kr_acceptable parts (fst x)) pre' -> ~ kr_acceptable parts s' -> (s, sp) = (s', sp').
Proof.
  induction l as [|x l IH]; intros pre s sp post pre' s' sp' post' A B F N F' N'; [destruct pre; discriminate|].
  destruct pre as [|y pre], pre' as [|y' pre']; cbn in A, B; injection A as A1 A2; injection B as B1 B2; subst.
  - reflexivity || congruence.
  - inversion F'; subst. cbn in *. contradiction.
  - inversion F; subst. cbn in *. contradiction.
  - inversion F; inversion F'; subst. eapply IH; eassumption || reflexivity.
Qed.

Lemma error_unique zp ss parts threshold e e' : kr_combine_error zp ss parts threshold e -> kr_combine_error zp ss parts threshold e' -> e = e'.
Proof.
  intros H H'.
  assert (Late : forall e, kr_combine_error zp ss parts threshold e -> (exists ps, kr_scanned zp ss parts threshold (map fst (somes ss)) ps) \/
     (e = ESecretTooLarge /\ (4294967295 < Z.of_nat (first_length ss))%Z) \/
     (e = EZeroParam /\ (Z.of_nat (first_length ss) <= 4294967295)%Z /\ (threshold = 0 \/ parts = 0)%Z) \/
     (e = EThresholdGtParts /\ (Z.of_nat (first_length ss) <= 4294967295 /\ threshold <> 0 /\ parts <> 0 /\ parts < threshold)%Z) \/
     (e = EParamsTooBig /\ (Z.of_nat (first_length ss) <= 4294967295 /\ threshold <> 0 /\ parts <> 0 /\ threshold <= parts /\ 255 < parts)%Z) \/
     (kr_params (first_length ss) parts threshold /\
      ((e = EWrongPartId /\ ~ Forall (kr_acceptable parts) (map fst (somes ss))) \/
       (Forall (kr_acceptable parts) (map fst (somes ss)) /\
        ((e = ETooFewParts /\ length (map fst (somes ss)) < 2) \/
         (e = EDuplicatePart /\ 2 <= length (map fst (somes ss)) /\ ~ NoDup (map (fun s => tag (kr_meta s)) (map fst (somes ss)))) \/
         (e = ERSInvShardNum /\ 2 <= length (map fst (somes ss)) /\ NoDup (map (fun s => tag (kr_meta s)) (map fst (somes ss))) /\
            ((threshold < 0)%Z \/ (threshold = parts /\ zp = false)))))))).
  { clear. intros e (_ & H). cbv zeta in H. destruct H as [H|[H|[H|[H|(K & Hp & [H|[H|H]])]]]].
    - right. left. exact H.
    - right. right. left. exact H.
    - do 3 right. left. exact H.
    - do 4 right. left. exact H.
    - do 5 right. split; [exact K|]. left. destruct H as (-> & pre & s & sp & post & A & F & N & _). split; [reflexivity|]. exact (wrong_not_all parts _ _ _ _ _ A N).
    - do 5 right. split; [exact K|]. right. exact H.
    - left. destruct H as (ps & S & _). exists ps. exact S. }
  assert (Sc : forall ps, kr_scanned zp ss parts threshold (map fst (somes ss)) ps -> e = e').
  { intros ps S. pose proof S as (_ & _ & _ & _ & _ & _ & ND & T & _).
    destruct (error_facts _ _ _ _ _ H _ _ S) as [(-> & X)|[(-> & p1 & q & I1 & I2 & N1 & N2 & X)|(len & L & U & (p & I & N) & X)]];
    destruct (error_facts _ _ _ _ _ H' _ _ S) as [(-> & X')|[(-> & p1' & q' & I1' & I2' & N1' & N2' & X')|(len' & L' & U' & (p' & I' & N') & X')]]; try reflexivity; try (exfalso; first [apply N1', X, I1'|apply N', X, I'|apply N1, X', I1|destruct (U' p1 I1), (U' q I2); congruence|apply N, X', I|destruct (U p1' I1'), (U q' I2'); congruence]; fail).
    pose proof (uniform_unique _ _ _ _ I N U U') as <-.
      destruct X as [(-> & X)|(-> & X & Y)]; destruct X' as [(-> & X')|(-> & X' & Y')]; try reflexivity; exfalso; lia. }
  destruct (Late e H) as [(ps & S)|A]; [exact (Sc ps S)|]. destruct (Late e' H') as [(ps & S)|A']; [exact (Sc ps S)|].
  clear - A A'. unfold kr_params in *.
  destruct A as [A|[A|[A|[A|(K & [A|A])]]]]; destruct A' as [A'|[A'|[A'|[A'|(K' & [A'|A'])]]]];
    try (destruct A as (-> & A)); try (destruct A' as (-> & A')); try reflexivity; try (exfalso; lia); try (exfalso; tauto).
  destruct A as (_ & [A|[A|A]]); destruct A' as (_ & [A'|[A'|A']]); destruct A as (-> & A); destruct A' as (-> & A'); try reflexivity; exfalso; try lia; tauto.
Qed.

(** C55: krawczyk.Combine on any list of shares (nil, too short, of any contents, with any spare capacity) and any parameters: exactly
    which value it returns, and exactly which error. When it panics is C36. *)
Lemma C55_contract_pf : forall E zp rd ss parts threshold, (forall i, 0 < rd i) ->
  let call := krCombineCap E zp rd ss parts threshold in
  (forall out, call = Ret out <-> kr_combined E zp ss parts threshold out) /\
  (forall e, call = Fail e <-> kr_combine_error zp ss parts threshold e).
Proof.
  intros E zp rd ss parts threshold Hrd call.
  assert (W : (exists out, kr_combined E zp ss parts threshold out /\ call = Ret out) \/
    (exists e, kr_combine_error zp ss parts threshold e /\ call = Fail e) \/
    ((exists p, call = Panic p) /\ (forall out, ~ kr_combined E zp ss parts threshold out) /\ forall e, ~ kr_combine_error zp ss parts threshold e)).
  { destruct (krCombineCap_cases E zp rd ss parts threshold Hrd) as [(-> & X)|(s0 & r & Ess & H)].
    - right. right. split; [exists PIndex; exact X|]. split; [intros out (? & ? & ? & ? & ? & (N & _) & _); apply N; reflexivity|intros e (N & _); apply N; reflexivity].
    - cbv zeta in H. fold call in H. assert (Hss : ss <> []) by (rewrite Ess; discriminate).
      assert (EL : match s0 with Some (s, _) => length s | None => 0 end = first_length ss) by (rewrite Ess; destruct s0 as [[? ?]|]; reflexivity).
      rewrite EL, somes_clean in H.
      destruct H as [(N & e & C & X)|[(K & Hn & X)|[(K & Hn & F & X)|(K & Hn & pre & s & sp & post & A & F & N & [(Q & p & X)|(Q & X)])]]].
      + right. left. exists e. split; [|exact X]. split; [exact Hss|]. cbv zeta. unfold krCheck in C.
        destruct (Z.ltb_spec 4294967295 (Z.of_nat (first_length ss))); [injection C as <-; left; split; [reflexivity|assumption]|right].
        destruct (Z.eqb_spec threshold 0), (Z.eqb_spec parts 0); cbn [orb] in C; try (injection C as <-; left; repeat split; [assumption|lia]).
        right. destruct (Z.ltb_spec parts threshold); [injection C as <-; left; repeat split; assumption|right].
        destruct (Z.ltb_spec 255 threshold), (Z.ltb_spec 255 parts); cbn [orb] in C; try discriminate; try lia; injection C as <-; left; repeat split; assumption || lia.
      + right. right. split; [eexists; exact X|]. split; [intros out (? & ? & ? & ? & ? & (_ & _ & Y & _) & _); lia|].
        intros e (_ & Y). cbv zeta in Y. destruct K as (K1 & K2 & K3 & K4 & K5). destruct Y as [Y|[Y|[Y|[Y|(_ & Y & _)]]]]; lia.
      + assert (F' : Forall (kr_acceptable parts) (map fst (somes ss))).
        { apply Forall_forall. intros x Hx. apply in_map_iff in Hx as (y & <- & Hy). rewrite Forall_forall in F. apply F, Hy. }
        destruct (contract_tail E zp rd ss parts threshold Hrd Hss K Hn F') as [Y|Y]; [left; exact Y|right; left; exact Y].
      + right. right. split; [eexists; exact X|]. pose proof (wrong_not_all parts _ _ _ _ _ A N) as NF. split.
        * intros out (sh & ? & ? & ? & ? & (_ & _ & _ & -> & Y & _) & _). contradiction.
        * intros e (_ & Y). cbv zeta in Y. destruct K as (K1 & K2 & K3 & K4 & K5). destruct Y as [Y|[Y|[Y|[Y|(_ & _ & [Y|[Y|Y]])]]]]; try lia.
          -- destruct Y as (_ & pre' & s' & sp' & post' & A' & F' & N' & Q'). pose proof (split_unique parts _ _ _ _ _ _ _ _ _ A A' F N F' N') as U.
             injection U as -> ->. contradiction.
          -- destruct Y as (Y & _). contradiction.
          -- destruct Y as (ps & (_ & _ & _ & _ & Y & _) & _). contradiction.
      + right. left. exists EWrongPartId. split; [|exact X]. split; [exact Hss|]. cbv zeta. do 4 right. split; [exact K|]. split; [exact Hn|]. left.
        split; [reflexivity|]. exists pre, s, sp, post. split; [exact A|]. split; [exact F|]. split; [exact N|exact Q]. }
  destruct W as [(out & C & X)|[(e & C & X)|((p & X) & N1 & N2)]].
  - split.
    + intros out'. split; [intros Y; rewrite X in Y; injection Y as <-; exact C|intros C'; rewrite X; f_equal; exact (combined_unique _ _ _ _ _ _ _ C C')].
    + intros e. split; [intros Y; rewrite X in Y; discriminate|intros C'; exfalso; exact (error_not_combined _ _ _ _ _ _ _ C' C)].
  - split.
    + intros out'. split; [intros Y; rewrite X in Y; discriminate|intros C'; exfalso; exact (error_not_combined _ _ _ _ _ _ _ C C')].
    + intros e'. split; [intros Y; rewrite X in Y; injection Y as <-; exact C|intros C'; rewrite X; f_equal; exact (error_unique _ _ _ _ _ _ C C')].
  - split.
    + intros out'. split; [intros Y; rewrite X in Y; discriminate|intros C'; exfalso; exact (N1 _ C')].
    + intros e'. split; [intros Y; rewrite X in Y; discriminate|intros C'; exfalso; exact (N2 _ C')].
Qed.

(*COPY
Definition ex_long : list byte := map (fun i => i2b (3 * i + 1)) (seq 0 41).

Example C55_cases : let s := fun i => repeat (i2b (i + 1)) 21 ++ [i2b i; i2b i] in
  krCombineCap AES true (fun _ => 512) [Some (s 0, []); None; Some (s 1, [])] 3 2 = Ret [] /\
  krCombineCap AES true (fun _ => 512) [Some (s 0, []); Some (s 0, [])] 3 2 = Fail EDuplicatePart /\
  krCombineCap AES true (fun _ => 512) [Some (s 0, []); Some (s 1 ++ [x01], [])] 3 2 = Fail ERSShardSize /\
  krCombineCap AES true (fun _ => 512) [Some (s 0, []); Some (s 1, [])] (-1) (-2) = Panic PMakeLen /\
  krCombineCap AES true (fun _ => 512) [Some (s 0, []); Some (s 1, [])] 3 3 = Fail ERSTooFewShards /\
  krCombineCap AES true (fun _ => 512) [Some (firstn 21 (s 0) ++ [x00], []); Some (firstn 21 (s 1) ++ [x01], [])] 3 2 = Fail ERSShardNoData /\
  krCombineCap AES true (fun _ => 512) [Some (repeat x01 20 ++ [x01; x41; x00], []); Some (repeat x01 20 ++ [x02; x42; x01], [])] 3 2 = Fail ERSShortData.
Proof. repeat split; vm_compute; reflexivity. Qed.
END*)

(** ** shares that keep the metadata and the index of an original share, but carry other pieces *)
Lemma somes_map {A B} (f : A -> B) l : somes (map (option_map f) l) = map f (somes l).
Proof. induction l as [|[a|] l IH]; cbn; [reflexivity|rewrite IH; reflexivity|exact IH]. Qed.

Section edited.
Context (E : blockCipher) (zp : bool) (secret key : list byte) (n t : nat) (shares : list (list byte))
  (Hkey : length key = 16) (H256 : n <= 256) (SH : kr_shape E secret key n t shares)
  (ss : list (option (list byte))) (is : list nat) (pc : nat -> list byte) (len : nat)
  (ND : NoDup is) (Hi : forall i, In i is -> i < n) (Lpc : forall i, In i is -> length (pc i) = len) (Hlen : 0 < len)
  (Ess : somes ss = map (fun i => kr_meta (nth i shares []) ++ pc i ++ [i2b i]) is).

Let g i := kr_meta (nth i shares []) ++ pc i ++ [i2b i].

Lemma edited_meta_length i : i < n -> length (kr_meta (nth i shares [])) = 21.
Proof. intros H. destruct SH as (_ & A & _). destruct (A i H) as (L & _). unfold kr_meta. rewrite firstn_length. lia. Qed.

Lemma edited_meta i : i < n -> kr_meta (g i) = kr_meta (nth i shares []).
Proof. intros H. unfold g, kr_meta at 1. rewrite firstn_app, edited_meta_length by exact H. rewrite Nat.sub_diag, firstn_O, app_nil_r. apply firstn_all2. rewrite edited_meta_length; [lia|exact H]. Qed.

Lemma edited_piece i : i < n -> kr_piece (g i) = pc i.
Proof.
  intros H. unfold g, kr_piece. rewrite skipn_app, edited_meta_length by exact H. rewrite Nat.sub_diag, skipn_O, skipn_all2 by (rewrite edited_meta_length; [lia|exact H]).
  cbn [app]. apply removelast_last.
Qed.

Lemma edited_tag i : tag (g i) = i2b i.
Proof. unfold g, tag. rewrite app_assoc. apply last_last. Qed.

Definition edited_pieces (n' : nat) := map (fun i => if in_dec Nat.eq_dec i is then pc i else []) (seq 0 n').

Lemma edited_piece_at i : i < 256 -> piece_at (map g is) i (if in_dec Nat.eq_dec i is then pc i else []).
Proof.
  intros H. destruct (in_dec Nat.eq_dec i is) as [I|I].
  - left. apply in_split in I as (l1 & l2 & E1). exists (map g l1), (g i), (map g l2). split; [rewrite E1, map_app; reflexivity|]. split; [apply edited_tag|].
    split; [symmetry; apply edited_piece, Hi; rewrite E1; apply in_or_app; right; left; reflexivity|]. intros s Hs. apply in_map_iff in Hs as (j & <- & Hj).
    rewrite edited_tag. intros X. apply i2b_inj in X; [|apply Nat.lt_le_trans with n; [apply Hi; rewrite E1; apply in_or_app; right; right; exact Hj|exact H256]|exact H]. subst j.
    rewrite E1 in ND. apply NoDup_remove_2 in ND. apply ND, in_or_app. right. exact Hj.
  - right. split; [reflexivity|]. intros s Hs. apply in_map_iff in Hs as (j & <- & Hj). rewrite edited_tag. intros X.
    apply i2b_inj in X; [subst; contradiction|apply Nat.lt_le_trans with n; [apply Hi, Hj|exact H256]|exact H].
Qed.

Lemma edited_tags : NoDup (map (fun s => tag (kr_meta s)) (map g is)).
Proof.
  pose proof SH as (Ls & _ & (polys & (_ & _ & N & _)) & _). rewrite map_map.
  replace (map (fun i => tag (kr_meta (g i))) is) with (pick x00 (map (fun s => tag (kr_meta s)) shares) is).
  - apply pick_NoDup; [exact N|exact ND|intros i I; rewrite map_length, Ls; apply Hi, I].
  - unfold pick. apply map_ext_in. intros i I. rewrite edited_meta by (apply Hi, I).
    apply (nth_map' (fun s => tag (kr_meta s))). rewrite Ls. apply Hi, I.
Qed.

Lemma edited_metadata : t <= length is -> kr_metadata (map g is) (key ++ le32 (N.of_nat (length secret))).
Proof.
  intros Ht. pose proof SH as (Ls & _ & (polys & (S1 & S2 & _ & S4)) & _).
  assert (Lp : length polys = 20) by (rewrite <- (map_length (fun p => nth 0 p x00) polys), S1, app_length, Hkey; reflexivity).
  split; [rewrite app_length, Hkey; reflexivity|]. intros j Hj. set (f := nth j polys []).
  assert (Lf : length f = t) by (rewrite Forall_forall in S2; apply S2, nth_In; lia).
  exists (f ++ repeat x00 (length is - t)). rewrite map_length. split; [rewrite app_length, repeat_length; lia|]. split.
  - intros s Hs. apply in_map_iff in Hs as (i & <- & I). specialize (Hi i I). rewrite edited_meta by exact Hi. rewrite peval_heval, heval_app_zeros.
    assert (Em : kr_meta (nth i shares []) = share_at polys (tag (kr_meta (nth i shares [])))).
    { rewrite <- (nth_map' kr_meta shares i [] []) at 1 by lia. rewrite S4. rewrite (nth_map' (share_at polys) _ i [] x00) by (rewrite map_length; lia).
      rewrite (nth_map' (fun s => tag (kr_meta s)) shares i x00 []) by lia. reflexivity. }
    transitivity (nth j (kr_meta (nth i shares [])) x00).
    + rewrite Em at 2. rewrite nth_share_at by lia. reflexivity.
    + unfold g. rewrite app_nth1 by (rewrite edited_meta_length; [lia|exact Hi]). reflexivity.
  - rewrite peval_heval, heval_app_zeros, heval_0. rewrite <- S1. apply (nth_map' (fun p => nth 0 p x00)). lia.
Qed.

Lemma edited_present n' : (forall i, In i is -> i < n') -> Permutation (present (edited_pieces n')) is.
Proof.
  intros H. apply NoDup_Permutation; [apply present_NoDup|exact ND|]. intros i. rewrite present_In. unfold edited_pieces. rewrite map_length, seq_length. split.
  - intros (A & B). rewrite nth_map_seq in B by exact A. destruct (in_dec Nat.eq_dec i is); [assumption|congruence].
  - intros I. split; [apply H, I|]. rewrite nth_map_seq by (apply H, I). destruct (in_dec Nat.eq_dec i is); [|contradiction].
    intros X. specialize (Lpc i I). rewrite X in Lpc. cbn in Lpc. lia.
Qed.

Lemma edited_scanned parts threshold : (2 <= threshold)%Z -> (threshold <= parts <= 255)%Z -> (zp = true \/ (threshold < parts)%Z) ->
  2 <= length is -> (forall i, In i is -> i < Z.to_nat parts) -> (Z.of_nat (len + 22) <= 4294967295)%Z ->
  kr_scanned zp (map (option_map (fun s => (s, []))) ss) parts threshold (map g is) (edited_pieces (Z.to_nat parts)).
Proof.
  intros H2 H3 Hz L2 Hn Hmax.
  assert (Esh : map g is = map fst (somes (map (option_map (fun s : list byte => (s, @nil byte))) ss))).
  { rewrite somes_map, map_map. cbn [fst]. rewrite map_id. symmetry. exact Ess. }
  assert (Lg : forall i, In i is -> length (g i) = len + 22).
  { intros i I. unfold g. rewrite !app_length, edited_meta_length, Lpc by auto. cbn [length]. lia. }
  split; [destruct ss; [destruct is; cbn in *; [lia|discriminate]|discriminate]|]. split; [|split; [lia|split; [exact Esh|]]].
  - assert (Lb : first_length (map (option_map (fun s => (s, []))) ss) <= len + 22).
    { destruct ss as [|[s|] r]; cbn [map option_map first_length]; [lia| |lia]. destruct is as [|i is']; [cbn in L2; lia|]. cbn [somes map] in Ess. injection Ess as Es _.
      rewrite Es. fold (g i). rewrite Lg by (left; reflexivity). lia. }
    unfold kr_params. lia.
  - split; [|split; [rewrite map_length; exact L2|split; [exact edited_tags|split; [lia|split; [exact Hz|split; [unfold edited_pieces; rewrite map_length, seq_length; reflexivity|]]]]]].
    + apply Forall_forall. intros s Hs. apply in_map_iff in Hs as (i & <- & I). split; [rewrite Lg by exact I; lia|].
      rewrite edited_tag, b2z_b2i. specialize (Hn i I). rewrite b2i_i2b by lia. lia.
    + intros i I. unfold edited_pieces. rewrite nth_map_seq by exact I. apply edited_piece_at. lia.
Qed.

Lemma edited_uniform n' p : In p (edited_pieces n') -> length p = len \/ p = [].
Proof.
  intros H. apply in_map_iff in H as (i & <- & _). destruct (in_dec Nat.eq_dec i is) as [I|I]; [left; apply Lpc, I|right; reflexivity].
Qed.
End edited.

Lemma le32_value_le32 L : (Z.of_nat L <= 4294967295)%Z -> le32_value (le32 (N.of_nat L)) = N.of_nat L.
Proof.
  intros H. rewrite <- le32_leBytes by exact H. rewrite <- le32_value_leNum by apply leBytes_length.
  change LenLen with 4. rewrite firstn_all2 by (rewrite leBytes_length; lia). rewrite leNum_leBytes. change (256 ^ N.of_nat 4)%N with 4294967296%N.
  rewrite N.mod_mod by discriminate. apply N.mod_small. lia.
Qed.

Lemma ceil_div_bounds a t : 0 < t -> a <= t * ceil_div a t < a + t.
Proof. apply rsPerShard_bounds. Qed.

Lemma xorStream_xor ks a : forall off d, length d = length a -> xorStreamFrom ks off (xor_bytes a d) = xor_bytes (xorStreamFrom ks off a) d.
Proof.
  induction a as [|x a IH]; intros off [|y d] L; cbn [length] in L; try discriminate; [reflexivity|]. cbn [xor_bytes xorStreamFrom]. f_equal; [|apply IH; congruence].
  change bxor with gadd. ring.
Qed.

Lemma xor_concat (a b : nat -> list byte) : forall l, (forall i, In i l -> length (a i) = length (b i)) ->
  concat (map (fun i => xor_bytes (a i) (b i)) l) = xor_bytes (concat (map a l)) (concat (map b l)).
Proof.
  induction l as [|i l IH]; intros H; [reflexivity|]. cbn [map concat]. rewrite xor_bytes_app by (apply H; left; reflexivity).
  f_equal. apply IH. intros j Hj. apply H. right. exact Hj.
Qed.

Lemma firstn_ext_map {A} (l : list A) d t : t <= length l -> firstn t l = map (fun i => nth i l d) (seq 0 t).
Proof.
  intros H. apply nth_ext with d d; [rewrite firstn_length, map_length, seq_length; lia|]. intros i Hi. rewrite firstn_length in Hi.
  rewrite nth_firstn, nth_map_seq by lia. reflexivity.
Qed.

Lemma seq_incl_length t (is : list nat) : (forall i, i < t -> In i is) -> t <= length is.
Proof. intros H. rewrite <- (seq_length t 0). apply NoDup_incl_length; [apply seq_NoDup|]. intros i I. apply in_seq in I. apply H. lia. Qed.

Lemma tamper_core E zp rd secret key parts threshold shares ss is (d : nat -> list byte) :
  (forall i, 0 < rd i) -> kr_valid_args zp secret parts threshold -> length key = 16 ->
  kr_shape E secret key (Z.to_nat parts) (Z.to_nat threshold) shares ->
  NoDup is -> (forall i, In i is -> i < Z.to_nat parts) -> (forall i, i < Z.to_nat threshold -> In i is) ->
  (forall i, In i is -> length (d i) = ceil_div (length secret) (Z.to_nat threshold)) ->
  somes ss = map (fun i => xor_piece (nth i shares []) (d i)) is ->
  krCombine E zp rd ss parts threshold = Ret (xor_bytes secret (firstn (length secret) (concat (map d (seq 0 (Z.to_nat threshold)))))).
Proof.
  intros Hrd V Hk SH ND Hi Hall Ld Ess. pose proof V as (Hs & HL & H2 & H3 & H4 & Hz). set (t := Z.to_nat threshold) in *. set (n := Z.to_nat parts) in *.
  pose proof SH as (Ls & A & _ & (B & _) & c & EC & EP). set (len := ceil_div (length secret) t) in *. pose proof EC as (Lc & _).
  assert (Pos : 0 < length secret) by (destruct secret; [congruence|cbn; lia]).
  pose proof (ceil_div_bounds (length secret) t ltac:(unfold t; lia)) as CB. fold len in CB.
  assert (Hlen : 0 < len) by nia. assert (Ht : 2 <= t) by (unfold t; lia).
  set (pc := fun i => xor_bytes (kr_piece (nth i shares [])) (d i)).
  assert (Lpc : forall i, In i is -> length (pc i) = len).
  { intros i I. unfold pc. rewrite xor_bytes_length; [apply B, Hi, I|]. rewrite B by (apply Hi, I). symmetry. apply Ld, I. }
  assert (Ess' : somes ss = map (fun i => kr_meta (nth i shares []) ++ pc i ++ [i2b i]) is).
  { rewrite Ess. apply map_ext_in. intros i I. unfold xor_piece. destruct (A i (Hi i I)) as (_ & ->). reflexivity. }
  pose proof (seq_incl_length t is Hall) as Lis. assert (H256 : n <= 256) by (unfold n; lia).
  apply (C55_contract_pf E zp rd _ parts threshold Hrd).
  exists (map (fun i => kr_meta (nth i shares []) ++ pc i ++ [i2b i]) is), (edited_pieces is pc n), len, (map pc (seq 0 t)), (key ++ le32 (N.of_nat (length secret))).
  split; [eapply edited_scanned; try eassumption; try lia; nia|]. split; [exact Hlen|].
  split; [intros p Hp; eapply edited_uniform; eassumption|]. split; [|split; [eapply edited_metadata; eassumption|]].
  - split; [rewrite (Permutation_length (edited_present key n Hk H256 is pc len ND Lpc Hlen n Hi)); exact Lis|]. split; [rewrite map_length, seq_length; reflexivity|].
    intros i I. rewrite nth_map_seq by exact I. assert (Ei : nth i (edited_pieces is pc n) [] = pc i).
    { unfold edited_pieces. rewrite nth_map_seq by (apply Hi, Hall, I). destruct (in_dec Nat.eq_dec i is) as [_|X]; [reflexivity|exfalso; exact (X (Hall i I))]. }
    fold t n. rewrite Ei. split; [apply Lpc, Hall, I|]. split; [reflexivity|]. intros X. specialize (Lpc i (Hall i I)). rewrite X in Lpc. cbn in Lpc. lia.
  - cbv zeta. rewrite skipn_app, Hk, Nat.sub_diag, skipn_O, skipn_all2 by lia. cbn [app]. rewrite le32_value_le32 by exact HL.
    split; [fold t; lia|]. rewrite Nat2N.id. rewrite firstn_app, Hk, Nat.sub_diag, firstn_O, app_nil_r, firstn_all2 by lia.
    apply ofb_cipher_iff. fold t. unfold pc. rewrite xor_concat.
    2:{ intros i I. apply in_seq in I. rewrite B, Ld by (try apply Hi; apply Hall; lia). reflexivity. }
    rewrite <- (map_map (fun i => nth i shares []) kr_piece), <- (firstn_ext_map shares [] t) by (rewrite Ls; unfold t, n; lia). rewrite EP.
    rewrite <- xor_bytes_firstn. rewrite firstn_app, Lc, Nat.sub_diag, firstn_O, app_nil_r, (firstn_all2 c) by lia.
    apply ofb_cipher_iff in EC. subst c.
    rewrite xorStream_xor, xorStream_twice; [reflexivity|].
    rewrite xorStreamFrom_length, firstn_length. rewrite (concat_uniform_length _ len); [rewrite map_length, seq_length; fold t; lia|].
    rewrite map_length, seq_length. intros i I. rewrite nth_map_seq by exact I. apply Ld, Hall, I.
Qed.

(** C56: the pieces are not authenticated. Whoever XORs a string into the pieces of the first [threshold] shares of krawczyk.Split XORs the
    same string into the secret, whatever is done to the pieces of the other shares: krawczyk.Combine reports no error. *)
Lemma C56_tamper_split_pf : forall E zp rd ar growcap krand perm stream polB trB evBufs secret parts threshold shares ss is (d : nat -> list byte),
  (forall i, 0 < rd i) -> grow_ok growcap -> Permutation perm (seq 0 255) ->
  krSplit E zp ar growcap krand perm stream polB trB evBufs secret parts threshold = Ret shares ->
  let n := Z.to_nat parts in let t := Z.to_nat threshold in
  NoDup is -> (forall i, In i is -> i < n) -> (forall i, i < t -> In i is) ->
  (forall i, In i is -> length (d i) = ceil_div (length secret) t) ->
  somes ss = map (fun i => xor_piece (nth i shares []) (d i)) is ->
  krCombine E zp rd ss parts threshold = Ret (xor_bytes secret (firstn (length secret) (concat (map d (seq 0 t))))).
Proof.
  intros E zp rd ar growcap krand perm stream polB trB evBufs secret parts threshold shares ss is d Hrd G P R n t.
  assert (V : kr_valid_args zp secret parts threshold) by (apply (C34_contract_pf E zp ar growcap krand perm stream polB trB evBufs secret parts threshold G P); exists shares; exact R).
  apply (tamper_core E zp rd secret (map krand (seq 0 16))); [exact Hrd|exact V|rewrite map_length; apply seq_length|].
  exact (C33_shape_pf E zp ar growcap krand perm stream polB trB evBufs secret parts threshold shares G P R).
Qed.

Lemma C56_tamper_randomizer_pf : forall fuel E zp rd ar growcap ks polB trB evBufs secret parts threshold shares ss is (d : nat -> list byte),
  (forall i, 0 < rd i) -> grow_ok growcap ->
  krSplitWithRandomizer fuel E zp ar growcap ks polB trB evBufs secret parts threshold = Ret shares ->
  let n := Z.to_nat parts in let t := Z.to_nat threshold in
  NoDup is -> (forall i, In i is -> i < n) -> (forall i, i < t -> In i is) ->
  (forall i, In i is -> length (d i) = ceil_div (length secret) t) ->
  somes ss = map (fun i => xor_piece (nth i shares []) (d i)) is ->
  krCombine E zp rd ss parts threshold = Ret (xor_bytes secret (firstn (length secret) (concat (map d (seq 0 t))))).
Proof.
  intros fuel E zp rd ar growcap ks polB trB evBufs secret parts threshold shares ss is d Hrd G R n t.
  destruct (krSWR_inv _ _ _ _ _ _ _ _ _ _ _ _ _ G R) as (V & _).
  apply (tamper_core E zp rd secret (map ks (seq 0 16))); [exact Hrd|exact V|rewrite map_length; apply seq_length|].
  exact (C40_shape_pf fuel E zp ar growcap ks polB trB evBufs secret parts threshold shares G R).
Qed.

(*COPY
Example C56_run : let delta := fun i => match i with 0 => x01 :: repeat x00 13 | 1 => repeat x00 13 ++ [x80] | _ => repeat xff 14 end in
  match krSplit AES true ex_ar growcap117 (fun i => i2b (5 * i + 9)) ex_perm ex_stream ex_stale ex_stale ex_ev ex_long 5 3 with
  | Ret sh => krCombine AES true (fun _ => 512) (None :: map (fun i => Some (xor_piece (nth i sh []) (delta i))) [2; 4; 0; 1]) 5 3 =
              Ret (xor_bytes ex_long (x01 :: repeat x00 26 ++ [x80] ++ repeat xff 13))
  | _ => False end.
Proof. vm_compute. reflexivity. Qed.
END*)

(** ** targeted tampering with a shamir share *)
(** C57: one participant who knows the tags that take part in shamir.Combine (and nothing else) can XOR any chosen string into the
    recovered secret, undetected: a nonzero multiplier computed from the tags tells him what to XOR into his own share. *)
Lemma C57_targeted_pf : forall tags i, NoDup tags -> ~ In x00 tags -> i < length tags ->
  exists m, m <> x00 /\ forall parts r delta, map tag parts = tags -> Combine parts = Ret r -> length delta = length r ->
    Combine (replace parts i (xor_bytes (data (nth i parts [])) (map (gmul m) delta) ++ [tag (nth i parts [])])) = Ret (xor_bytes r delta).
Proof.
  intros tags i ND N0 Hi. set (b := basis tags i x00). assert (Hb : b <> x00) by (apply basis_neq_0; assumption).
  exists (gdiv x01 b). assert (Hinv : gmul (gdiv x01 b) b = x01) by (apply gdiv_mul; exact Hb).
  split; [intros X; rewrite X in Hinv; cbn in Hinv; discriminate|].
  intros parts r delta Et Hc Ldel. apply Combine_inv in Hc as (L & A1 & A2 & A3 & A4 & -> & _). rewrite interpAt_length in Ldel.
  assert (Lt : length tags = length parts) by (rewrite <- Et; apply map_length). rewrite replace_set_nth. set (p := nth i parts []) in *.
  assert (Lp : length p = L) by (apply A3, nth_In; lia).
  set (p' := xor_bytes (data p) (map (gmul (gdiv x01 b)) delta) ++ [tag p]).
  assert (Ld : length (data p) = L - 1) by (rewrite data_length; lia).
  assert (Lx : length (xor_bytes (data p) (map (gmul (gdiv x01 b)) delta)) = L - 1) by (rewrite xor_bytes_length; [lia|rewrite map_length; lia]).
  assert (Lp' : length p' = L) by (unfold p'; rewrite app_length, Lx; cbn [length]; lia).
  assert (Et' : map tag (set_nth parts i p') = tags).
  { rewrite map_set_nth. replace (tag p') with (nth i (map tag parts) x00); [rewrite set_nth_same; [exact Et|rewrite map_length; lia]|].
    unfold p', tag at 2. rewrite last_last. apply (nth_map' tag). lia. }
  rewrite (Combine_accept _ L).
  - f_equal. apply nth_ext with x00 x00; [rewrite xor_bytes_length, !interpAt_length; rewrite ?interpAt_length; lia|]. intros j Hj. rewrite interpAt_length in Hj.
    rewrite nth_xor_bytes by (rewrite ?interpAt_length; lia). rewrite !nth_interpAt by exact Hj. rewrite Et', Et.
    replace (ycol (set_nth parts i p') j) with (set_nth (ycol parts j) i (nth j p' x00)) by (unfold ycol; rewrite map_set_nth; reflexivity).
    rewrite lagrange_change by (unfold ycol; rewrite ?map_length; lia). fold b. f_equal.
    unfold ycol. rewrite (nth_map' (fun p => nth j p x00) parts i x00 []) by lia. fold p.
    assert (Ej : nth j p' x00 = gadd (nth j p x00) (gmul (gdiv x01 b) (nth j delta x00))).
    { unfold p'. rewrite app_nth1 by lia. rewrite nth_xor_bytes by (rewrite ?map_length; lia). rewrite nth_data by lia.
      rewrite (nth_map' _ delta j x00 x00) by lia. reflexivity. }
    rewrite Ej. transitivity (gadd (gmul (gadd (nth j p x00) (nth j p x00)) b) (gmul (gmul (gdiv x01 b) b) (nth j delta x00))); [ring|].
    rewrite gadd_self, Hinv. ring.
  - rewrite set_nth_length by lia. exact A1.
  - exact A2.
  - intros q Hq. apply In_nth with (d := []) in Hq as (k & Hkk & <-). rewrite set_nth_length in Hkk by lia. rewrite nth_set_nth by lia.
    destruct (Nat.eqb_spec k i); [exact Lp'|apply A3, nth_In, Hkk].
  - rewrite Et'. exact ND.
Qed.

(*COPY
Example C57_case : let tags := [x03; x07; x01] in NoDup tags /\ ~ In x00 tags /\
  Combine [[x11; x22; x03]; [x33; x44; x07]; [x55; x66; x01]] = Ret [x25; x90] /\
  exists m, Combine [[x11; x22; x03]; xor_bytes [x33; x44] (map (gmul m) [x01; xff]) ++ [x07]; [x55; x66; x01]] = Ret (xor_bytes [x25; x90] [x01; xff]).
Proof.
  cbv zeta. split; [repeat constructor; cbn; intuition discriminate|]. split; [cbn; intuition discriminate|]. split; [vm_compute; reflexivity|].
  destruct (C57_targeted [x03; x07; x01] 1) as (m & _ & H); [repeat constructor; cbn; intuition discriminate|cbn; intuition discriminate|cbn; lia|].
  exists m. apply (H [[x11; x22; x03]; [x33; x44; x07]; [x55; x66; x01]]); vm_compute; reflexivity.
Qed.
END*)

Lemma params_core E zp rd secret key parts threshold shares zp' parts' threshold' ss is :
  (forall i, 0 < rd i) -> kr_valid_args zp secret parts threshold -> length key = 16 ->
  kr_shape E secret key (Z.to_nat parts) (Z.to_nat threshold) shares ->
  (threshold <= threshold' <= parts')%Z -> (parts' <= 255)%Z -> (zp' = true \/ threshold' < parts')%Z ->
  selection (Z.to_nat parts) (Z.to_nat threshold') is -> (forall i, In i is -> i < Z.to_nat parts') -> somes ss = pick [] shares is ->
  krCombine E zp' rd ss parts' threshold' = Ret secret.
Proof.
  intros Hrd V Hk SH T1 T2 T3 (ND & Hi & Lis) Hi' Ess. pose proof V as (Hs & HL & H2 & H3 & H4 & Hz). set (t := Z.to_nat threshold) in *. set (n := Z.to_nat parts) in *.
  set (t' := Z.to_nat threshold') in *. set (n' := Z.to_nat parts') in *.
  pose proof SH as (Ls & A & _ & (B & CW) & c & EC & EP). set (len := ceil_div (length secret) t) in *. pose proof EC as (Lc & _).
  assert (Pos : 0 < length secret) by (destruct secret; [congruence|cbn; lia]).
  pose proof (ceil_div_bounds (length secret) t ltac:(unfold t; lia)) as CB. fold len in CB.
  assert (Hlen : 0 < len) by nia. assert (Ht : 2 <= t <= t') by (unfold t, t'; lia).
  set (pc := fun i => kr_piece (nth i shares [])).
  assert (Lpc : forall i, In i is -> length (pc i) = len) by (intros i I; apply B, Hi, I).
  assert (Ess' : somes ss = map (fun i => kr_meta (nth i shares []) ++ pc i ++ [i2b i]) is).
  { rewrite Ess. unfold pick. apply map_ext_in. intros i I. destruct (A i (Hi i I)) as (La & <-). unfold kr_meta, pc, kr_piece.
    set (s := nth i shares []) in *. rewrite <- (firstn_skipn 21 s) at 1. f_equal. unfold tag.
    assert (Ne : skipn 21 s <> []) by (intros X; apply (f_equal (@length byte)) in X; rewrite skipn_length in X; cbn in X; lia).
    rewrite (app_removelast_last x00 Ne) at 1. do 2 f_equal. rewrite !last_nth, skipn_length, nth_skipn. f_equal. lia. }
  assert (H256 : n <= 256) by (unfold n; lia).
  assert (Tn : t' <= n). { etransitivity; [exact Lis|]. rewrite <- (seq_length n 0). apply NoDup_incl_length; [exact ND|]. intros i I. apply in_seq. specialize (Hi i I). lia. }
  apply (C55_contract_pf E zp' rd _ parts' threshold' Hrd).
  exists (map (fun i => kr_meta (nth i shares []) ++ pc i ++ [i2b i]) is), (edited_pieces is pc n'), len, (map pc (seq 0 t')), (key ++ le32 (N.of_nat (length secret))).
  split; [eapply edited_scanned; try eassumption; try lia; nia|]. split; [exact Hlen|].
  split; [intros p Hp; eapply edited_uniform; eassumption|]. split; [|split; [eapply edited_metadata; try eassumption; lia|]].
  - pose proof (edited_present key n Hk H256 is pc len ND Lpc Hlen n' Hi') as PP. split; [rewrite (Permutation_length PP); exact Lis|].
    split; [rewrite map_length, seq_length; reflexivity|]. intros i I. rewrite nth_map_seq by exact I.
    assert (In' : i < n') by (unfold t', n' in *; lia). fold t' n'. assert (Ei : nth i (edited_pieces is pc n') [] = if in_dec Nat.eq_dec i is then pc i else []) by (unfold edited_pieces; rewrite nth_map_seq by exact In'; reflexivity).
    rewrite Ei. split; [apply B; lia|]. split; [destruct (in_dec Nat.eq_dec i is); [reflexivity|congruence]|].
    intros _ k Hkk. destruct (CW k Hkk) as (f & F1 & F2). exists (f ++ repeat x00 (t' - t)). split; [rewrite app_length, repeat_length; lia|]. split.
    + intros j Hj. apply firstn_In' in Hj. apply (Permutation_in _ PP) in Hj as Hj'. rewrite peval_heval, heval_app_zeros, <- peval_heval.
      unfold edited_pieces. rewrite nth_map_seq by (apply Hi', Hj'). destruct (in_dec Nat.eq_dec j is); [|contradiction]. symmetry. apply F2, Hi, Hj'.
    + rewrite peval_heval, heval_app_zeros, <- peval_heval. apply F2. lia.
  - cbv zeta. rewrite skipn_app, Hk, Nat.sub_diag, skipn_O, skipn_all2 by lia. cbn [app]. rewrite le32_value_le32 by exact HL.
    split; [fold t'; nia|]. rewrite Nat2N.id. rewrite (firstn_app 16), Hk, Nat.sub_diag, firstn_O, app_nil_r, (firstn_all2 key) by lia.
    apply ofb_cipher_iff. fold t'. unfold pc. rewrite <- (map_map (fun i => nth i shares []) kr_piece).
    replace t' with (t + (t' - t)) by lia. rewrite seq_app, !map_app, concat_app, <- (firstn_ext_map shares [] t) by (rewrite Ls; lia). rewrite EP, <- app_assoc.
    rewrite firstn_app, Lc, Nat.sub_diag, firstn_O, app_nil_r, (firstn_all2 c) by lia.
    apply ofb_cipher_iff in EC. subst c. symmetry. apply xorStream_twice.
Qed.

(** C58: krawczyk.Combine need not be told the parameters of the split: any [parts] above the indices of the shares given, and any
    [threshold] from the real one up to the number of shares given, return the secret. *)
Lemma C58_split_params_pf : forall E zp rd ar growcap krand perm stream polB trB evBufs secret parts threshold shares zp' parts' threshold' ss is,
  (forall i, 0 < rd i) -> grow_ok growcap -> Permutation perm (seq 0 255) ->
  krSplit E zp ar growcap krand perm stream polB trB evBufs secret parts threshold = Ret shares ->
  (threshold <= threshold' <= parts')%Z -> (parts' <= 255)%Z -> (zp' = true \/ threshold' < parts')%Z ->
  selection (Z.to_nat parts) (Z.to_nat threshold') is -> (forall i, In i is -> i < Z.to_nat parts') -> somes ss = pick [] shares is ->
  krCombine E zp' rd ss parts' threshold' = Ret secret.
Proof.
  intros E zp rd ar growcap krand perm stream polB trB evBufs secret parts threshold shares zp' parts' threshold' ss is Hrd G P R.
  assert (V : kr_valid_args zp secret parts threshold) by (apply (C34_contract_pf E zp ar growcap krand perm stream polB trB evBufs secret parts threshold G P); exists shares; exact R).
  apply (params_core E zp rd secret (map krand (seq 0 16)) parts threshold shares); [exact Hrd|exact V|rewrite map_length; apply seq_length|].
  exact (C33_shape_pf E zp ar growcap krand perm stream polB trB evBufs secret parts threshold shares G P R).
Qed.

Lemma C58_randomizer_params_pf : forall fuel E zp rd ar growcap ks polB trB evBufs secret parts threshold shares zp' parts' threshold' ss is,
  (forall i, 0 < rd i) -> grow_ok growcap ->
  krSplitWithRandomizer fuel E zp ar growcap ks polB trB evBufs secret parts threshold = Ret shares ->
  (threshold <= threshold' <= parts')%Z -> (parts' <= 255)%Z -> (zp' = true \/ threshold' < parts')%Z ->
  selection (Z.to_nat parts) (Z.to_nat threshold') is -> (forall i, In i is -> i < Z.to_nat parts') -> somes ss = pick [] shares is ->
  krCombine E zp' rd ss parts' threshold' = Ret secret.
Proof.
  intros fuel E zp rd ar growcap ks polB trB evBufs secret parts threshold shares zp' parts' threshold' ss is Hrd G R.
  destruct (krSWR_inv _ _ _ _ _ _ _ _ _ _ _ _ _ G R) as (V & _).
  apply (params_core E zp rd secret (map ks (seq 0 16)) parts threshold shares); [exact Hrd|exact V|rewrite map_length; apply seq_length|].
  exact (C40_shape_pf fuel E zp ar growcap ks polB trB evBufs secret parts threshold shares G R).
Qed.

(*COPY
Example C58_run :
  match krSplit AES true ex_ar growcap117 (fun i => i2b (5 * i + 9)) ex_perm ex_stream ex_stale ex_stale ex_ev ex_long 5 2 with
  | Ret sh => krCombine AES true (fun _ => 512) [Some (nth 4 sh []); Some (nth 1 sh []); None; Some (nth 3 sh [])] 9 3 = Ret ex_long /\
              krCombine AES true (fun _ => 512) [Some (nth 4 sh []); Some (nth 1 sh []); None; Some (nth 3 sh [])] 9 1 = Fail ERSShortData
  | _ => False end.
Proof. vm_compute. split; reflexivity. Qed.
END*)
