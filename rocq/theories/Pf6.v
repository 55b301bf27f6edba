(** Proofs of the properties of the krawczyk package (C32-C41). *)
From Coq Require Import List NArith ZArith Lia Arith Bool Permutation.
From Coq.Init Require Import Byte.
From Verif Require Import GoSem Bytes Spec SpecKr Galois GF PolyFacts GoFacts VectorFacts Vector Csprng Pool Polynomial PolynomialFacts Shamir SplitFacts
  CombineFacts Secrecy CsprngFacts Derived RandomizerFacts Libs AES Krawczyk KrawczykFacts KrawczykCombine Pf1.
Import ListNotations.

(*PROPS
From Coq Require Import List NArith ZArith Lia Arith Bool Permutation.
From Coq.Init Require Import Byte.
From Verif Require Import GoSem Bytes Spec SpecKr Vector Csprng Pool Polynomial Shamir Libs AES Krawczyk ExData Pf6.
Import ListNotations.
*)

Lemma le32_leBytes L : (Z.of_nat L <= 4294967295)%Z -> leBytes LenLen (N.of_nat L mod 4294967296) = le32 (N.of_nat L).
Proof.
  intros H. rewrite N.mod_small by lia. change LenLen with 4. unfold le32. cbn [leBytes]. rewrite !N.div_div by discriminate. reflexivity.
Qed.

Lemma meta_valid key L parts threshold : length key = 16 -> (2 <= threshold)%Z -> (threshold <= parts)%Z -> (parts <= 255)%Z ->
  valid_args (krMeta key L) parts threshold.
Proof. intros Hk H2 H3 H4. split; [|lia]. intros X. apply (f_equal (@length byte)) in X. rewrite krMeta_length in X by exact Hk. discriminate. Qed.

(** krSplit in closed form *)
Lemma krSplit_ok E zp ar growcap krand perm stream polB trB evBufs secret parts threshold :
  grow_ok growcap -> Permutation perm (seq 0 255) -> kr_valid_args zp secret parts threshold ->
  let key := take_stream krand 16 in
  exists ms polys, Split ar growcap perm stream polB trB evBufs (krMeta key (length secret)) parts threshold = Ret ms /\
    length ms = Z.to_nat parts /\ is_sharing (krMeta key (length secret)) (Z.to_nat threshold) polys (map tag ms) ms /\
    krSplit E zp ar growcap krand perm stream polB trB evBufs secret parts threshold =
    Ret (map (krShare E key secret (Z.to_nat threshold) ms) (seq 0 (Z.to_nat parts))).
Proof.
  intros G P V key. pose proof V as (Hs & HL & H2 & H3 & H4 & Hz). assert (Hk : length key = 16) by apply take_stream_length.
  destruct (C01_split_combine_pf ar growcap perm stream polB trB evBufs (krMeta key (length secret)) parts threshold G P (meta_valid _ _ _ _ Hk H2 H3 H4)) as (ms & E1 & E2 & _).
  destruct (C02_split_shape_pf _ _ _ _ _ _ _ _ _ _ _ G P E1) as (_ & L & _ & _ & _ & polys & S & _).
  exists ms, polys. split; [exact E1|]. split; [exact E2|]. split; [exact S|]. unfold krSplit.
  apply krSplitWith_ok; [exact V|exact Hk|exact E1|exact E2|]. intros i Hi.
  rewrite (L (nth i ms [])) by (apply nth_In; lia). rewrite krMeta_length by exact Hk. reflexivity.
Qed.

(** inversion for the randomizer variant *)
Lemma krSWR_inv fuel E zp ar growcap ks polB trB evBufs secret parts threshold shares :
  grow_ok growcap -> krSplitWithRandomizer fuel E zp ar growcap ks polB trB evBufs secret parts threshold = Ret shares ->
  let key := Read ks (zeros 16) in
  kr_valid_args zp secret parts threshold /\ length key = 16 /\
  exists ms polys tags, SplitWithRandomizer fuel ar growcap ks polB trB evBufs (krMeta key (length secret)) parts threshold = Ret ms /\
    length ms = Z.to_nat parts /\ is_sharing (krMeta key (length secret)) (Z.to_nat threshold) polys tags ms /\
    shares = map (krShare E key secret (Z.to_nat threshold) ms) (seq 0 (Z.to_nat parts)).
Proof.
  intros G R key. assert (Hk : length key = 16) by (unfold key, Read; rewrite xorStreamFrom_length; apply zeros_length).
  unfold krSplitWithRandomizer in R. change LenKey with 16 in R. fold key in R.
  set (share := SplitWithRandomizer fuel ar growcap ks polB trB evBufs) in *.
  destruct (krSplitWith_stuck E zp key share secret parts threshold Hk) as [(e & _ & _ & X)|(Hs & HL & H1 & H4 & Hz & enc & Le & X)]; [rewrite X in R; discriminate|].
  destruct (share (krMeta key (length secret)) parts threshold) as [ms| | | |] eqn:Sh; rewrite X in R; try discriminate.
  destruct (SWR_sharing _ _ _ _ _ _ _ _ _ _ _ G Sh) as (V' & L & polys & tags & S).
  assert (V : kr_valid_args zp secret parts threshold) by (destruct V' as (_ & V2 & V3 & V4); repeat split; try assumption).
  split; [exact V|]. split; [exact Hk|]. exists ms, polys, tags. split; [reflexivity|]. split; [exact L|]. split; [exact S|].
  rewrite <- X in R. rewrite (krSplitWith_ok E zp key share secret parts threshold ms V Hk Sh L) in R; [injection R as <-; reflexivity|].
  intros i Hi. rewrite (is_sharing_lengths _ _ _ _ _ i S) by lia. rewrite krMeta_length by exact Hk. reflexivity.
Qed.

(** C32: krawczyk.Split followed by krawczyk.Combine on a list that contains at least [threshold] distinct shares, in any order
    and with any number of nils between them. *)
Lemma C32_split_combine_pf : forall E zp rd ar growcap krand perm stream polB trB evBufs secret parts threshold,
  (forall i, 0 < rd i) -> grow_ok growcap -> Permutation perm (seq 0 255) -> kr_valid_args zp secret parts threshold ->
  exists shares,
    krSplit E zp ar growcap krand perm stream polB trB evBufs secret parts threshold = Ret shares /\
    length shares = Z.to_nat parts /\
    forall ss is, selection (Z.to_nat parts) (Z.to_nat threshold) is -> somes ss = pick [] shares is ->
      krCombine E zp rd ss parts threshold = Ret secret.
Proof.
  intros E zp rd ar growcap krand perm stream polB trB evBufs secret parts threshold Hrd G P V.
  destruct (krSplit_ok E zp ar growcap krand perm stream polB trB evBufs secret parts threshold G P V) as (ms & polys & E1 & E2 & S & E3).
  eexists. split; [exact E3|]. split; [rewrite map_length, seq_length; reflexivity|]. intros ss is Hi Hss.
  refine (core_enough E zp rd Hrd _ secret parts threshold V _ ms polys _ E2 S ss is Hi Hss). apply take_stream_length.
Qed.

(*COPY
Definition ex_long : list byte := map (fun i => i2b (3 * i + 1)) (seq 0 41).
Example C32_valid : kr_valid_args true ex_long 5 3 /\ kr_valid_args false ex_long 5 3.
Proof. split; (split; [discriminate|]; cbn; repeat split; try lia; auto). Qed.
(** a run with AES: 41 bytes, 3 of 5, shares 4, 0, 2 given with two nils *)
Example C32_run :
  match krSplit AES true ex_ar growcap117 (fun i => i2b (5 * i + 9)) ex_perm ex_stream ex_stale ex_stale ex_ev ex_long 5 3 with
  | Ret sh => krCombine AES true (fun _ => 512) [None; Some (nth 4 sh []); Some (nth 0 sh []); None; Some (nth 2 sh [])] 5 3 = Ret ex_long /\
              nth 0 sh [] <> nth 1 sh []
  | _ => False
  end.
Proof. vm_compute. split; [reflexivity|discriminate]. Qed.
END*)

Lemma krShare_meta E key s t ms i : length (nth i ms []) = 21 -> kr_meta (krShare E key s t ms i) = nth i ms [].
Proof. intros H. unfold kr_meta, krShare. rewrite firstn_app, H, Nat.sub_diag, firstn_O, app_nil_r. apply firstn_all2. lia. Qed.

Lemma krShare_skip E key s t ms i : length (nth i ms []) = 21 -> skipn 21 (krShare E key s t ms i) = krPiece E key s t i ++ [i2b i].
Proof. intros H. unfold krShare. rewrite skipn_app, H, Nat.sub_diag, skipn_O, skipn_all2 by lia. reflexivity. Qed.

Lemma krShare_piece E key s t ms i : length (nth i ms []) = 21 -> kr_piece (krShare E key s t ms i) = krPiece E key s t i.
Proof. intros H. unfold kr_piece. rewrite krShare_skip by exact H. apply removelast_last. Qed.

Lemma krShare_tag E key s t ms i : tag (krShare E key s t ms i) = i2b i.
Proof. unfold tag, krShare. rewrite app_assoc, last_last. reflexivity. Qed.

(** the data pieces are the cut-up padded ciphertext *)
Lemma krPiece_data E key s t i : 0 < t <= 256 -> i < t -> krPiece E key s t i = nth i (rsData t (krCipher E key s)) [].
Proof.
  intros Ht Hi. unfold krPiece. cbv zeta. apply cw_data; try lia; [apply rsData_length|]. apply rsData_row_length; lia.
Qed.

Lemma krPieces_concat E key s t : 0 < t <= 256 -> concat (map (krPiece E key s t) (seq 0 t)) = krCipher E key s ++ repeat x00 (t * ceil_div (length s) t - length s).
Proof.
  intros Ht. replace (map (krPiece E key s t) (seq 0 t)) with (rsData t (krCipher E key s)).
  - rewrite concat_rsData by lia. unfold rsPad. rewrite krCipher_length. reflexivity.
  - rewrite (list_as_map (rsData t (krCipher E key s)) []) at 1. rewrite rsData_length. apply map_ext_in. intros i Hi. apply in_seq in Hi. symmetry. apply krPiece_data; lia.
Qed.

(** a polynomial function with [n] coefficients exactly *)
Lemma polyfun_exact n g : polyfun n g -> exists f, length f = n /\ forall x, peval f x = g x.
Proof.
  intros (p & Hp & Hg). exists (p ++ repeat x00 (n - length p)). split; [rewrite app_length, repeat_length; lia|].
  intros x. rewrite peval_heval, heval_app_zeros. apply Hg.
Qed.

Lemma krPiece_codeword E key s t n : n <= 256 -> rs_codeword t n (ceil_div (length s) t) (krPiece E key s t).
Proof.
  intros Hn. split.
  - intros i _. apply krPiece_length.
  - intros k Hk. set (c := krCipher E key s).
    destruct (polyfun_exact t (cwAt t (rsData t c) k)) as (f & L & F).
    { unfold cwAt. pose proof (lagrange_polyfun (pts t) (map (fun r => nth k r x00) (rsData t c))) as P. rewrite pts_length in P. exact P. }
    exists f. split; [exact L|]. intros i _. rewrite F. unfold krPiece. cbv zeta. fold c. unfold cw.
    rewrite nth_map_seq; [reflexivity|]. unfold c. rewrite krCipher_length. exact Hk.
Qed.

Lemma firstn_seq' a k n : k <= n -> firstn k (seq a n) = seq a k.
Proof. intros H. replace n with (k + (n - k)) by lia. rewrite seq_app, firstn_app, seq_length, Nat.sub_diag, firstn_O, app_nil_r. apply firstn_all2. rewrite seq_length. lia. Qed.

(** the shape shared by both variants *)
Definition kr_shape (E : blockCipher) (secret key : list byte) (n t : nat) (shares : list (list byte)) : Prop :=
  let len := ceil_div (length secret) t in
  length shares = n /\
  (forall i, i < n -> length (nth i shares []) = len + 22 /\ tag (nth i shares []) = i2b i) /\
  (exists polys, is_sharing (key ++ le32 (N.of_nat (length secret))) t polys (map (fun s => tag (kr_meta s)) shares) (map kr_meta shares)) /\
  rs_codeword t n len (fun i => kr_piece (nth i shares [])) /\
  exists c, ofb_cipher E key secret c /\
    concat (map kr_piece (firstn t shares)) = c ++ repeat x00 (t * len - length secret).

Lemma kr_shape_ok E zp secret key parts threshold ms polys tags :
  kr_valid_args zp secret parts threshold -> length key = 16 -> length ms = Z.to_nat parts ->
  is_sharing (krMeta key (length secret)) (Z.to_nat threshold) polys tags ms ->
  kr_shape E secret key (Z.to_nat parts) (Z.to_nat threshold) (map (krShare E key secret (Z.to_nat threshold) ms) (seq 0 (Z.to_nat parts))).
Proof.
  intros (Hs & HL & H2 & H3 & H4 & Hz) Hk L S. unfold kr_shape. cbv zeta. set (n := Z.to_nat parts) in *. set (t := Z.to_nat threshold) in *.
  assert (M : forall i, i < n -> length (nth i ms []) = 21).
  { intros i Hi. rewrite (is_sharing_lengths _ _ _ _ _ i S) by lia. rewrite krMeta_length by exact Hk. reflexivity. }
  assert (Em : map kr_meta (map (krShare E key secret t ms) (seq 0 n)) = ms).
  { rewrite map_map. transitivity (map (fun i => nth i ms []) (seq 0 n)); [|rewrite <- L; symmetry; apply list_as_map].
    apply map_ext_in. intros i Hi. apply in_seq in Hi. apply krShare_meta, M. lia. }
  split; [rewrite map_length, seq_length; reflexivity|]. split; [|split; [|split]].
  - intros i Hi. rewrite nth_map_seq by exact Hi. rewrite krShare_length by (apply M, Hi). split; [|apply krShare_tag].
    unfold ceil_div, rsPerShard. lia.
  - exists polys. rewrite <- (map_map kr_meta tag), Em. rewrite <- (le32_leBytes (length secret)) by exact HL. fold (krMeta key (length secret)).
    replace (map tag ms) with tags; [exact S|]. destruct S as (_ & _ & _ & ->). symmetry. apply map_tag_shares.
  - destruct (krPiece_codeword E key secret t n ltac:(unfold n; lia)) as (C1 & C2).
    assert (Ep : forall i, i < n -> kr_piece (nth i (map (krShare E key secret t ms) (seq 0 n)) []) = krPiece E key secret t i).
    { intros i Hi. rewrite nth_map_seq by exact Hi. apply krShare_piece, M, Hi. }
    split.
    + intros i Hi. rewrite Ep by exact Hi. apply C1, Hi.
    + intros k Hkk. destruct (C2 k Hkk) as (f & F1 & F2). exists f. split; [exact F1|]. intros i Hi. rewrite Ep by exact Hi. apply F2, Hi.
  - exists (krCipher E key secret). split; [apply ofb_cipher_iff; reflexivity|].
    rewrite <- krPieces_concat by (unfold t; lia). f_equal.
    rewrite firstn_map, firstn_seq' by (unfold t, n; lia). rewrite map_map. apply map_ext_in. intros i Hi. apply in_seq in Hi.
    apply krShare_piece, M. unfold t, n in *. lia.
Qed.

(** C33: what a krawczyk share is made of. *)
Lemma C33_shape_pf : forall E zp ar growcap krand perm stream polB trB evBufs secret parts threshold shares,
  grow_ok growcap -> Permutation perm (seq 0 255) ->
  krSplit E zp ar growcap krand perm stream polB trB evBufs secret parts threshold = Ret shares ->
  let n := Z.to_nat parts in let t := Z.to_nat threshold in let len := ceil_div (length secret) t in
  let key := map krand (seq 0 16) in
  length shares = n /\
  (forall i, i < n -> length (nth i shares []) = len + 22 /\ tag (nth i shares []) = i2b i) /\
  (exists polys, is_sharing (key ++ le32 (N.of_nat (length secret))) t polys (map (fun s => tag (kr_meta s)) shares) (map kr_meta shares)) /\
  rs_codeword t n len (fun i => kr_piece (nth i shares [])) /\
  exists c, ofb_cipher E key secret c /\
    concat (map kr_piece (firstn t shares)) = c ++ repeat x00 (t * len - length secret).
Proof.
  intros E zp ar growcap krand perm stream polB trB evBufs secret parts threshold shares G P R.
  assert (V : kr_valid_args zp secret parts threshold).
  { unfold krSplit in R. set (share := Split ar growcap perm stream polB trB evBufs) in R.
    destruct (krSplitWith_stuck E zp (take_stream krand LenKey) share secret parts threshold (take_stream_length _ _)) as [(e & _ & _ & X)|(Hs & HL & H1 & H4 & Hz & enc & Le & X)]; [rewrite X in R; discriminate|].
    destruct (Z.eq_dec threshold 1) as [T|T].
    - assert (F : share (krMeta (take_stream krand LenKey) (length secret)) parts threshold = Fail EThresholdSmall).
      { apply C03_split_errors_pf; [exact G|exact P|]. right. right. left. repeat split; lia. }
      rewrite X, F in R. discriminate.
    - repeat split; try assumption; lia. }
  destruct (krSplit_ok E zp ar growcap krand perm stream polB trB evBufs secret parts threshold G P V) as (ms & polys & E1 & E2 & S & E3).
  rewrite E3 in R. injection R as <-.
  exact (kr_shape_ok E zp secret (take_stream krand 16) parts threshold ms polys _ V (take_stream_length _ _) E2 S).
Qed.

(*COPY
Example C33_run : match krSplit AES true ex_ar growcap117 (fun i => i2b (5 * i + 9)) ex_perm ex_stream ex_stale ex_stale ex_ev ex_long 5 3 with
  | Ret sh => map (@length byte) sh = [36; 36; 36; 36; 36]
  | _ => False end.
Proof. vm_compute. reflexivity. Qed.
END*)

(** C34: krawczyk.Split succeeds exactly on valid arguments, and otherwise returns exactly the specified error. *)
Lemma C34_contract_pf : forall E zp ar growcap krand perm stream polB trB evBufs secret parts threshold,
  grow_ok growcap -> Permutation perm (seq 0 255) ->
  let call := krSplit E zp ar growcap krand perm stream polB trB evBufs secret parts threshold in
  ((exists shares, call = Ret shares) <-> kr_valid_args zp secret parts threshold) /\
  (forall e, call = Fail e <-> kr_arg_error zp secret parts threshold e) /\
  ((exists shares, call = Ret shares) \/ (exists e, call = Fail e)).
Proof.
  intros E zp ar growcap krand perm stream polB trB evBufs secret parts threshold G P call.
  assert (W : (kr_valid_args zp secret parts threshold /\ exists sh, call = Ret sh) \/
    (exists e, kr_arg_error zp secret parts threshold e /\ call = Fail e)).
  { unfold call, krSplit. set (share := Split ar growcap perm stream polB trB evBufs).
    destruct (krSplitWith_stuck E zp (take_stream krand LenKey) share secret parts threshold (take_stream_length _ _)) as [(e & A & _ & X)|(Hs & HL & H1 & H4 & Hz & enc & Le & X)].
    - right. exists e. split; [exact A|exact X].
    - destruct (Z.eq_dec threshold 1) as [T|T].
      + right. exists EThresholdSmall. split; [do 6 right; repeat split; try assumption; lia|].
        rewrite X. replace (share _ _ _) with (@Fail (list (list byte)) EThresholdSmall); [reflexivity|]. symmetry.
        apply C03_split_errors_pf; [exact G|exact P|]. right. right. left. repeat split; lia.
      + left. assert (V : kr_valid_args zp secret parts threshold) by (repeat split; try assumption; lia). split; [exact V|].
        destruct (krSplit_ok E zp ar growcap krand perm stream polB trB evBufs secret parts threshold G P V) as (ms & polys & _ & _ & _ & E3).
        unfold krSplit in E3. fold share in E3. eexists. exact E3. }
  assert (U : forall e e', kr_arg_error zp secret parts threshold e -> kr_arg_error zp secret parts threshold e' -> e = e').
  { unfold kr_arg_error. cbv zeta. intros e e' A B.
    assert (Z.of_nat (length secret) = 0%Z <-> secret = []) by (destruct secret; cbn; [tauto|split; [lia|discriminate]]).
    destruct zp; intuition (try congruence; try lia). }
  assert (N : forall e, kr_arg_error zp secret parts threshold e -> ~ kr_valid_args zp secret parts threshold).
  { unfold kr_arg_error, kr_valid_args. cbv zeta. intros e A B. destruct zp; intuition (try congruence; try lia). }
  split; [|split].
  - destruct W as [(V & sh & X)|(e & A & X)]; [split; [intros _; exact V|intros _; exists sh; exact X]|].
    split; [intros (sh & Y); rewrite X in Y; discriminate|intros V; exfalso; exact (N e A V)].
  - intros e. destruct W as [(V & sh & X)|(e' & A & X)].
    + split; [intros Y; rewrite X in Y; discriminate|intros A; exfalso; exact (N e A V)].
    + split; [intros Y; rewrite X in Y; injection Y as <-; exact A|intros A'; rewrite (U e e' A' A); exact X].
  - destruct W as [(V & sh & X)|(e & A & X)]; [left; exists sh; exact X|right; exists e; exact X].
Qed.

(*COPY
Example C34_cases : kr_arg_error true ex_long 5 1 EThresholdSmall /\ kr_arg_error true [] 5 3 ERSShortData /\
  kr_arg_error true ex_long (-1) (-2) ERSInvShardNum /\ kr_arg_error false ex_long 5 5 ERSInvShardNum.
Proof. unfold kr_arg_error. cbn. intuition (try discriminate; try lia). Qed.
END*)

(** C35: given fewer than [threshold] distinct shares (and nils), krawczyk.Combine never returns data but always the same error. *)
Lemma C35_too_few_pf : forall E zp rd ar growcap krand perm stream polB trB evBufs secret parts threshold shares ss is,
  (forall i, 0 < rd i) -> grow_ok growcap -> Permutation perm (seq 0 255) ->
  krSplit E zp ar growcap krand perm stream polB trB evBufs secret parts threshold = Ret shares ->
  ss <> [] -> coalition (Z.to_nat parts) (Z.to_nat threshold) is -> somes ss = pick [] shares is ->
  krCombine E zp rd ss parts threshold = Fail (if length is <? 2 then ETooFewParts else ERSTooFewShards).
Proof.
  intros E zp rd ar growcap krand perm stream polB trB evBufs secret parts threshold shares ss is Hrd G P R Hss (C1 & C2 & C3) Hp.
  assert (V : kr_valid_args zp secret parts threshold).
  { apply (C34_contract_pf E zp ar growcap krand perm stream polB trB evBufs secret parts threshold G P). exists shares. exact R. }
  destruct (krSplit_ok E zp ar growcap krand perm stream polB trB evBufs secret parts threshold G P V) as (ms & polys & E1 & E2 & S & E3).
  rewrite E3 in R. injection R as <-.
  exact (core_few E zp rd _ secret parts threshold V (take_stream_length _ _) ms polys _ E2 S ss is Hss C1 C2 C3 Hp).
Qed.

(*COPY
Example C35_case : match krSplit AES true ex_ar growcap117 (fun i => i2b (5 * i + 9)) ex_perm ex_stream ex_stale ex_stale ex_ev ex_long 5 3 with
  | Ret sh => krCombine AES true (fun _ => 512) [None; Some (nth 4 sh []); Some (nth 0 sh [])] 5 3 = Fail ERSTooFewShards
  | _ => False end /\ coalition 5 3 [4; 0].
Proof. split; [vm_compute; reflexivity|]. split; [repeat constructor; cbn; intuition lia|split; [cbn; intuition lia|cbn; lia]]. Qed.
END*)

(** C36: exactly when krawczyk.Combine panics, for arbitrary shares (with arbitrary spare capacity) and parameters. *)
Lemma C36_panics_pf : forall E zp rd ss parts threshold,
  (forall i, 0 < rd i) ->
  let first_length := match ss with Some (s, _) :: _ => length s | _ => 0 end in
  let call := krCombineCap E zp rd ss parts threshold in
  ((exists p, call = Panic p) <->
     ss = [] \/
     (kr_params first_length parts threshold /\
      ((parts < 0)%Z \/
       exists pre s spare post, somes ss = pre ++ (s, spare) :: post /\ Forall (fun x => kr_acceptable parts (fst x)) pre /\
         ~ kr_acceptable parts s /\ kr_panicking parts s spare))) /\
  ((exists p, call = Panic p) \/ (exists e, call = Fail e) \/ (exists secret, call = Ret secret)).
Proof.
  intros E zp rd ss parts threshold Hrd first_length call.
  assert (Cl : cleanShares ss = somes ss) by (clear; induction ss as [|[x|] ss IH]; cbn; [reflexivity|rewrite IH; reflexivity|exact IH]).
  assert (Uniq : forall (l : list (list byte * list byte)) pre s sp post pre' s' sp' post',
     l = pre ++ (s, sp) :: post -> l = pre' ++ (s', sp') :: post' ->
     Forall (fun x => kr_acceptable parts (fst x)) pre -> ~ kr_acceptable parts s ->
     Forall (fun x => kr_acceptable parts (fst x)) pre' -> ~ kr_acceptable parts s' -> (s, sp) = (s', sp')).
  { clear. induction l as [|x l IH]; intros pre s sp post pre' s' sp' post' A B F N F' N'; [destruct pre; discriminate|].
    destruct pre as [|y pre], pre' as [|y' pre']; cbn in A, B; injection A as A1 A2; injection B as B1 B2; subst.
    - reflexivity || congruence.
    - inversion F'; subst. cbn in *. contradiction.
    - inversion F; subst. cbn in *. contradiction.
    - inversion F; inversion F'; subst. eapply IH; eassumption || reflexivity. }
  destruct (krCombineCap_cases E zp rd ss parts threshold Hrd) as [(-> & X)|(s0 & r & -> & H)].
  - fold call in X. split; [split; [intros _; left; reflexivity|intros _; eexists; exact X]|left; eexists; exact X].
  - cbv zeta in H. fold call in H.
    assert (EL : match s0 with Some (s, _) => length s | None => 0 end = first_length) by (unfold first_length; destruct s0 as [[? ?]|]; reflexivity).
    rewrite EL in H. rewrite Cl in H.
    destruct H as [(N & e & _ & X)|[(K & Hn & X)|[(K & Hn & F & X)|(K & Hn & pre & s & sp & post & A & F & N & [(Q & p & X)|(Q & X)])]]].
    + split; [|right; left; eexists; exact X]. split; [intros (p & Y); rewrite X in Y; discriminate|]. intros [Y|(Y & _)]; [discriminate|contradiction].
    + split; [|left; eexists; exact X]. split; [intros _; right; split; [exact K|left; exact Hn]|intros _; eexists; exact X].
    + split; [|destruct X as [(a & X)|(e & X)]; [right; right; eexists; exact X|right; left; eexists; exact X]].
      split; [intros (p & Y); destruct X as [(a & X)|(e & X)]; rewrite X in Y; discriminate|].
      intros [Y|(_ & [Y|(pre & s & sp & post & A & _ & N & _)])]; [discriminate|lia|]. exfalso. rewrite A in F. apply Forall_app in F as (_ & F). inversion F; subst. cbn in *. contradiction.
    + split; [|left; eexists; exact X]. split; [intros _; right; split; [exact K|right; exists pre, s, sp, post; repeat split; assumption]|intros _; eexists; exact X].
    + split; [|right; left; eexists; exact X]. split; [intros (p & Y); rewrite X in Y; discriminate|].
      intros [Y|(_ & [Y|(pre' & s' & sp' & post' & A' & F' & N' & Q')])]; [discriminate|lia|]. exfalso.
      pose proof (Uniq _ _ _ _ _ _ _ _ _ A A' F N F' N') as U. injection U as -> ->. contradiction.
Qed.

(*COPY
Example C36_cases : kr_panicking 5 [x01; x02] [] /\ ~ kr_acceptable 5 [x01; x02] /\ kr_params 2 5 3 /\
  krCombine AES true (fun _ => 512) [Some [x01; x02]] 5 3 = Panic PSlice /\
  krCombine AES true (fun _ => 512) [Some (repeat x05 30)] 5 3 = Panic PIndex /\
  krCombine AES true (fun _ => 512) [Some (repeat x06 30)] 5 3 = Fail EWrongPartId /\
  krCombineCap AES true (fun _ => 512) [Some ([x09], repeat x00 20)] 5 3 = Fail EWrongPartId.
Proof.
  split; [left; cbn; lia|]. split; [intros (X & _); cbn in X; lia|]. split; [unfold kr_params; lia|].
  repeat split; vm_compute; reflexivity.
Qed.
END*)

(** ** secrecy of the key *)
Lemma shares_eqb_iff a b : shares_eqb a b = true <-> a = b.
Proof. unfold shares_eqb. destruct (list_eq_dec _ a b); split; congruence. Qed.

Lemma bool_iff (a b : bool) : (a = true <-> b = true) -> a = b.
Proof. destruct a, b; intuition congruence. Qed.

Lemma count_ext' {A} (P Q : A -> bool) l : (forall a, P a = Q a) -> count P l = count Q l.
Proof. intros H. unfold count. f_equal. apply filter_ext. exact H. Qed.

(** a view of whole shares = a view of their metadata, plus fixed tails *)
Lemma view_split (k : nat) (ms zs : nat -> list byte) is (view : list (list byte)) : (forall i, In i is -> length (ms i) = k) ->
  shares_eqb (map (fun i => ms i ++ zs i) is) view =
  (shares_eqb (map zs is) (map (skipn k) view) && forallb (fun v => k <=? length v) view && shares_eqb (map ms is) (map (firstn k) view))%bool.
Proof.
  intros H. apply bool_iff. rewrite !andb_true_iff, !shares_eqb_iff. split.
  - intros <-. rewrite !map_map. repeat split.
    + apply map_ext_in. intros i Hi. rewrite skipn_app, (H i Hi), Nat.sub_diag, skipn_O, skipn_all2 by (rewrite (H i Hi); lia). reflexivity.
    + apply forallb_forall. intros v Hv. apply in_map_iff in Hv as (i & <- & Hi). apply Nat.leb_le. rewrite app_length, (H i Hi). lia.
    + apply map_ext_in. intros i Hi. rewrite firstn_app, (H i Hi), Nat.sub_diag, firstn_O, app_nil_r, firstn_all2 by (rewrite (H i Hi); lia). reflexivity.
  - revert view. induction is as [|i is IH]; intros view ((A & _) & B).
    + destruct view; [reflexivity|discriminate].
    + destruct view as [|v view]; [discriminate|]. cbn [map] in A, B. injection A as A1 A2. injection B as B1 B2. cbn [map]. f_equal.
      * rewrite A1, B1. apply firstn_skipn.
      * apply IH; [intros j Hj; apply H; right; exact Hj|]. split; [|exact B2]. split; [exact A2|]. apply forallb_forall. intros v' Hv'.
        rewrite <- (firstn_skipn k v'), app_length. replace (length (firstn k v')) with k; [apply Nat.leb_le; lia|].
        assert (I : In (firstn k v') (map (firstn k) view)) by (apply in_map; exact Hv'). rewrite <- B2 in I.
        apply in_map_iff in I as (j & <- & Hj). symmetry. apply H. right. exact Hj.
Qed.

Definition meta_of (o : outcome (list (list byte))) : outcome (list (list byte)) :=
  match o with Ret sh => Ret (map kr_meta sh) | Fail e => Fail e | Panic p => Panic p | UB => UB | Diverge => Diverge end.

Section secrecy.
Context (E : blockCipher) (zp : bool) (ar : arch) (growcap : nat -> nat -> nat) (G : grow_ok growcap)
  (perm : list nat) (P : Permutation perm (seq 0 255)) (polB trB : bbuf) (evBufs : nat -> bbuf)
  (parts threshold : Z) (is : list nat) (C : coalition (Z.to_nat parts) (Z.to_nat threshold) is).

Lemma kr_observes_meta krand secret stream view : kr_valid_args zp secret parts threshold ->
  observes (meta_of (krSplit E zp ar growcap krand perm stream polB trB evBufs secret parts threshold)) is view =
  observes (Split ar growcap perm stream polB trB evBufs (krMeta (take_stream krand 16) (length secret)) parts threshold) is view.
Proof.
  intros V. destruct (krSplit_ok E zp ar growcap krand perm stream polB trB evBufs secret parts threshold G P V) as (ms & polys & E1 & E2 & S & E3).
  rewrite E1, E3. cbn [meta_of observes]. f_equal. f_equal.
  assert (M : forall i, i < Z.to_nat parts -> length (nth i ms []) = 21).
  { intros i Hi. rewrite (is_sharing_lengths _ _ _ _ _ i S) by lia. rewrite krMeta_length by apply take_stream_length. reflexivity. }
  rewrite map_map. transitivity (map (fun i => nth i ms []) (seq 0 (Z.to_nat parts))); [|rewrite <- E2; symmetry; apply list_as_map].
  apply map_ext_in. intros i Hi. apply in_seq in Hi. apply krShare_meta, M. lia.
Qed.

Lemma kr_observes_full krand secret stream view : kr_valid_args zp secret parts threshold ->
  observes (krSplit E zp ar growcap krand perm stream polB trB evBufs secret parts threshold) is view =
  (shares_eqb (map (fun i => krPiece E (take_stream krand 16) secret (Z.to_nat threshold) i ++ [i2b i]) is) (map (skipn 21) view) &&
   forallb (fun v => 21 <=? length v) view &&
   observes (Split ar growcap perm stream polB trB evBufs (krMeta (take_stream krand 16) (length secret)) parts threshold) is (map (firstn 21) view))%bool.
Proof.
  intros V. destruct (krSplit_ok E zp ar growcap krand perm stream polB trB evBufs secret parts threshold G P V) as (ms & polys & E1 & E2 & S & E3).
  rewrite E1, E3. cbn [observes]. destruct C as (C1 & C2 & C3).
  assert (M : forall i, i < Z.to_nat parts -> length (nth i ms []) = 21).
  { intros i Hi. rewrite (is_sharing_lengths _ _ _ _ _ i S) by lia. rewrite krMeta_length by apply take_stream_length. reflexivity. }
  rewrite (core_pick E (take_stream krand 16) secret parts threshold ms is C2).
  exact (view_split 21 (fun i => nth i ms []) (fun i => krPiece E (take_stream krand 16) secret (Z.to_nat threshold) i ++ [i2b i]) is view (fun i Hi => M i (C2 i Hi))).
Qed.
End secrecy.

(** C37: the metadata of fewer than [threshold] shares is distributed independently of the key, of the secret and of its length. *)
Lemma C37_metadata_pf : forall E zp ar growcap perm polB trB evBufs krand krand' s s' parts threshold is view,
  grow_ok growcap -> Permutation perm (seq 0 255) -> kr_valid_args zp s parts threshold -> kr_valid_args zp s' parts threshold ->
  coalition (Z.to_nat parts) (Z.to_nat threshold) is ->
  let metadata_seen o := match o with Ret sh => shares_eqb (map kr_meta (pick [] sh is)) view | _ => false end in
  let buffers := all_strings (Z.to_nat threshold * 20) in
  count (fun r => metadata_seen (krSplit E zp ar growcap krand perm (stream_of r) polB trB evBufs s parts threshold)) buffers =
  count (fun r => metadata_seen (krSplit E zp ar growcap krand' perm (stream_of r) polB trB evBufs s' parts threshold)) buffers.
Proof.
  intros E zp ar growcap perm polB trB evBufs krand krand' s s' parts threshold is view G P V V' C metadata_seen buffers.
  assert (A : forall krand s r, kr_valid_args zp s parts threshold ->
    metadata_seen (krSplit E zp ar growcap krand perm (stream_of r) polB trB evBufs s parts threshold) =
    observes (Split ar growcap perm (stream_of r) polB trB evBufs (krMeta (take_stream krand 16) (length s)) parts threshold) is view).
  { clear krand s V. intros krand s r V. rewrite <- (kr_observes_meta E zp ar growcap G perm P polB trB evBufs parts threshold is krand s (stream_of r) view V).
    destruct (krSplit E zp ar growcap krand perm (stream_of r) polB trB evBufs s parts threshold) as [sh| | | |]; [|reflexivity..].
    cbn [meta_of metadata_seen observes]. f_equal. unfold pick. rewrite map_map. apply map_ext. intros i.
    rewrite <- (map_nth kr_meta sh [] i). reflexivity. }
  rewrite (count_ext' _ _ buffers (fun r => A krand s r V)). rewrite (count_ext' _ _ buffers (fun r => A krand' s' r V')).
  unfold buffers. pose proof V as (_ & _ & H2 & H3 & H4 & _).
  assert (L : forall k L, length (krMeta (take_stream k 16) L) = 20) by (intros; apply krMeta_length, take_stream_length).
  pose proof (C04_secrecy_pf ar growcap perm polB trB evBufs (krMeta (take_stream krand 16) (length s)) (krMeta (take_stream krand' 16) (length s')) parts threshold is view G P
    (meta_valid _ _ _ _ (take_stream_length _ _) H2 H3 H4) ltac:(rewrite !L; reflexivity) C) as Q.
  cbv zeta in Q. rewrite L in Q. exact Q.
Qed.

(*COPY
Example C37_case : coalition 5 3 [4; 1] /\ kr_valid_args true ex_long 5 3 /\ kr_valid_args true ex_secret 5 3.
Proof.
  split; [split; [repeat constructor; cbn; lia|split; [cbn; intros; lia|cbn; lia]]|].
  split; (split; [discriminate|cbn; repeat split; try lia; auto]).
Qed.
END*)

(** C37, whole shares: fewer than [threshold] shares reveal nothing about key and secret beyond the pieces of the ciphertext they
    carry: two (key, secret) pairs for which the coalition holds the same pieces produce every view equally often. *)
Lemma C37_whole_view_pf : forall E zp ar growcap perm polB trB evBufs krand krand' s s' parts threshold is view stream sh sh',
  grow_ok growcap -> Permutation perm (seq 0 255) ->
  coalition (Z.to_nat parts) (Z.to_nat threshold) is ->
  krSplit E zp ar growcap krand perm stream polB trB evBufs s parts threshold = Ret sh ->
  krSplit E zp ar growcap krand' perm stream polB trB evBufs s' parts threshold = Ret sh' ->
  map kr_piece (pick [] sh is) = map kr_piece (pick [] sh' is) ->
  let buffers := all_strings (Z.to_nat threshold * 20) in
  count (fun r => observes (krSplit E zp ar growcap krand perm (stream_of r) polB trB evBufs s parts threshold) is view) buffers =
  count (fun r => observes (krSplit E zp ar growcap krand' perm (stream_of r) polB trB evBufs s' parts threshold) is view) buffers.
Proof.
  intros E zp ar growcap perm polB trB evBufs krand krand' s s' parts threshold is view stream sh sh' G P C R R' Hp buffers.
  assert (V : kr_valid_args zp s parts threshold) by (apply (C34_contract_pf E zp ar growcap krand perm stream polB trB evBufs s parts threshold G P); exists sh; exact R).
  assert (V' : kr_valid_args zp s' parts threshold) by (apply (C34_contract_pf E zp ar growcap krand' perm stream polB trB evBufs s' parts threshold G P); exists sh'; exact R').
  pose proof C as (C1 & C2 & C3).
  assert (Pc : forall krand s sh, kr_valid_args zp s parts threshold -> krSplit E zp ar growcap krand perm stream polB trB evBufs s parts threshold = Ret sh ->
    map kr_piece (pick [] sh is) = map (krPiece E (take_stream krand 16) s (Z.to_nat threshold)) is).
  { clear krand s sh R V Hp. intros krand s sh V R.
    destruct (krSplit_ok E zp ar growcap krand perm stream polB trB evBufs s parts threshold G P V) as (ms & polys & E1 & E2 & S & E3).
    rewrite E3 in R. injection R as <-. rewrite core_pick by exact C2. rewrite map_map. apply map_ext_in. intros i Hi. apply krShare_piece.
    rewrite (is_sharing_lengths _ _ _ _ _ i S) by (rewrite E2; apply C2, Hi). rewrite krMeta_length by apply take_stream_length. reflexivity. }
  rewrite (Pc _ _ _ V R), (Pc _ _ _ V' R') in Hp.
  rewrite (count_ext' _ _ buffers (fun r => kr_observes_full E zp ar growcap G perm P polB trB evBufs parts threshold is C krand s (stream_of r) view V)).
  rewrite (count_ext' _ _ buffers (fun r => kr_observes_full E zp ar growcap G perm P polB trB evBufs parts threshold is C krand' s' (stream_of r) view V')).
  assert (Hz : map (fun i => krPiece E (take_stream krand 16) s (Z.to_nat threshold) i ++ [i2b i]) is = map (fun i => krPiece E (take_stream krand' 16) s' (Z.to_nat threshold) i ++ [i2b i]) is).
  { clear - Hp. induction is as [|i l IH]; [reflexivity|]. cbn [map] in *. injection Hp as H1 H2. rewrite H1, IH by exact H2. reflexivity. }
  rewrite Hz. destruct (shares_eqb _ _ && forallb _ _)%bool; cbn [andb]; [|reflexivity].
  unfold buffers. pose proof V as (_ & _ & H2 & H3 & H4 & _).
  assert (L : forall k L, length (krMeta (take_stream k 16) L) = 20) by (intros; apply krMeta_length, take_stream_length).
  pose proof (C04_secrecy_pf ar growcap perm polB trB evBufs (krMeta (take_stream krand 16) (length s)) (krMeta (take_stream krand' 16) (length s')) parts threshold is (map (firstn 21) view) G P
    (meta_valid _ _ _ _ (take_stream_length _ _) H2 H3 H4) ltac:(rewrite !L; reflexivity) C) as Q.
  cbv zeta in Q. rewrite L in Q. exact Q.
Qed.

(** C40: whatever krawczyk.SplitWithRandomizer returns combines to the secret. *)
Lemma C40_randomizer_combine_pf : forall fuel E zp rd ar growcap ks polB trB evBufs secret parts threshold shares,
  (forall i, 0 < rd i) -> grow_ok growcap ->
  krSplitWithRandomizer fuel E zp ar growcap ks polB trB evBufs secret parts threshold = Ret shares ->
  length shares = Z.to_nat parts /\
  forall ss is, selection (Z.to_nat parts) (Z.to_nat threshold) is -> somes ss = pick [] shares is ->
    krCombine E zp rd ss parts threshold = Ret secret.
Proof.
  intros fuel E zp rd ar growcap ks polB trB evBufs secret parts threshold shares Hrd G R.
  destruct (krSWR_inv _ _ _ _ _ _ _ _ _ _ _ _ _ G R) as (V & Hk & ms & polys & tags & E1 & E2 & S & ->).
  split; [rewrite map_length, seq_length; reflexivity|]. intros ss is Hi Hss.
  exact (core_enough E zp rd Hrd _ secret parts threshold V Hk ms polys _ E2 S ss is Hi Hss).
Qed.

(** C40: the error contract of krawczyk.SplitWithRandomizer is the same as that of krawczyk.Split. *)
Lemma C40_errors_pf : forall fuel E zp ar growcap ks polB trB evBufs secret parts threshold e,
  grow_ok growcap ->
  (krSplitWithRandomizer fuel E zp ar growcap ks polB trB evBufs secret parts threshold = Fail e <-> kr_arg_error zp secret parts threshold e).
Proof.
  intros fuel E zp ar growcap ks polB trB evBufs secret parts threshold e G.
  unfold krSplitWithRandomizer. change LenKey with 16. set (key := Read ks (zeros 16)). set (share := SplitWithRandomizer fuel ar growcap ks polB trB evBufs).
  assert (Hk : length key = 16) by (unfold key, Read; rewrite xorStreamFrom_length; apply zeros_length).
  assert (U : forall e e', kr_arg_error zp secret parts threshold e -> kr_arg_error zp secret parts threshold e' -> e = e').
  { clear. unfold kr_arg_error. cbv zeta. intros e e' A B.
    assert (Z.of_nat (length secret) = 0%Z <-> secret = []) by (destruct secret; cbn; [tauto|split; [lia|discriminate]]).
    destruct zp; intuition (try congruence; try lia). }
  destruct (krSplitWith_stuck E zp key share secret parts threshold Hk) as [(e' & A & _ & X)|(Hs & HL & H1 & H4 & Hz & enc & Le & X)]; rewrite X.
  - split; [intros Y; injection Y as <-; exact A|intros A'; rewrite (U e e' A' A); reflexivity].
  - assert (Err : forall e', share (krMeta key (length secret)) parts threshold = Fail e' <-> arg_error (krMeta key (length secret)) parts threshold e')
      by (intros e'; apply C03_splitwithrandomizer_errors_pf, G).
    assert (Hne : krMeta key (length secret) <> []) by (intros Y; apply (f_equal (@length byte)) in Y; rewrite krMeta_length in Y by exact Hk; discriminate).
    destruct (Z.eq_dec threshold 1) as [T|T].
    + assert (F : share (krMeta key (length secret)) parts threshold = Fail EThresholdSmall) by (apply Err; right; right; left; repeat split; lia).
      assert (A : kr_arg_error zp secret parts threshold EThresholdSmall) by (do 6 right; repeat split; try assumption; lia).
      rewrite F. cbn [bind]. split; [intros Y; injection Y as <-; exact A|intros A'; rewrite (U e _ A' A); reflexivity].
    + split.
      * destruct (share (krMeta key (length secret)) parts threshold) as [ms|e'| | |] eqn:Sh; cbn [bind]; try discriminate.
        -- intros Y. exfalso. assert (R : krSplitWith E zp key share secret parts threshold = krAssemble (Z.to_nat parts) ms enc) by (rewrite X; reflexivity).
           destruct (SWR_sharing _ _ _ _ _ _ _ _ _ _ _ G Sh) as (V' & L & polys & tags & S).
           assert (V : kr_valid_args zp secret parts threshold) by (repeat split; try assumption; lia).
           rewrite (krSplitWith_ok E zp key share secret parts threshold ms V Hk Sh L) in R; [rewrite <- R in Y; discriminate|].
           intros i Hi. rewrite (is_sharing_lengths _ _ _ _ _ i S) by lia. rewrite krMeta_length by exact Hk. reflexivity.
        -- intros _. exfalso. apply (Err e') in Sh as A || pose proof (proj1 (Err e') eq_refl) as A. unfold arg_error in A. intuition lia.
      * intros A. exfalso. clear - A T Hs HL H1 H4 Hz. unfold kr_arg_error in A. cbv zeta in A. destruct zp; intuition (try congruence; try lia).
Qed.

(** C40: the shares of krawczyk.SplitWithRandomizer have the same layout as those of krawczyk.Split, the key being the first 16
    bytes of the key stream. *)
Lemma C40_shape_pf : forall fuel E zp ar growcap ks polB trB evBufs secret parts threshold shares,
  grow_ok growcap ->
  krSplitWithRandomizer fuel E zp ar growcap ks polB trB evBufs secret parts threshold = Ret shares ->
  let n := Z.to_nat parts in let t := Z.to_nat threshold in let len := ceil_div (length secret) t in
  let key := map ks (seq 0 16) in
  length shares = n /\
  (forall i, i < n -> length (nth i shares []) = len + 22 /\ tag (nth i shares []) = i2b i) /\
  (exists polys, is_sharing (key ++ le32 (N.of_nat (length secret))) t polys (map (fun s => tag (kr_meta s)) shares) (map kr_meta shares)) /\
  rs_codeword t n len (fun i => kr_piece (nth i shares [])) /\
  exists c, ofb_cipher E key secret c /\
    concat (map kr_piece (firstn t shares)) = c ++ repeat x00 (t * len - length secret).
Proof.
  intros fuel E zp ar growcap ks polB trB evBufs secret parts threshold shares G R.
  destruct (krSWR_inv _ _ _ _ _ _ _ _ _ _ _ _ _ G R) as (V & Hk & ms & polys & tags & E1 & E2 & S & ->).
  rewrite Read_zeros in *.
  exact (kr_shape_ok E zp secret (take_stream ks 16) parts threshold ms polys _ V Hk E2 S).
Qed.

(*COPY
(** a run with AES and a randomizer: 41 bytes, 3 of 5, shares 4, 0, 2 given with a nil *)
Example C40_run :
  match krSplitWithRandomizer 3 AES true ex_ar growcap117 ex_stream ex_stale ex_stale ex_ev ex_long 5 3 with
  | Ret sh => krCombine AES true (fun _ => 512) [Some (nth 4 sh []); Some (nth 0 sh []); None; Some (nth 2 sh [])] 5 3 = Ret ex_long
  | _ => False
  end.
Proof. vm_compute. reflexivity. Qed.
END*)

Lemma krPiece_padded E key s t i : 0 < t <= 256 -> i < t -> krPiece E key s t i = padded_piece t i (krCipher E key s).
Proof. intros Ht Hi. rewrite krPiece_data by lia. unfold rsData. rewrite nth_map_seq by exact Hi. reflexivity. Qed.

(** the tags of the metadata shares of krawczyk.SplitWithRandomizer *)
Lemma krSWR_tags fuel ar growcap ks polB trB evBufs m parts threshold ms i :
  grow_ok growcap -> (parts < 20)%Z -> NoDup (map ks (seq 0 (Z.to_nat parts))) ->
  SplitWithRandomizer fuel ar growcap ks polB trB evBufs m parts threshold = Ret ms -> i < Z.to_nat parts ->
  tag (nth i ms []) = badd (ks i) x01.
Proof.
  intros G Hp ND R Hi. destruct (SWR_inv _ _ _ _ _ _ _ _ _ _ _ G R) as (V & xs & Ex & Es). pose proof V as (Hs & H2 & H3 & H4).
  assert (Hb : b2i (z2b parts) = Z.to_nat parts) by (apply b2i_z2b; lia).
  pose proof (GetUniqueBytes_0 fuel ks (z2b parts) xs ltac:(lia) Ex) as P. rewrite Hb in P.
  pose proof (picks_unique _ _ _ _ P (picks_distinct ks _ ND)) as Exs. subst xs.
  rewrite Es. rewrite (nth_map' _ _ i [] x00) by (rewrite tagsOf_length; [lia|rewrite take_stream_length; lia]).
  rewrite tag_share_at, nth_tagsOf by (rewrite ?take_stream_length; lia). unfold take_stream. rewrite nth_map_seq by exact Hi. reflexivity.
Qed.

(** C38: with fewer than 20 parts and distinct leading key stream bytes, byte [i] of the AES key is the tag of metadata share [i]
    minus one. *)
Lemma C38_key_published_pf : forall fuel E zp ar growcap ks polB trB evBufs secret parts threshold shares,
  grow_ok growcap -> (parts < 20)%Z -> NoDup (map ks (seq 0 (Z.to_nat parts))) ->
  krSplitWithRandomizer fuel E zp ar growcap ks polB trB evBufs secret parts threshold = Ret shares ->
  exists key ciphertext, length key = 16 /\ ofb_cipher E key secret ciphertext /\
    (forall i, i < Z.to_nat threshold -> kr_piece (nth i shares []) = padded_piece (Z.to_nat threshold) i ciphertext) /\
    forall i, i < Z.to_nat parts -> i < 16 -> nth i key x00 = bsub (tag (kr_meta (nth i shares []))) x01.
Proof.
  intros fuel E zp ar growcap ks polB trB evBufs secret parts threshold shares G Hp ND R.
  destruct (krSWR_inv _ _ _ _ _ _ _ _ _ _ _ _ _ G R) as (V & Hk & ms & polys & tags & E1 & E2 & S & ->). pose proof V as (Hs & HL & H2 & H3 & H4 & Hz).
  assert (M : forall i, i < Z.to_nat parts -> length (nth i ms []) = 21).
  { intros i Hi. rewrite (is_sharing_lengths _ _ _ _ _ i S) by lia. rewrite krMeta_length by exact Hk. reflexivity. }
  exists (Read ks (zeros 16)), (krCipher E (Read ks (zeros 16)) secret). split; [exact Hk|]. split; [apply ofb_cipher_iff; reflexivity|]. split.
  - intros i Hi. rewrite nth_map_seq by lia. rewrite krShare_piece by (apply M; lia). apply krPiece_padded; lia.
  - intros i Hi H16. rewrite nth_map_seq by exact Hi. rewrite krShare_meta by (apply M, Hi).
    rewrite (krSWR_tags _ _ _ _ _ _ _ _ _ _ _ i G Hp ND E1 Hi), bsub_badd, Read_zeros. unfold take_stream. rewrite nth_map_seq by exact H16. reflexivity.
Qed.

Lemma firstn_concat_rows per (l : list byte) k n : k <= n -> length l = n * per ->
  concat (map (row per l) (seq 0 k)) = firstn (k * per) l.
Proof.
  intros Hk Hl. rewrite <- (concat_rows per k (firstn (k * per) l)) by (rewrite firstn_length; nia). f_equal. apply map_ext_in.
  intros i Hi. apply in_seq in Hi. unfold row. rewrite skipn_firstn_comm, firstn_firstn. f_equal. nia.
Qed.

(** C38: 16 shares, though fewer than [threshold], decrypt the part of the secret they carry. *)
Lemma C38_sixteen_decrypt_pf : forall fuel E zp rd ar growcap ks polB trB evBufs secret parts threshold shares,
  (forall i, 0 < rd i) -> grow_ok growcap -> (parts < 20)%Z -> (16 < threshold)%Z -> NoDup (map ks (seq 0 (Z.to_nat parts))) ->
  krSplitWithRandomizer fuel E zp ar growcap ks polB trB evBufs secret parts threshold = Ret shares ->
  let coalition16 := firstn 16 shares in
  let key := map (fun s => bsub (tag (kr_meta s)) x01) coalition16 in
  length coalition16 = 16 /\
  exists plain, decrypt E rd (concat (map kr_piece coalition16)) key = Ret plain /\
    firstn (length secret) plain = firstn (16 * ceil_div (length secret) (Z.to_nat threshold)) secret.
Proof.
  intros fuel E zp rd ar growcap ks polB trB evBufs secret parts threshold shares Hrd G Hp Ht ND R coalition16 key.
  destruct (krSWR_inv _ _ _ _ _ _ _ _ _ _ _ _ _ G R) as (V & Hk & ms & polys & tags & E1 & E2 & S & Esh). pose proof V as (Hs & HL & H2 & H3 & H4 & Hz).
  assert (M : forall i, i < Z.to_nat parts -> length (nth i ms []) = 21).
  { intros i Hi. rewrite (is_sharing_lengths _ _ _ _ _ i S) by lia. rewrite krMeta_length by exact Hk. reflexivity. }
  set (t := Z.to_nat threshold) in *. set (K := Read ks (zeros 16)) in *.
  assert (Ec : coalition16 = map (krShare E K secret t ms) (seq 0 16)).
  { unfold coalition16. rewrite Esh, firstn_map, firstn_seq' by lia. reflexivity. }
  assert (Ek : key = K).
  { unfold key. rewrite Ec, map_map. unfold K. rewrite Read_zeros. unfold take_stream. apply map_ext_in. intros i Hi. apply in_seq in Hi.
    rewrite krShare_meta by (apply M; lia). rewrite (krSWR_tags _ _ _ _ _ _ _ _ _ _ _ i G Hp ND E1) by lia. apply bsub_badd. }
  split; [rewrite Ec, map_length, seq_length; reflexivity|].
  rewrite Ek. eexists. split; [apply decrypt_ok; [exact Hrd|apply aes16, Hk]|].
  assert (Ep : map kr_piece coalition16 = map (row (rsPerShard t (length secret)) (rsPad t (krCipher E K secret))) (seq 0 16)).
  { rewrite Ec, map_map. apply map_ext_in. intros i Hi. apply in_seq in Hi. rewrite krShare_piece by (apply M; lia).
    rewrite krPiece_data by lia. unfold rsData. rewrite nth_map_seq by lia. rewrite krCipher_length. reflexivity. }
  rewrite Ep, (firstn_concat_rows _ _ 16 t) by (try lia; rewrite rsPad_length, krCipher_length by lia; reflexivity).
  rewrite <- xorStream_firstn, firstn_firstn, Nat.min_comm, <- firstn_firstn. change (ceil_div (length secret) t) with (rsPerShard t (length secret)). f_equal.
  unfold rsPad. rewrite xorStream_app, firstn_app, xorStreamFrom_length, krCipher_length, Nat.sub_diag, firstn_O, app_nil_r.
  unfold krCipher. rewrite xorStream_twice. apply firstn_all2. lia.
Qed.

(*COPY
(** 16 of 19 shares with threshold 18, AES: all of the secret's pieces carried by shares 0..15 are recovered *)
Example C38_run :
  NoDup (map ex_stream (seq 0 19)) /\
  match krSplitWithRandomizer 3 AES true ex_ar growcap117 ex_stream ex_stale ex_stale ex_ev ex_long 19 18 with
  | Ret sh => match decrypt AES (fun _ => 512) (concat (map kr_piece (firstn 16 sh))) (map (fun s => bsub (tag (kr_meta s)) x01) (firstn 16 sh)) with
              | Ret plain => firstn 41 plain = ex_long
              | _ => False end
  | _ => False
  end.
Proof. split; [|vm_compute; reflexivity]. assert (H : map ex_stream (seq 0 19) = nodup byte_eq_dec (map ex_stream (seq 0 19))) by (vm_compute; reflexivity). rewrite H. apply NoDup_nodup. Qed.
END*)

Lemma xor_bytes_stream ks a : forall b off, length a = length b -> xor_bytes (xorStreamFrom ks off a) (xorStreamFrom ks off b) = xor_bytes a b.
Proof.
  induction a as [|x a IH]; intros [|y b] off L; cbn [length] in L; try discriminate; [reflexivity|].
  cbn [xorStreamFrom xor_bytes]. f_equal; [|apply IH; congruence]. generalize (ks off). clear. intros k.
  change (gadd (gadd x k) (gadd y k) = gadd x y). transitivity (gadd (gadd x y) (gadd k k)); [ring|]. rewrite gadd_self. ring.
Qed.

Lemma xor_bytes_app a b : forall c d, length a = length c -> xor_bytes (a ++ b) (c ++ d) = xor_bytes a c ++ xor_bytes b d.
Proof. induction a as [|x a IH]; intros [|y c] d L; cbn [length] in L; try discriminate; [reflexivity|]. cbn [app xor_bytes]. f_equal. apply IH. congruence. Qed.
Lemma xor_bytes_firstn n : forall a b, xor_bytes (firstn n a) (firstn n b) = firstn n (xor_bytes a b).
Proof. induction n as [|n IH]; intros [|x a] [|y b]; cbn [firstn xor_bytes]; try reflexivity. f_equal. apply IH. Qed.
Lemma xor_bytes_skipn n : forall a b, length a = length b -> xor_bytes (skipn n a) (skipn n b) = skipn n (xor_bytes a b).
Proof. induction n as [|n IH]; intros [|x a] [|y b] L; cbn [length] in L; try discriminate; try reflexivity. cbn [skipn xor_bytes]. apply IH. congruence. Qed.

Lemma xor_padded t i a b a' b' : length a = length b -> length a' = length b' -> length a = length a' -> xor_bytes a b = xor_bytes a' b' ->
  xor_bytes (padded_piece t i a) (padded_piece t i b) = xor_bytes (padded_piece t i a') (padded_piece t i b').
Proof.
  intros L L' L0 H. unfold padded_piece. cbv zeta. rewrite <- L, <- L', <- L0. rewrite !xor_bytes_firstn. f_equal.
  rewrite !xor_bytes_skipn by (rewrite !app_length; lia). f_equal. rewrite !xor_bytes_app by assumption. f_equal. exact H.
Qed.

(** C39: two secrets of equal length split with the same randomizer: the XOR of the data parts is the XOR of the pieces. *)
Lemma C39_two_time_pad_pf : forall fuel fuel' E zp ar ar' growcap growcap' ks polB polB' trB trB' evBufs evBufs' s s' parts parts' threshold shares shares' i,
  grow_ok growcap -> grow_ok growcap' -> length s = length s' -> i < Z.to_nat threshold ->
  krSplitWithRandomizer fuel E zp ar growcap ks polB trB evBufs s parts threshold = Ret shares ->
  krSplitWithRandomizer fuel' E zp ar' growcap' ks polB' trB' evBufs' s' parts' threshold = Ret shares' ->
  xor_bytes (kr_piece (nth i shares [])) (kr_piece (nth i shares' [])) =
  xor_bytes (padded_piece (Z.to_nat threshold) i s) (padded_piece (Z.to_nat threshold) i s').
Proof.
  intros fuel fuel' E zp ar ar' growcap growcap' ks polB polB' trB trB' evBufs evBufs' s s' parts parts' threshold shares shares' i G G' L Hi R R'.
  assert (A : forall fuel ar growcap polB trB evBufs parts s shares, grow_ok growcap ->
     krSplitWithRandomizer fuel E zp ar growcap ks polB trB evBufs s parts threshold = Ret shares ->
     kr_piece (nth i shares []) = padded_piece (Z.to_nat threshold) i (krCipher E (Read ks (zeros 16)) s)).
  { clear - Hi. intros fuel ar growcap polB trB evBufs parts s shares G R.
    destruct (krSWR_inv _ _ _ _ _ _ _ _ _ _ _ _ _ G R) as (V & Hk & ms & polys & tags & E1 & E2 & S & ->). pose proof V as (Hs & HL & H2 & H3 & H4 & Hz).
    rewrite nth_map_seq by lia. rewrite krShare_piece; [apply krPiece_padded; lia|].
    rewrite (is_sharing_lengths _ _ _ _ _ i S) by lia. rewrite krMeta_length by exact Hk. reflexivity. }
  rewrite (A _ _ _ _ _ _ _ _ _ G R), (A _ _ _ _ _ _ _ _ _ G' R').
  apply xor_padded; rewrite ?krCipher_length; try assumption; try reflexivity. unfold krCipher. apply xor_bytes_stream, L.
Qed.

(*COPY
Example C39_run :
  match krSplitWithRandomizer 3 AES true ex_ar growcap117 ex_stream [] ex_stale ex_ev ex_long 5 3,
        krSplitWithRandomizer 3 AES true ex_ar growcap117 ex_stream ex_stale [] ex_ev (repeat x00 41) 5 3 with
  | Ret sh, Ret sh' => xor_bytes (kr_piece (nth 1 sh [])) (kr_piece (nth 1 sh' [])) = padded_piece 3 1 ex_long
  | _, _ => False
  end.
Proof. vm_compute. reflexivity. Qed.
END*)

(** C41: encrypt and decrypt are inverse, for every block function and every read size. *)
Lemma C41_encrypt_decrypt_pf : forall E rd m key, (forall i, 0 < rd i) ->
  (length key = 16 \/ length key = 24 \/ length key = 32 ->
     exists c, encrypt E m key = Ret c /\ length c = length m /\ decrypt E rd c key = Ret m) /\
  (~ (length key = 16 \/ length key = 24 \/ length key = 32) ->
     encrypt E m key = Fail EKeySize /\ decrypt E rd m key = Fail EKeySize).
Proof.
  intros E rd m key Hrd. split; intros H.
  - assert (K : aesKeyOk key = true) by (unfold aesKeyOk; destruct H as [->|[->| ->]]; reflexivity).
    eexists. split; [apply encrypt_ok, K|]. split; [apply xorStreamFrom_length|]. rewrite decrypt_ok by assumption. rewrite xorStream_twice. reflexivity.
  - assert (K : aesKeyOk key = false).
    { unfold aesKeyOk. destruct (Nat.eqb_spec (length key) 16); [tauto|]. destruct (Nat.eqb_spec (length key) 24); [tauto|]. destruct (Nat.eqb_spec (length key) 32); [tauto|]. reflexivity. }
    unfold encrypt, decrypt. rewrite K. split; reflexivity.
Qed.

(** C41: what encrypt computes: OFB with an all-zero IV. *)
Lemma C41_ofb_pf : forall E m key c, length key = 16 \/ length key = 24 \/ length key = 32 ->
  (encrypt E m key = Ret c <-> ofb_cipher E key m c).
Proof.
  intros E m key c H. assert (K : aesKeyOk key = true) by (unfold aesKeyOk; destruct H as [->|[->| ->]]; reflexivity).
  rewrite encrypt_ok by exact K. rewrite ofb_cipher_iff. split; [intros X; injection X as <-; reflexivity|intros ->; reflexivity].
Qed.

(** C41: encryption acts on prefixes, and is linear: same key, same mask. *)
Lemma C41_prefix_pf : forall E m m' key c c', encrypt E m key = Ret c -> encrypt E m' key = Ret c' ->
  (forall n, encrypt E (firstn n m) key = Ret (firstn n c)) /\
  (length m = length m' -> xor_bytes c c' = xor_bytes m m').
Proof.
  intros E m m' key c c' R R'. unfold encrypt in *. destruct (aesKeyOk key); [|discriminate]. injection R as <-. injection R' as <-. split.
  - intros n. rewrite xorStream_firstn. reflexivity.
  - apply xor_bytes_stream.
Qed.

(*COPY
Example C41_run : exists c,
  encrypt AES (repeat x00 20) (repeat x01 16) = Ret c /\ decrypt AES (fun i => S i) c (repeat x01 16) = Ret (repeat x00 20) /\ c <> repeat x00 20 /\
  encrypt AES [x00] (repeat x01 15) = Fail EKeySize.
Proof. eexists. split; [vm_compute; reflexivity|]. split; [vm_compute; reflexivity|]. split; [discriminate|reflexivity]. Qed.
END*)
