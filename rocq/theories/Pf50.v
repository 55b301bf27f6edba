(** Proofs about how many wrong krawczyk shares can be corrected (C95). *)
From Coq Require Import List NArith ZArith Lia Arith Bool Permutation.
From Coq.Init Require Import Byte.
From Verif Require Import GoSem Bytes Spec SpecDetect DetectFacts GF PolyFacts GoFacts Vector Csprng Pool Shamir Libs AES Krawczyk SplitFacts CombineFacts Secrecy SpecKr KrawczykFacts KrawczykCombine CountFacts KrawczykContract ExData VectorFacts RegenFacts Pf6 Pf12 Pf36 Pf47.
Import ListNotations.

(*PROPS
From Coq Require Import List NArith ZArith Lia Arith Bool Permutation.
From Coq.Init Require Import Byte.
From Verif Require Import GoSem Bytes Spec SpecKr SpecDetect Vector Csprng Pool Shamir Libs AES Krawczyk ExData Pf50.
Import ListNotations.
*)

Lemma first_byte_pieces E key x y l t i : 2 <= t -> t <= 256 -> 1 <= i -> i < t -> krPiece E key (x :: l) t i = krPiece E key (y :: l) t i.
Proof.
  intros Ht H256 H1 Hi. unfold krPiece. cbv zeta. rewrite !krCipher_length. unfold krCipher. cbn [xorStreamFrom].
  set (tl := xorStreamFrom _ _ l). assert (Lt : length tl = length l) by apply xorStreamFrom_length.
  assert (P : 0 < rsPerShard t (S (length l))) by (pose proof (rsPerShard_bounds t (S (length l)) ltac:(lia)); nia).
  assert (RD : forall a, length (rsData t (a :: tl)) = t) by (intros a; unfold rsData; rewrite map_length; apply seq_length).
  assert (NR : forall a, nth i (rsData t (a :: tl)) [] = row (rsPerShard t (S (length l))) (rsPad t (a :: tl)) i).
  { intros a. unfold rsData. rewrite nth_map_seq by exact Hi. cbn [length]. rewrite Lt. reflexivity. }
  assert (LR : forall a, length (row (rsPerShard t (S (length l))) (rsPad t (a :: tl)) i) = rsPerShard t (S (length l))).
  { intros a. unfold row. rewrite firstn_length, skipn_length. pose proof (rsPad_length t (a :: tl) ltac:(lia)) as LP. cbn [length] in LP. rewrite Lt in LP. nia. }
  cbn [length]. rewrite !cw_data by (try apply RD; try (rewrite NR; apply LR); lia). rewrite !NR.
  unfold row, rsPad. cbn [length]. f_equal. destruct (rsPerShard t (S (length l)) * i) as [|m] eqn:M; [nia|]. reflexivity.
Qed.

Lemma limit_core E zp key share x l parts threshold ms e shares :
  kr_valid_args zp (x :: l) parts threshold -> length key = 16 ->
  share (krMeta key (length (x :: l))) parts threshold = Ret ms -> length ms = Z.to_nat parts -> (forall i, i < Z.to_nat parts -> length (nth i ms []) = 21) ->
  1 <= e ->
  krSplitWith E zp key share (x :: l) parts threshold = Ret shares ->
  exists secret' shares' received,
    length secret' = length (x :: l) /\ secret' <> x :: l /\
    krSplitWith E zp key share secret' parts threshold = Ret shares' /\
    map kr_meta shares' = map kr_meta shares /\
    claims_to_be received shares /\ wrong received shares <= e /\
    claims_to_be received shares' /\ ((parts < threshold + 2 * Z.of_nat e)%Z -> wrong received shares' <= e) /\
    (forall i, i < Z.to_nat threshold + e - 1 -> i < Z.to_nat parts -> nth i received [] = nth i shares' []).
Proof.
  intros V Hk Sh Lm Hms He R. pose proof V as (Hs & HL & H2 & H3 & H4 & Hz).
  set (y := gadd x x01). assert (Hy : y <> x). { intros F. assert (Z : gadd x y = x01) by (unfold y; transitivity (gadd (gadd x x) x01); [ring|]; rewrite gadd_self; apply gadd_0_l). rewrite F, gadd_self in Z. discriminate. }
  assert (V' : kr_valid_args zp (y :: l) parts threshold) by (repeat split; try assumption; discriminate).
  rewrite (krSplitWith_ok E zp key share (x :: l) parts threshold ms V Hk Sh Lm Hms) in R. injection R as <-.
  pose proof (krSplitWith_ok E zp key share (y :: l) parts threshold ms V' Hk Sh Lm Hms) as R'.
  set (n := Z.to_nat parts) in *. set (t := Z.to_nat threshold) in *. assert (Ht : 2 <= t) by (unfold t; lia). assert (H256 : n <= 255) by (unfold n; lia).
  assert (Htn : t <= n) by (unfold t, n; lia). assert (Hl : (parts < threshold + 2 * Z.of_nat e)%Z -> n < t + 2 * e) by (unfold t, n; lia). clearbody n t.
  set (f := krShare E key (x :: l) t ms) in *. set (f' := krShare E key (y :: l) t ms) in *.
  assert (Same : forall i, 1 <= i -> i < t -> f i = f' i).
  { intros i I1 I2. unfold f, f', krShare. rewrite (first_byte_pieces E key x y l t i) by (assumption || lia). reflexivity. }
  assert (Lf : forall i, i < n -> length (f i) = length (f' i)).
  { intros i I. unfold f, f', krShare. rewrite !app_length, !krPiece_length. reflexivity. }
  assert (Tf : forall i, tag (f i) = i2b i /\ tag (f' i) = i2b i).
  { intros i. unfold f, f', krShare, tag. rewrite !app_assoc, !last_last. split; reflexivity. }
  assert (Mf : forall i, i < n -> kr_meta (f i) = kr_meta (f' i)).
  { intros i I. unfold f, f', krShare, kr_meta. rewrite !firstn_app, (Hms i I), Nat.sub_diag, !firstn_O. reflexivity. }
  set (who := fun i => (i =? 0) || ((t <=? i) && (i <? t + e - 1))).
  set (g := fun i => if who i then f' i else f i).
  exists (y :: l), (map f' (seq 0 n)), (map g (seq 0 n)). split; [reflexivity|]. split; [intros F; injection F as F; contradiction|]. split; [exact R'|].
  split; [rewrite !map_map; apply map_ext_in; intros i I; apply in_seq in I; symmetry; apply Mf; lia|].
  assert (Cl : forall i, i < n -> length (g i) = length (f i) /\ tag (g i) = tag (f i)).
  { intros i I. unfold g. destruct (who i); [|split; reflexivity]. split; [symmetry; apply Lf, I|]. destruct (Tf i) as (T1 & T2). congruence. }
  assert (Wr : forall h, wrong (map g (seq 0 n)) (map h (seq 0 n)) = length (filter (fun j => if list_eq_dec byte_eq_dec (g j) (h j) then false else true) (seq 0 n))).
  { intros h. rewrite wrong_length by (rewrite !map_length; reflexivity). rewrite map_length, seq_length. f_equal. apply filter_ext_in. intros j J. apply in_seq in J.
    rewrite !nth_map_seq by lia. reflexivity. }
  assert (Zero : forall h, length (filter (fun j => if list_eq_dec byte_eq_dec (g j) (h j) then false else true) (seq 0 n)) =
     (if list_eq_dec byte_eq_dec (g 0) (h 0) then 0 else 1) + length (filter (fun j => if list_eq_dec byte_eq_dec (g j) (h j) then false else true) (seq 1 (n - 1)))).
  { intros h. replace n with (S (n - 1)) at 1 by lia. cbn [seq filter]. destruct (list_eq_dec byte_eq_dec (g 0) (h 0)); reflexivity. }
  assert (Bound : forall h a b, (forall j, 1 <= j -> j < n -> g j <> h j -> a <= j < a + b) ->
     length (filter (fun j => if list_eq_dec byte_eq_dec (g j) (h j) then false else true) (seq 1 (n - 1))) <= b).
  { intros h a b Hb. rewrite <- (seq_length b a). apply NoDup_incl_length; [apply NoDup_filter, seq_NoDup|]. intros j Hj. apply filter_In in Hj as [J1 J2].
    apply in_seq in J1. apply in_seq. apply Hb; [lia|lia|]. destruct (list_eq_dec byte_eq_dec (g j) (h j)); [discriminate|assumption]. }
  split; [|split; [|split; [|split]]].
  - split; rewrite !map_map; apply map_ext_in; intros i I; apply in_seq in I; apply Cl; lia.
  - rewrite Wr, Zero. specialize (Bound f t (e - 1)). destruct (list_eq_dec byte_eq_dec (g 0) (f 0)); cut (length (filter (fun j => if list_eq_dec byte_eq_dec (g j) (f j) then false else true) (seq 1 (n - 1))) <= e - 1); try lia;
      apply Bound; intros j J1 J2 J3; unfold g in J3; destruct (who j) eqn:W; try congruence; unfold who in W; apply orb_true_iff in W as [W|W];
      [apply Nat.eqb_eq in W; lia|apply andb_true_iff in W as (W1 & W2); apply Nat.leb_le in W1; apply Nat.ltb_lt in W2; lia
      |apply Nat.eqb_eq in W; lia|apply andb_true_iff in W as (W1 & W2); apply Nat.leb_le in W1; apply Nat.ltb_lt in W2; lia].
  - split; rewrite !map_map; apply map_ext_in; intros i I; apply in_seq in I; destruct (Cl i ltac:(lia)) as (C1 & C2); [rewrite C1; apply Lf; lia|rewrite C2; destruct (Tf i) as (T1 & T2); congruence].
  - intros Hq. specialize (Hl Hq). rewrite Wr, Zero. assert (G0 : g 0 = f' 0) by reflexivity. destruct (list_eq_dec byte_eq_dec (g 0) (f' 0)); [|contradiction].
    cut (length (filter (fun j => if list_eq_dec byte_eq_dec (g j) (f' j) then false else true) (seq 1 (n - 1))) <= e); [lia|].
    apply (Bound f' (t + e - 1) e). intros j J1 J2 J3. unfold g in J3. destruct (who j) eqn:W; [congruence|]. unfold who in W. apply orb_false_iff in W as (_ & W).
    destruct (Nat.lt_ge_cases j t) as [Y|Y]; [exfalso; apply J3, Same; assumption|]. apply andb_false_iff in W as [W|W]; [apply Nat.leb_gt in W; lia|apply Nat.ltb_ge in W; lia].
  - intros i I1 I2. rewrite !nth_map_seq by exact I2. unfold g, who. destruct (Nat.eqb_spec i 0) as [->|N0]; [reflexivity|]. cbn [orb].
    destruct (Nat.leb_spec t i) as [Y|Y]; [|cbn [andb]; apply Same; lia]. destruct (Nat.ltb_spec i (t + e - 1)) as [_|Z]; [reflexivity|lia].
Qed.


Lemma run_split : forall E zp ar growcap krand perm stream polB trB evBufs secret parts threshold e shares,
  grow_ok growcap -> Permutation perm (seq 0 255) -> 1 <= e ->
  krSplit E zp ar growcap krand perm stream polB trB evBufs secret parts threshold = Ret shares ->
  exists secret' shares' received,
    length secret' = length secret /\ secret' <> secret /\
    krSplit E zp ar growcap krand perm stream polB trB evBufs secret' parts threshold = Ret shares' /\
    map kr_meta shares' = map kr_meta shares /\
    claims_to_be received shares /\ wrong received shares <= e /\
    claims_to_be received shares' /\ ((parts < threshold + 2 * Z.of_nat e)%Z -> wrong received shares' <= e) /\
    (forall i, i < Z.to_nat threshold + e - 1 -> i < Z.to_nat parts -> nth i received [] = nth i shares' []).
Proof.
  intros E zp ar growcap krand perm stream polB trB evBufs secret parts threshold e shares G P He R.
  assert (V : kr_valid_args zp secret parts threshold) by (apply (C34_contract_pf E zp ar growcap krand perm stream polB trB evBufs secret parts threshold G P); exists shares; exact R).
  destruct (krSplit_ok E zp ar growcap krand perm stream polB trB evBufs secret parts threshold G P V) as (ms & polys & E1 & E2 & S & _).
  destruct secret as [|x l]; [destruct V; congruence|].
  apply (limit_core E zp (take_stream krand 16) _ x l parts threshold ms e shares V); try assumption; [apply take_stream_length|].
  intros i Hi. rewrite (is_sharing_lengths _ _ _ _ _ i S) by lia. rewrite krMeta_length by apply take_stream_length. reflexivity.
Qed.

Lemma run_randomizer : forall fuel E zp ar growcap ks polB trB evBufs secret parts threshold e shares,
  grow_ok growcap -> 1 <= e ->
  krSplitWithRandomizer fuel E zp ar growcap ks polB trB evBufs secret parts threshold = Ret shares ->
  exists secret' shares' received,
    length secret' = length secret /\ secret' <> secret /\
    krSplitWithRandomizer fuel E zp ar growcap ks polB trB evBufs secret' parts threshold = Ret shares' /\
    map kr_meta shares' = map kr_meta shares /\
    claims_to_be received shares /\ wrong received shares <= e /\
    claims_to_be received shares' /\ ((parts < threshold + 2 * Z.of_nat e)%Z -> wrong received shares' <= e) /\
    (forall i, i < Z.to_nat threshold + e - 1 -> i < Z.to_nat parts -> nth i received [] = nth i shares' []).
Proof.
  intros fuel E zp ar growcap ks polB trB evBufs secret parts threshold e shares G He R.
  destruct (krSWR_inv _ _ _ _ _ _ _ _ _ _ _ _ _ G R) as (V & Hk & ms & polys & tags & E1 & E2 & S & _).
  destruct secret as [|x l]; [destruct V; congruence|].
  apply (limit_core E zp (Read ks (zeros 16)) _ x l parts threshold ms e shares V); try assumption.
  intros i Hi. rewrite (is_sharing_lengths _ _ _ _ _ i S) by lia. rewrite krMeta_length by exact Hk. reflexivity.
Qed.

(** shares that are those of another run combine to its secret *)
Lemma agree_core E zp rd (secret' : list byte) parts threshold (shares' received : list (list byte)) m :
  (forall ss is, selection (Z.to_nat parts) (Z.to_nat threshold) is -> somes ss = pick [] shares' is -> krCombine E zp rd ss parts threshold = Ret secret') ->
  m <= Z.to_nat parts -> (forall i, i < m -> nth i received [] = nth i shares' []) ->
  consistent (fun ps => krCombine E zp rd (map Some ps) parts threshold) received (Z.to_nat threshold) (seq 0 m) secret'.
Proof.
  intros K Hm Heq ks Nk Lk Hk. apply (K _ ks).
  - split; [exact Nk|]. split; [|lia]. intros i I. apply Hk, in_seq in I. lia.
  - assert (SM : forall l : list (list byte), somes (map Some l) = l) by (induction l as [|a l IH]; [reflexivity|cbn [map somes]; rewrite IH; reflexivity]).
    rewrite SM. unfold pick. apply map_ext_in. intros i I. apply Hk, in_seq in I. apply Heq. lia.
Qed.

(** C95: why [threshold]+2[e] shares are needed. If krawczyk.Split made fewer than [threshold]+2[e] shares, then for every run there are another secret of the same
    length and received shares that are all the shares of the first run with at most [e] altered (length, metadata and index intact) and all the shares that Split makes of the
    other secret from the same random bytes with at most [e] altered: nobody can tell which secret was shared. *)
Lemma C95_limit_split_pf : forall E zp ar growcap krand perm stream polB trB evBufs secret parts threshold e shares,
  grow_ok growcap -> Permutation perm (seq 0 255) -> 1 <= e -> (parts < threshold + 2 * Z.of_nat e)%Z ->
  krSplit E zp ar growcap krand perm stream polB trB evBufs secret parts threshold = Ret shares ->
  exists secret' shares' received,
    length secret' = length secret /\ secret' <> secret /\
    krSplit E zp ar growcap krand perm stream polB trB evBufs secret' parts threshold = Ret shares' /\
    map kr_meta shares' = map kr_meta shares /\
    claims_to_be received shares /\ wrong received shares <= e /\
    claims_to_be received shares' /\ wrong received shares' <= e.
Proof.
  intros E zp ar growcap krand perm stream polB trB evBufs secret parts threshold e shares G P He Hlim R.
  destruct (run_split E zp ar growcap krand perm stream polB trB evBufs secret parts threshold e shares G P He R) as (s' & sh' & rc & X1 & X2 & X3 & X4 & X5 & X6 & X7 & X8 & _).
  exists s', sh', rc. repeat (split; [assumption|]). apply X8, Hlim.
Qed.

Lemma C95_limit_randomizer_pf : forall fuel E zp ar growcap ks polB trB evBufs secret parts threshold e shares,
  grow_ok growcap -> 1 <= e -> (parts < threshold + 2 * Z.of_nat e)%Z ->
  krSplitWithRandomizer fuel E zp ar growcap ks polB trB evBufs secret parts threshold = Ret shares ->
  exists secret' shares' received,
    length secret' = length secret /\ secret' <> secret /\
    krSplitWithRandomizer fuel E zp ar growcap ks polB trB evBufs secret' parts threshold = Ret shares' /\
    map kr_meta shares' = map kr_meta shares /\
    claims_to_be received shares /\ wrong received shares <= e /\
    claims_to_be received shares' /\ wrong received shares' <= e.
Proof.
  intros fuel E zp ar growcap ks polB trB evBufs secret parts threshold e shares G He Hlim R.
  destruct (run_randomizer fuel E zp ar growcap ks polB trB evBufs secret parts threshold e shares G He R) as (s' & sh' & rc & X1 & X2 & X3 & X4 & X5 & X6 & X7 & X8 & _).
  exists s', sh', rc. repeat (split; [assumption|]). apply X8, Hlim.
Qed.

(** C95: why [threshold]+[e] agreeing shares are needed. In every run that makes at least [threshold]+[e]-1 shares, [e] of them can be altered (length, metadata and index intact) so
    that [threshold]+[e]-1 of them agree on a wrong secret of the same length: krawczyk.Combine returns it for any [threshold] of these. *)
Lemma C95_agree_split_pf : forall E zp rd ar growcap krand perm stream polB trB evBufs secret parts threshold e shares,
  (forall i, 0 < rd i) -> grow_ok growcap -> Permutation perm (seq 0 255) -> 1 <= e -> (threshold + Z.of_nat e - 1 <= parts)%Z ->
  krSplit E zp ar growcap krand perm stream polB trB evBufs secret parts threshold = Ret shares ->
  exists secret' received,
    length secret' = length secret /\ secret' <> secret /\
    claims_to_be received shares /\ wrong received shares <= e /\
    consistent (fun ps => krCombine E zp rd (map Some ps) parts threshold) received (Z.to_nat threshold) (seq 0 (Z.to_nat threshold + e - 1)) secret'.
Proof.
  intros E zp rd ar growcap krand perm stream polB trB evBufs secret parts threshold e shares Hrd G P He Hlim R.
  destruct (run_split E zp ar growcap krand perm stream polB trB evBufs secret parts threshold e shares G P He R) as (s' & sh' & rc & X1 & X2 & X3 & X4 & X5 & X6 & _ & _ & X9).
  exists s', rc. repeat (split; [assumption|]).
  assert (V : kr_valid_args zp s' parts threshold) by (apply (C34_contract_pf E zp ar growcap krand perm stream polB trB evBufs s' parts threshold G P); exists sh'; exact X3).
  destruct (C32_split_combine_pf E zp rd ar growcap krand perm stream polB trB evBufs s' parts threshold Hrd G P V) as (sh & R' & _ & K).
  rewrite X3 in R'. injection R' as <-. destruct V as (_ & _ & V2 & _).
  apply (agree_core E zp rd s' parts threshold sh'); [exact K|lia|]. intros i I. apply X9; lia.
Qed.

Lemma C95_agree_randomizer_pf : forall fuel E zp rd ar growcap ks polB trB evBufs secret parts threshold e shares,
  (forall i, 0 < rd i) -> grow_ok growcap -> 1 <= e -> (threshold + Z.of_nat e - 1 <= parts)%Z ->
  krSplitWithRandomizer fuel E zp ar growcap ks polB trB evBufs secret parts threshold = Ret shares ->
  exists secret' received,
    length secret' = length secret /\ secret' <> secret /\
    claims_to_be received shares /\ wrong received shares <= e /\
    consistent (fun ps => krCombine E zp rd (map Some ps) parts threshold) received (Z.to_nat threshold) (seq 0 (Z.to_nat threshold + e - 1)) secret'.
Proof.
  intros fuel E zp rd ar growcap ks polB trB evBufs secret parts threshold e shares Hrd G He Hlim R.
  destruct (run_randomizer fuel E zp ar growcap ks polB trB evBufs secret parts threshold e shares G He R) as (s' & sh' & rc & X1 & X2 & X3 & X4 & X5 & X6 & _ & _ & X9).
  exists s', rc. repeat (split; [assumption|]).
  destruct (C40_randomizer_combine_pf fuel E zp rd ar growcap ks polB trB evBufs s' parts threshold sh' Hrd G X3) as (_ & K).
  destruct (krSWR_inv _ _ _ _ _ _ _ _ _ _ _ _ _ G X3) as ((_ & _ & V2 & _) & _).
  apply (agree_core E zp rd s' parts threshold sh'); [exact K|lia|]. intros i I. apply X9; lia.
Qed.

(*COPY
(** Three shares with threshold 2, so e = 1 is over the limit: the shares of "hello" and of "iello" from the same random bytes. The received shares are those of "hello" except
    share 0, which is that of "iello": one wrong for "hello", and for "iello" just share 2 is wrong.
    The received shares 0 and 1, threshold+e-1, agree on "iello". *)
Example C95_run :
  let run s := krSplit AES true ex_ar growcap117 (fun i => i2b (5 * i + 9)) ex_perm ex_stream ex_stale ex_stale ex_ev s 3 2 in
  match run ex_secret, run (x69 :: tl ex_secret) with
  | Ret sh, Ret sh' =>
      let received := [nth 0 sh' []; nth 1 sh []; nth 2 sh []] in
      map kr_meta sh' = map kr_meta sh /\ wrong received sh = 1 /\ wrong received sh' = 1 /\ map tag received = map tag sh' /\ map (@length byte) received = map (@length byte) sh' /\
      map (fun ks => krCombine AES true (fun _ => 512) (map Some (pick [] received ks)) 3 2) [[0; 1]; [1; 0]] = repeat (Ret (x69 :: tl ex_secret)) 2
  | _, _ => False end.
Proof. vm_compute. repeat split; reflexivity. Qed.
END*)
