(** Closed forms of the split functions. *)
From Coq Require Import List NArith ZArith Lia Arith Bool.
From Coq.Init Require Import Byte.
From Verif Require Import GoSem Bytes Spec Galois GF PolyFacts Vector GoFacts VectorFacts Csprng Pool Polynomial PolynomialFacts Shamir.
Import ListNotations.

(** tags of the first [n] coordinates *)
Definition tagsOf (n : nat) (xs : list byte) : list byte := map (fun x => badd x x01) (firstn n xs).

Lemma tagOf_ok xs i : i < length xs -> tagOf xs i = Ret (badd (nth i xs x00) x01).
Proof. intros H. unfold tagOf. rewrite (idx_ok xs i x00) by exact H. reflexivity. Qed.

Lemma tagsOf_length n xs : n <= length xs -> length (tagsOf n xs) = n.
Proof. intros H. unfold tagsOf. rewrite map_length, firstn_length. lia. Qed.

Lemma nth_tagsOf n xs i : i < n -> n <= length xs -> nth i (tagsOf n xs) x00 = badd (nth i xs x00) x01.
Proof.
  intros Hi Hn. unfold tagsOf. rewrite (nth_map' (fun x => badd x x01) _ i x00 x00) by (rewrite firstn_length; lia).
  rewrite nth_firstn by exact Hi. reflexivity.
Qed.

Lemma layoutFlat_ok N n xs : n <= length xs ->
  exists buff, layoutFlat N n xs = Ret buff /\ length buff = (N + 1) * n /\
    forall i, i < n -> row (N + 1) buff i = zeros N ++ [badd (nth i xs x00) x01].
Proof.
  intros Hn. unfold layoutFlat.
  destruct (foreach_windows x00 (N + 1) n
    (fun i buff =>
       let s := (N + 1) * i in
       do w <- slice buff s (s + N + 1);
       do t <- tagOf xs i;
       do w' <- upd w N t;
       Ret (splice buff s w')) (fun i r => set_nth r N (badd (nth i xs x00) x01)) (zeros ((N + 1) * n))) as (o & E & L & R).
  - apply zeros_length.
  - intros i r Hi Hr. rewrite set_nth_length; lia.
  - intros i b Hi Hb. cbv zeta.
    replace ((N + 1) * i + N + 1) with ((N + 1) * i + (N + 1)) by lia.
    rewrite slice_row by nia. cbn [bind]. rewrite tagOf_ok by lia. cbn [bind].
    rewrite upd_ok by (rewrite row_length; nia). reflexivity.
  - exists o. split; [exact E|]. split; [exact L|]. intros i Hi. rewrite R by exact Hi.
    assert (Lr : length (row (N + 1) (zeros ((N + 1) * n)) i) = N + 1) by (apply row_length; rewrite zeros_length; nia).
    apply nth_ext with x00 x00.
    { rewrite set_nth_length by lia. rewrite app_length, zeros_length. cbn. lia. }
    intros k Hk. rewrite set_nth_length in Hk by lia. rewrite nth_set_nth by lia.
    destruct (Nat.eqb_spec k N) as [->|Hne].
    + rewrite app_nth2 by (rewrite zeros_length; lia). rewrite zeros_length, Nat.sub_diag. reflexivity.
    + rewrite app_nth1 by (rewrite zeros_length; lia). rewrite nth_row by lia. rewrite !nth_zeros. reflexivity.
Qed.

Lemma windows_ok N n buff : length buff = (N + 1) * n ->
  windows N n buff = Ret (map (row (N + 1) buff) (seq 0 n)).
Proof.
  intros H. unfold windows. apply foreach_append. intros i o Hi. cbv zeta.
  replace ((N + 1) * i + N + 1) with ((N + 1) * i + (N + 1)) by lia.
  rewrite slice_row by nia. reflexivity.
Qed.

Lemma evalLoop_ok ar growcap evBufs coef N n d xs buff : grow_ok growcap -> 0 < N -> n <= length xs ->
  length coef = N * (d + 1) -> length buff = (N + 1) * n ->
  exists o, evalLoop ar growcap evBufs coef N n xs buff = Ret o /\ length o = (N + 1) * n /\
    forall i, i < n -> row (N + 1) o i =
      map (hornerAt (row N coef) 0 d (badd (nth i xs x00) x01)) (seq 0 N) ++ skipn N (row (N + 1) buff i).
Proof.
  intros G HN Hn Hc Hb. unfold evalLoop.
  apply (foreach_windows x00 (N + 1) n _ (fun i r =>
     map (hornerAt (row N coef) 0 d (badd (nth i xs x00) x01)) (seq 0 N) ++ skipn N r)); [exact Hb| |].
  - intros i r Hi Hr. rewrite app_length, map_length, seq_length, skipn_length. lia.
  - intros i b Hi Hbl. cbv zeta.
    replace ((N + 1) * i + N + 1) with ((N + 1) * i + (N + 1)) by lia.
    rewrite slice_row by nia. cbn [bind]. rewrite tagOf_ok by lia. cbn [bind].
    assert (Lr : length (row (N + 1) b i) = N + 1) by (apply row_length; nia).
    rewrite slice_ok by lia. cbn [bind]. rewrite (evaluateFlat_ok ar growcap (evBufs i) coef N d); try assumption.
    + cbn [bind]. do 2 f_equal. rewrite splice_0_app, map_length, seq_length. reflexivity.
    + rewrite firstn_length, skipn_length. lia.
Qed.

(** Horner over rows of the transposed matrix is evaluation of the polynomial *)
Lemma hornerAt_poly rows t x p poly : 0 < t -> length poly = t ->
  (forall c, c < t -> nth p (rows c) x00 = nth c poly x00) ->
  hornerAt rows 0 (t - 1) x p = peval poly x.
Proof.
  intros Ht Hl H. rewrite peval_heval. unfold hornerAt. f_equal.
  rewrite (list_as_map poly x00), Hl. replace (S (t - 1) - 0) with t by lia.
  apply map_ext_in. intros c Hc. apply in_seq in Hc. apply H. lia.
Qed.

Lemma map_nth_poly {A B} (f : A -> B) (g : nat -> A) n l :
  l = map g (seq 0 n) -> map f l = map (fun i => f (g i)) (seq 0 n).
Proof. intros ->. apply map_map. Qed.

Lemma polysOf_length t secret buf : length (polysOf t secret buf) = length secret.
Proof. unfold polysOf. rewrite map_length, seq_length. reflexivity. Qed.

Lemma nth_polysOf t secret buf p : p < length secret -> nth p (polysOf t secret buf) [] = polyOf t buf secret p.
Proof. intros H. unfold polysOf. apply nth_map_seq. exact H. Qed.

Lemma polysOf_row_length t secret buf : 0 < t -> length buf = t * length secret ->
  Forall (fun p => length p = t) (polysOf t secret buf).
Proof.
  intros Ht Hb. apply Forall_forall. intros q Hq. unfold polysOf in Hq. apply in_map_iff in Hq as (p & <- & Hp).
  apply in_seq in Hp. apply polyOf_length; [exact Ht|nia].
Qed.

Lemma polysOf_intercepts t secret buf : map (fun p => nth 0 p x00) (polysOf t secret buf) = secret.
Proof.
  unfold polysOf. rewrite map_map. cbn [polyOf nth]. symmetry. apply list_as_map.
Qed.

(** the common tail of Split and SplitWithRandomizer: from filled buffer to shares *)
Lemma split_core ar growcap evBufs xs secret n t buf pol dest buff :
  grow_ok growcap -> 0 < length secret -> 0 < t -> n <= length xs ->
  length buf = t * length secret ->
  length pol = t * length secret ->
  (forall p, p < length secret -> row t pol p = polyOf t buf secret p) ->
  length dest = length pol ->
  length buff = (length secret + 1) * n ->
  (forall i, i < n -> row (length secret + 1) buff i = zeros (length secret) ++ [badd (nth i xs x00) x01]) ->
  exists coef, transposeMatrixBuffer dest pol t = Ret coef /\ length coef = length pol /\
    (forall c p, c < t -> p < length secret -> nth (length secret * c + p) coef x00 = nth c (polyOf t buf secret p) x00) /\
    exists o, evalLoop ar growcap evBufs coef (length secret) n xs buff = Ret o /\
      windows (length secret) n o = Ret (map (share_at (polysOf t secret buf)) (tagsOf n xs)).
Proof.
  intros G HN Ht Hn Hbuf Hpol Hrow Hdest Hbuff Hlay. set (N := length secret) in *.
  destruct (transposeMatrixBuffer_ok dest pol t N Ht Hpol Hdest) as (coef & E1 & L1 & V1).
  exists coef. split; [exact E1|]. split; [exact L1|].
  assert (Vc : forall c p, c < t -> p < N -> nth (N * c + p) coef x00 = nth c (polyOf t buf secret p) x00).
  { intros c p Hc Hp. rewrite V1 by assumption. rewrite <- nth_row by exact Hc. rewrite Hrow by exact Hp. reflexivity. }
  split; [exact Vc|].
  destruct (evalLoop_ok ar growcap evBufs coef N n (t - 1) xs buff) as (o & E2 & L2 & R2); try assumption.
  { rewrite L1, Hpol. replace (t - 1 + 1) with t by lia. lia. }
  exists o. split; [exact E2|]. rewrite windows_ok by exact L2. f_equal.
  unfold tagsOf. rewrite map_map.
  rewrite (map_as_seq _ (firstn n xs) x00). rewrite firstn_length, Nat.min_l by exact Hn.
  apply map_ext_in. intros i Hi. apply in_seq in Hi. rewrite R2 by lia. rewrite Hlay by lia.
  rewrite skipn_app_exact by apply zeros_length. rewrite nth_firstn by lia.
  unfold share_at. f_equal. unfold polysOf. rewrite map_map. fold N. apply map_ext_in. intros p Hp. apply in_seq in Hp.
  apply hornerAt_poly; [exact Ht| |].
  - apply polyOf_length; [exact Ht|]. rewrite Hbuf. nia.
  - intros c Hc. rewrite nth_row by lia. apply Vc; lia.
Qed.

Lemma checkArgs_None secret parts threshold : checkArgs secret parts threshold = None <->
  (2 <= threshold <= parts)%Z /\ (parts <= 255)%Z /\ secret <> [].
Proof.
  unfold checkArgs.
  destruct (Z.ltb_spec parts threshold); [split; [discriminate|lia]|].
  destruct (Z.ltb_spec 255 parts); [split; [discriminate|lia]|].
  destruct (Z.ltb_spec threshold 2); [split; [discriminate|lia]|].
  destruct (Z.ltb_spec 255 threshold); [split; [discriminate|lia]|].
  destruct (Nat.eqb_spec (length secret) 0) as [E|E].
  - split; [discriminate|]. intros (_ & _ & Hne). destruct secret; [congruence|discriminate].
  - split; [|reflexivity]. intros _. repeat split; try lia. intros ->. apply E. reflexivity.
Qed.

(** what a successful Split returns, with the buffers it puts back into the pool *)
Lemma SplitBufs_ok ar growcap perm stream polB trB evBufs secret parts threshold :
  grow_ok growcap -> checkArgs secret parts threshold = None -> (parts <= Z.of_nat (length perm))%Z ->
  let t := Z.to_nat threshold in let n := Z.to_nat parts in let N := length secret in
  let polys := polysOf t secret (take_stream stream (t * N)) in
  exists polB' trB',
    SplitBufs ar growcap perm stream polB trB evBufs secret parts threshold
      = Ret (map (share_at polys) (tagsOf n (map i2b perm)), polB', trB') /\
    length polB' = length (resetGrow growcap polB (t * N)) /\
    length trB' = length (resetGrow growcap trB (t * N)) /\
    (forall p c, p < N -> c < t -> nth (t * p + c) polB' x00 = nth c (nth p polys []) x00) /\
    (forall p c, p < N -> c < t -> nth (N * c + p) trB' x00 = nth c (nth p polys []) x00).
Proof.
  intros G Hck Hp t n N polys. unfold SplitBufs. rewrite Hck.
  apply checkArgs_None in Hck as (Ht & Hpp & Hs).
  assert (HN : 0 < N) by (destruct secret; [congruence|cbn; lia]).
  assert (Hdeg : Z.to_nat (threshold - 1) + 1 = t) by (unfold t; lia).
  assert (Ht0 : 0 < t) by lia.
  fold N n. cbv zeta. rewrite Hdeg.
  destruct (layoutFlat_ok N n (map i2b perm)) as (buff & E1 & L1 & R1); [rewrite map_length; lia|].
  rewrite E1. cbn [bind].
  pose proof (resetGrow_length growcap polB (t * N) G) as HG1.
  rewrite slice_ok by lia. cbn [bind]. unfold makePolynomialsWithBuff.
  rewrite firstn_length, skipn_length, Nat.sub_0_r, Nat.sub_0_r, Nat.min_l by exact HG1.
  destruct (setIntercepts_ok secret (Z.to_nat (threshold - 1)) (take_stream stream (t * N))) as (pol & E2 & L2 & R2).
  { rewrite take_stream_length, Hdeg. reflexivity. }
  rewrite Hdeg in L2, R2. rewrite E2. cbn [bind]. rewrite L2. fold N.
  pose proof (resetGrow_length growcap trB (t * N) G) as HG2.
  rewrite slice_ok by lia. cbn [bind].
  destruct (split_core ar growcap evBufs (map i2b perm) secret n t (take_stream stream (t * N)) pol
     (firstn (t * N - 0) (skipn 0 (resetGrow growcap trB (t * N)))) buff) as (coef & E3 & L3 & V3 & o & E4 & E5); try assumption.
  { rewrite map_length. lia. }
  { apply take_stream_length. }
  { rewrite firstn_length, skipn_length, L2. fold N. lia. }
  rewrite E3. cbn [bind]. fold N in E4, E5. rewrite E4. cbn [bind]. rewrite E5. cbn [bind].
  eexists _, _. split; [reflexivity|].
  fold N in L2, L3, V3, R2.
  assert (Lp : 0 + length pol <= length (resetGrow growcap polB (t * N))) by lia.
  assert (Lc : 0 + length coef <= length (resetGrow growcap trB (t * N))) by lia.
  split; [apply splice_length; exact Lp|]. split; [apply splice_length; exact Lc|].
  assert (Q : forall p, p < N -> nth p polys [] = polyOf t (take_stream stream (t * N)) secret p) by (intros p Hp'; apply nth_polysOf; exact Hp').
  split; intros p c Hp' Hc; rewrite (Q p Hp'); rewrite nth_splice by assumption.
  - cbn [Nat.leb andb Nat.add]. assert (t * p + c < t * N) by nia. rewrite Nat.sub_0_r.
    destruct (Nat.ltb_spec (t * p + c) (length pol)); [|lia].
    rewrite <- nth_row by exact Hc. rewrite R2 by exact Hp'. reflexivity.
  - cbn [Nat.leb andb Nat.add]. assert (N * c + p < t * N) by nia. rewrite Nat.sub_0_r.
    destruct (Nat.ltb_spec (N * c + p) (length coef)); [|lia]. apply V3; assumption.
Qed.

Lemma Split_ok ar growcap perm stream polB trB evBufs secret parts threshold :
  grow_ok growcap -> checkArgs secret parts threshold = None -> (parts <= Z.of_nat (length perm))%Z ->
  let t := Z.to_nat threshold in
  Split ar growcap perm stream polB trB evBufs secret parts threshold
  = Ret (map (share_at (polysOf t secret (take_stream stream (t * length secret)))) (tagsOf (Z.to_nat parts) (map i2b perm))).
Proof.
  intros G Hck Hp t. destruct (SplitBufs_ok ar growcap perm stream polB trB evBufs secret parts threshold G Hck Hp)
    as (p & q & E & _). unfold Split. rewrite E. reflexivity.
Qed.

Lemma xorStreamFrom_length ks off b : length (xorStreamFrom ks off b) = length b.
Proof. revert off; induction b as [|x b IH]; intros off; cbn; [reflexivity|]. f_equal. apply IH. Qed.

Lemma Read_length ks b : length (Read ks b) = length b.
Proof. apply xorStreamFrom_length. Qed.

Lemma nth_xorStreamFrom ks off b i : i < length b -> nth i (xorStreamFrom ks off b) x00 = bxor (nth i b x00) (ks (off + i)).
Proof.
  revert off i; induction b as [|x b IH]; intros off i Hi; cbn in *; [lia|].
  destruct i as [|i]; [rewrite Nat.add_0_r; reflexivity|]. rewrite IH by lia. do 2 f_equal. lia.
Qed.

Lemma nth_Read ks b i : i < length b -> nth i (Read ks b) x00 = bxor (nth i b x00) (ks i).
Proof. intros H. unfold Read. rewrite nth_xorStreamFrom by exact H. reflexivity. Qed.

Lemma Read_zeros ks n : Read ks (zeros n) = take_stream ks n.
Proof.
  apply nth_ext with x00 x00; [rewrite Read_length, zeros_length, take_stream_length; reflexivity|].
  intros i Hi. rewrite Read_length, zeros_length in Hi. rewrite nth_Read by (rewrite zeros_length; exact Hi).
  rewrite nth_zeros, bxor_0_l, nth_take_stream by exact Hi. reflexivity.
Qed.

(** SplitWithRandomizer once the coordinates are drawn *)
Lemma SplitWithRandomizerBufs_ok fuel ar growcap ks polB trB evBufs secret parts threshold xs :
  grow_ok growcap -> checkArgs secret parts threshold = None ->
  GetUniqueBytes fuel ks (z2b parts) = Ret xs -> (parts <= Z.of_nat (length xs))%Z ->
  let t := Z.to_nat threshold in let n := Z.to_nat parts in let N := length secret in
  let buf := Read ks (firstn (t * N) (resetGrow growcap polB (t * N))) in
  let polys := polysOf t secret buf in
  exists polB' trB',
    SplitWithRandomizerBufs fuel ar growcap ks polB trB evBufs secret parts threshold
      = Ret (map (share_at polys) (tagsOf n xs), polB', trB') /\
    length polB' = length (resetGrow growcap polB (t * N)) /\
    length trB' = length (resetGrow growcap trB (t * N)) /\
    (forall p c, p < N -> c < t -> nth (t * p + c) polB' x00 = nth c (nth p polys []) x00) /\
    (forall p c, p < N -> c < t -> nth (N * c + p) trB' x00 = nth c (nth p polys []) x00).
Proof.
  intros G Hck Hxs Hlx t n N buf polys. unfold SplitWithRandomizerBufs. rewrite Hck, Hxs. cbn [bind].
  apply checkArgs_None in Hck as (Ht & Hpp & Hs).
  assert (HN : 0 < N) by (destruct secret; [congruence|cbn; lia]).
  assert (Hdeg : Z.to_nat (threshold - 1) + 1 = t) by (unfold t; lia).
  assert (Ht0 : 0 < t) by lia.
  fold N n. cbv zeta. rewrite Hdeg.
  destruct (layoutFlat_ok N n xs) as (buff & E1 & L1 & R1); [lia|].
  rewrite E1. cbn [bind].
  pose proof (resetGrow_length growcap polB (t * N) G) as HG1.
  rewrite slice_ok by lia. rewrite Nat.sub_0_r. cbn [bind skipn]. unfold makePolynomialsWithBuffAndRandomizer. fold buf.
  assert (Lbuf : length buf = t * N).
  { unfold buf. rewrite Read_length, firstn_length. lia. }
  destruct (setIntercepts_ok secret (Z.to_nat (threshold - 1)) buf) as (pol & E2 & L2 & R2).
  { rewrite Lbuf, Hdeg. reflexivity. }
  rewrite Hdeg in L2, R2. rewrite E2. cbn [bind]. rewrite L2. fold N.
  pose proof (resetGrow_length growcap trB (t * N) G) as HG2.
  rewrite slice_ok by lia. cbn [bind].
  destruct (split_core ar growcap evBufs xs secret n t buf pol
     (firstn (t * N - 0) (skipn 0 (resetGrow growcap trB (t * N)))) buff) as (coef & E3 & L3 & V3 & o & E4 & E5); try assumption.
  { lia. }
  { rewrite firstn_length, skipn_length, L2. fold N. lia. }
  rewrite E3. cbn [bind]. fold N in E4, E5. rewrite E4. cbn [bind]. rewrite E5. cbn [bind].
  eexists _, _. split; [reflexivity|].
  fold N in L2, L3, V3, R2.
  assert (Lp : 0 + length pol <= length (resetGrow growcap polB (t * N))) by lia.
  assert (Lc : 0 + length coef <= length (resetGrow growcap trB (t * N))) by lia.
  split; [apply splice_length; exact Lp|]. split; [apply splice_length; exact Lc|].
  assert (Q : forall p, p < N -> nth p polys [] = polyOf t buf secret p) by (intros p Hp'; apply nth_polysOf; exact Hp').
  split; intros p c Hp' Hc; rewrite (Q p Hp'); rewrite nth_splice by assumption.
  - cbn [Nat.leb andb Nat.add]. assert (t * p + c < t * N) by nia. rewrite Nat.sub_0_r.
    destruct (Nat.ltb_spec (t * p + c) (length pol)); [|lia].
    rewrite <- nth_row by exact Hc. rewrite R2 by exact Hp'. reflexivity.
  - cbn [Nat.leb andb Nat.add]. assert (N * c + p < t * N) by nia. rewrite Nat.sub_0_r.
    destruct (Nat.ltb_spec (N * c + p) (length coef)); [|lia]. apply V3; assumption.
Qed.

(** ** the matrix variants *)
Lemma idx_newMatrix r c i : i < r -> idx (newMatrix r c) i = Ret (zeros c).
Proof.
  intros H. unfold newMatrix. rewrite (idx_ok _ i (zeros c)) by (rewrite repeat_length; exact H). f_equal.
  destruct (in_dec (list_eq_dec byte_eq_dec) (nth i (repeat (zeros c) r) (zeros c)) (repeat (zeros c) r)) as [Hin|Hin].
  - apply repeat_spec in Hin. exact Hin.
  - exfalso. apply Hin. apply nth_In. rewrite repeat_length. exact H.
Qed.

Lemma nth_newMatrix r c i : i < r -> nth i (newMatrix r c) [] = zeros c.
Proof.
  intros H. pose proof (idx_newMatrix r c i H) as E.
  rewrite (idx_ok _ i []) in E by (unfold newMatrix; rewrite repeat_length; exact H). congruence.
Qed.

Lemma upd2_ok m i j v : i < length m -> j < length (nth i m []) ->
  upd2 m i j v = Ret (set_nth m i (set_nth (nth i m []) j v)).
Proof.
  intros Hi Hj. unfold upd2. rewrite (idx_ok m i []) by exact Hi. cbn [bind].
  rewrite upd_ok by exact Hj. cbn [bind]. apply upd_ok. exact Hi.
Qed.

Lemma transpose_ok m xl : m <> [] -> (forall j, j < length m -> length (nth j m []) = xl) ->
  exists r, transpose m = Ret r /\ length r = xl /\
    forall i, i < xl -> length (nth i r []) = length m /\
      forall j, j < length m -> nth j (nth i r []) x00 = nth i (nth j m []) x00.
Proof.
  intros Hm Hr. assert (Hl : 0 < length m) by (destruct m; [congruence|cbn; lia]).
  unfold transpose. rewrite (idx_ok m 0 []) by exact Hl. cbn [bind]. cbv zeta. rewrite (Hr 0 Hl).
  set (yl := length m) in *.
  destruct (foreach_seq (fun k r => length r = xl /\ (forall i, i < xl -> length (nth i r []) = yl) /\
      forall i, i < k -> forall j, j < yl -> nth j (nth i r []) x00 = nth i (nth j m []) x00)
     (fun i result => foreach (seq 0 yl) (fun j result => do rj <- idx m j; do v <- idx rj i; upd2 result i j v) result)
     xl 0 (newMatrix xl yl)) as (r & E & L1 & L2 & V).
  - split; [unfold newMatrix; apply repeat_length|]. split; [|intros; lia].
    intros i Hi. rewrite nth_newMatrix by exact Hi. apply zeros_length.
  - intros i r [_ Hi] (L1 & L2 & V). cbn [Nat.add] in Hi.
    destruct (foreach_seq (fun k s => length s = xl /\ (forall a, a < xl -> length (nth a s []) = yl) /\
       (forall a, a < i -> nth a s [] = nth a r []) /\ forall j, j < k -> nth j (nth i s []) x00 = nth i (nth j m []) x00)
       (fun j result => do rj <- idx m j; do v <- idx rj i; upd2 result i j v) yl 0 r) as (s & E & M1 & M2 & M3 & M4).
    + split; [exact L1|]. split; [exact L2|]. split; [reflexivity|intros; lia].
    + intros j s [_ Hj] (M1 & M2 & M3 & M4). cbn [Nat.add] in Hj.
      rewrite (idx_ok m j []) by exact Hj. cbn [bind]. rewrite (idx_ok (nth j m []) i x00) by (rewrite Hr; assumption).
      cbn [bind]. rewrite upd2_ok by (rewrite ?M2; lia). eexists. split; [reflexivity|].
      split; [rewrite set_nth_length; lia|]. split; [|split].
      * intros a Ha. rewrite nth_set_nth by lia. destruct (Nat.eqb_spec a i) as [->|_]; [|apply M2; exact Ha].
        rewrite set_nth_length by (rewrite M2; lia). apply M2. exact Ha.
      * intros a Ha. rewrite nth_set_nth by lia. destruct (Nat.eqb_spec a i) as [->|_]; [lia|]. apply M3. exact Ha.
      * intros k Hk. rewrite nth_set_nth by lia. rewrite Nat.eqb_refl. rewrite nth_set_nth by (rewrite M2; lia).
        destruct (Nat.eqb_spec k j) as [->|Hne]; [reflexivity|]. apply M4. lia.
    + exists s. split; [exact E|]. split; [exact M1|]. split; [exact M2|].
      intros a Ha j Hj. destruct (Nat.eq_dec a i) as [->|Hne]; [apply M4; exact Hj|].
      rewrite M3 by lia. apply V; lia.
  - exists r. split; [exact E|]. split; [exact L1|]. intros i Hi. split; [apply L2; exact Hi|]. intros j Hj. apply V; [lia|exact Hj].
Qed.

(** coefficients of SplitGeneric: [degree] random bytes per polynomial *)
Definition polysGen (t : nat) (secret rnd : list byte) : list (list byte) :=
  map (fun p => nth p secret x00 :: row (t - 1) rnd p) (seq 0 (length secret)).

Lemma gocopy_zeros dst (src : list byte) : length src = length dst -> gocopy dst src = src.
Proof. intros H. apply gocopy_same. lia. Qed.

Lemma makePolynomials_ok secret degree stream :
  makePolynomials secret degree stream = Ret (polysGen (degree + 1) secret (take_stream stream (degree * length secret))).
Proof.
  unfold makePolynomials. cbv zeta. set (N := length secret). set (rnd := take_stream stream (degree * N)).
  assert (Lr : length rnd = degree * N) by apply take_stream_length.
  match goal with |- context [foreach (seq 0 N) ?f _] => set (F := f) end.
  destruct (foreach_seq (fun k '(m, s) => s = degree * k /\ length m = N /\
      forall p, p < N -> nth p m [] = if p <? k then nth p secret x00 :: row degree rnd p else zeros (degree + 1))
      F N 0 (newMatrix N (degree + 1), 0)) as ([m s] & E & _ & L & V).
  - split; [lia|]. split; [unfold newMatrix; apply repeat_length|]. intros p Hp. rewrite nth_newMatrix by exact Hp. reflexivity.
  - intros p [m s] [_ Hp] (-> & L & V). cbn [Nat.add] in Hp. unfold F.
    assert (Vp : nth p m [] = zeros (degree + 1)).
    { rewrite V by exact Hp. destruct (Nat.ltb_spec p p); [lia|reflexivity]. }
    rewrite (idx_ok secret p x00) by exact Hp. cbn [bind].
    rewrite upd2_ok by (rewrite ?Vp, ?zeros_length; lia). cbn [bind]. rewrite Vp.
    assert (Z1 : set_nth (zeros (degree + 1)) 0 (nth p secret x00) = nth p secret x00 :: zeros degree).
    { rewrite set_nth_0. rewrite Nat.add_1_r. reflexivity. }
    rewrite Z1. set (m1 := set_nth m p (nth p secret x00 :: zeros degree)).
    assert (L1 : length m1 = N) by (unfold m1; rewrite set_nth_length; lia).
    assert (M1 : nth p m1 [] = nth p secret x00 :: zeros degree).
    { unfold m1. rewrite nth_set_nth by lia. rewrite Nat.eqb_refl. reflexivity. }
    rewrite (idx_ok m1 p []) by lia. cbn [bind]. rewrite M1.
    rewrite slice_tail by (cbn [length]; lia). cbn [bind skipn].
    rewrite slice_row by (rewrite Lr; nia). cbn [bind].
    rewrite gocopy_zeros by (rewrite zeros_length, row_length; [reflexivity|rewrite Lr; nia]).
    rewrite upd_ok by lia. cbn [bind]. eexists. split; [reflexivity|].
    split; [lia|]. split; [rewrite set_nth_length; lia|].
    intros q Hq. rewrite nth_set_nth by lia. destruct (Nat.eqb_spec q p) as [->|Hne].
    + destruct (Nat.ltb_spec p (S p)); [|lia]. unfold splice. cbn [firstn app]. f_equal.
      rewrite row_length by (rewrite Lr; nia). cbn [skipn Nat.add]. rewrite skipn_all2 by (rewrite zeros_length; lia). apply app_nil_r.
    + unfold m1. rewrite nth_set_nth by lia. destruct (Nat.eqb_spec q p) as [?|_]; [congruence|].
      rewrite V by exact Hq. destruct (Nat.ltb_spec q p); destruct (Nat.ltb_spec q (S p)); try lia; reflexivity.
  - rewrite E. cbn [bind]. f_equal. unfold polysGen. fold N. rewrite Nat.add_sub.
    apply nth_ext with [] []; [rewrite map_length, seq_length; exact L|].
    intros p Hp. rewrite nth_map_seq by lia. rewrite V by lia. cbn [Nat.add]. destruct (Nat.ltb_spec p N); [reflexivity|lia].
Qed.

Lemma makePolynomialsWithRandomizer_ok secret degree ks :
  makePolynomialsWithRandomizer secret degree ks
  = Ret (polysOf (degree + 1) secret (take_stream ks ((degree + 1) * length secret))).
Proof.
  unfold makePolynomialsWithRandomizer. cbv zeta. rewrite Read_zeros.
  destruct (setIntercepts_ok secret degree (take_stream ks ((degree + 1) * length secret))) as (o & E & L & R).
  { apply take_stream_length. }
  rewrite E. cbn [bind].
  rewrite (foreach_append _ (fun p => polyOf (degree + 1) (take_stream ks ((degree + 1) * length secret)) secret p)); [reflexivity|].
  intros p ps Hp. replace ((degree + 1) * p + degree + 1) with ((degree + 1) * p + (degree + 1)) by lia.
  rewrite slice_row by (rewrite L; nia). cbn [bind]. rewrite R by exact Hp. reflexivity.
Qed.

(** evaluation of transposed matrices gives shares *)
Lemma matrix_share polys M t N x : 0 < t -> length polys = N ->
  Forall (fun p => length p = t) polys ->
  (forall c p, c < t -> p < N -> nth p (nth c M []) x00 = nth c (nth p polys []) x00) ->
  map (hornerAt (fun c => nth c M []) 0 (t - 1) x) (seq 0 N) = map (fun p => peval p x) polys.
Proof.
  intros Ht Hl Hf Hv. rewrite (map_as_seq (fun p => peval p x) polys []), Hl.
  apply map_ext_in. intros p Hp. apply in_seq in Hp. rewrite Forall_forall in Hf.
  apply hornerAt_poly; [exact Ht| |].
  - apply Hf. apply nth_In. lia.
  - intros c Hc. apply Hv; lia.
Qed.

Lemma SplitWithRandomizerOld_ok ar growcap ks evBufs secret parts threshold xs :
  grow_ok growcap -> checkArgs secret parts threshold = None ->
  Perm ks xff = Ret xs -> (parts <= Z.of_nat (length xs))%Z ->
  let t := Z.to_nat threshold in
  SplitWithRandomizerOld ar growcap ks evBufs secret parts threshold
  = Ret (map (share_at (polysOf t secret (take_stream ks (t * length secret)))) (tagsOf (Z.to_nat parts) xs)).
Proof.
  intros G Hck Hxs Hlx t. unfold SplitWithRandomizerOld. rewrite Hck, Hxs. cbn [bind].
  apply checkArgs_None in Hck as (Ht & Hpp & Hs). cbv zeta.
  set (N := length secret). set (n := Z.to_nat parts).
  assert (HN : 0 < N) by (unfold N; destruct secret; [congruence|cbn; lia]).
  assert (Hdeg : Z.to_nat (threshold - 1) + 1 = t) by (unfold t; lia).
  assert (Ht0 : 0 < t) by lia.
  destruct (layoutFlat_ok N n xs) as (buff & E1 & L1 & R1); [lia|]. rewrite E1. cbn [bind].
  rewrite makePolynomialsWithRandomizer_ok, Hdeg. cbn [bind]. fold N.
  set (polys := polysOf t secret (take_stream ks (t * N))).
  assert (Lp : length polys = N) by apply polysOf_length.
  assert (Fp : Forall (fun p => length p = t) polys) by (apply polysOf_row_length; [exact Ht0|apply take_stream_length]).
  destruct (transpose_ok polys t) as (M & E2 & LM & VM).
  { intros E. rewrite E in Lp. cbn in Lp. lia. }
  { intros j Hj. rewrite Forall_forall in Fp. apply Fp, nth_In, Hj. }
  rewrite E2. cbn [bind]. rewrite Lp in VM.
  destruct (foreach_windows x00 (N + 1) n (fun i buff =>
         let s := (N + 1) * i in
         do w <- slice buff s (s + N + 1);
         do x <- tagOf xs i;
         do w' <- evaluatePolynomialsAt ar growcap (evBufs i) M x w;
         Ret (splice buff s w'))
     (fun i r => map (fun p => peval p (badd (nth i xs x00) x01)) polys ++ skipn N r) buff L1) as (o & E3 & L3 & R3).
  { intros i r Hi Hr. rewrite app_length, map_length, skipn_length. lia. }
  { intros i b Hi Hb. cbv zeta.
    replace ((N + 1) * i + N + 1) with ((N + 1) * i + (N + 1)) by lia.
    rewrite slice_row by nia. cbn [bind]. rewrite tagOf_ok by lia. cbn [bind].
    rewrite (evaluateMatrix_ok ar growcap (evBufs i) M N (t - 1)); try assumption; try lia.
    - cbn [bind]. do 3 f_equal. apply matrix_share; try assumption. intros c p Hc Hp. apply VM; assumption.
    - intros c Hc. apply VM. lia.
    - rewrite row_length by nia. lia. }
  cbv zeta in E3. rewrite E3. cbn [bind]. rewrite windows_ok by exact L3. f_equal.
  unfold tagsOf. rewrite map_map. rewrite (map_as_seq _ (firstn n xs) x00). rewrite firstn_length, Nat.min_l by lia.
  apply map_ext_in. intros i Hi. apply in_seq in Hi. rewrite R3, R1 by lia.
  rewrite skipn_app_exact by apply zeros_length. rewrite nth_firstn by lia. reflexivity.
Qed.

Lemma layoutRows_ok N n xs : n <= length xs ->
  layoutRows N n xs = Ret (map (fun i => zeros N ++ [badd (nth i xs x00) x01]) (seq 0 n)).
Proof.
  intros Hn. unfold layoutRows.
  rewrite (foreach_upd_map [] _ (fun i _ => zeros N ++ [badd (nth i xs x00) x01])); [reflexivity|rewrite repeat_length; reflexivity|].
  intros i o Hi Ho. rewrite tagOf_ok by lia. cbn [bind].
  rewrite upd_ok by (rewrite zeros_length; lia). cbn [bind]. rewrite upd_ok by (rewrite Ho, repeat_length; exact Hi). do 2 f_equal.
  replace (zeros (N + 1)) with (zeros N ++ [x00]).
  - rewrite <- (zeros_length N) at 2. apply set_nth_app.
  - unfold zeros. rewrite repeat_app. reflexivity.
Qed.

Lemma SplitGeneric_ok perm stream secret parts threshold :
  checkArgs secret parts threshold = None -> (parts <= Z.of_nat (length perm))%Z ->
  let t := Z.to_nat threshold in
  SplitGeneric perm stream secret parts threshold
  = Ret (map (share_at (polysGen t secret (take_stream stream ((t - 1) * length secret)))) (tagsOf (Z.to_nat parts) (map i2b perm))).
Proof.
  intros Hck Hp t. unfold SplitGeneric. rewrite Hck.
  apply checkArgs_None in Hck as (Ht & Hpp & Hs). cbv zeta.
  set (N := length secret). set (n := Z.to_nat parts). set (xs := map i2b perm).
  assert (Hn : n <= length xs) by (unfold xs; rewrite map_length; lia).
  assert (HN : 0 < N) by (unfold N; destruct secret; [congruence|cbn; lia]).
  assert (Hdeg : Z.to_nat (threshold - 1) = t - 1) by (unfold t; lia).
  assert (Ht0 : 0 < t) by lia.
  rewrite layoutRows_ok by exact Hn. cbn [bind]. rewrite makePolynomials_ok, Hdeg. cbn [bind]. fold N.
  replace (t - 1 + 1) with t by lia.
  set (polys := polysGen t secret (take_stream stream ((t - 1) * N))).
  assert (Lp : length polys = N) by (unfold polys, polysGen; rewrite map_length, seq_length; reflexivity).
  assert (Fp : Forall (fun p => length p = t) polys).
  { apply Forall_forall. intros q Hq. unfold polys, polysGen in Hq. apply in_map_iff in Hq as (p & <- & Hpp'). apply in_seq in Hpp'.
    cbn [length]. rewrite row_length; [lia|]. rewrite take_stream_length. fold N in Hpp'. nia. }
  destruct (transpose_ok polys t) as (M & E2 & LM & VM).
  { intros E. rewrite E in Lp. cbn in Lp. lia. }
  { intros j Hj. rewrite Forall_forall in Fp. apply Fp, nth_In, Hj. }
  rewrite E2. cbn [bind]. rewrite Lp in VM.
  destruct (foreach_seq (fun k o => length o = n /\ forall i, i < n -> nth i o [] =
       if i <? k then share_at polys (badd (nth i xs x00) x01) else zeros N ++ [badd (nth i xs x00) x01])
      (fun i out => do x <- tagOf xs i; do w <- idx out i; do w' <- genericEvaluatePolynomialsAt M x w; upd out i w')
      n 0 (map (fun i => zeros N ++ [badd (nth i xs x00) x01]) (seq 0 n))) as (o & E3 & L3 & V3).
  - split; [rewrite map_length, seq_length; reflexivity|]. intros i Hi. rewrite nth_map_seq by exact Hi. reflexivity.
  - intros i o [_ Hi] (L & V). cbn [Nat.add] in Hi. rewrite tagOf_ok by lia. cbn [bind]. rewrite (idx_ok o i []) by lia. cbn [bind].
    rewrite (V i Hi). destruct (Nat.ltb_spec i i); [lia|].
    rewrite (genericEvaluate_ok M N (t - 1)).
    + cbn [bind]. rewrite upd_ok by lia. eexists. split; [reflexivity|]. split; [rewrite set_nth_length; lia|].
      intros j Hj. rewrite nth_set_nth by lia. destruct (Nat.eqb_spec j i) as [->|Hne].
      * destruct (Nat.ltb_spec i (S i)); [|lia]. unfold share_at. rewrite skipn_app_exact by apply zeros_length. f_equal.
        apply matrix_share; try assumption. intros c p Hc Hpp'. apply VM; assumption.
      * rewrite V by exact Hj. destruct (Nat.ltb_spec j i); destruct (Nat.ltb_spec j (S i)); try lia; reflexivity.
    + lia.
    + intros c Hc. apply VM. lia.
    + rewrite app_length, zeros_length. lia.
  - rewrite E3. f_equal. unfold tagsOf. rewrite map_map. rewrite (map_as_seq _ (firstn n xs) x00). rewrite firstn_length, Nat.min_l by lia.
    apply nth_ext with [] []; [rewrite map_length, seq_length; exact L3|].
    intros i Hi. rewrite nth_map_seq by lia. rewrite V3 by lia. cbn [Nat.add]. destruct (Nat.ltb_spec i n); [|lia].
    rewrite nth_firstn by lia. reflexivity.
Qed.
