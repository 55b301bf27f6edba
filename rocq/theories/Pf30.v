(** Proofs about the matrix form of the pieces (C77). *)
From Coq Require Import List NArith ZArith Lia Arith Bool Permutation.
From Coq.Init Require Import Byte.
From Verif Require Import GoSem Bytes Spec SpecKr GF PolyFacts GoFacts VectorFacts Vector Csprng Pool Polynomial Shamir Libs Krawczyk SpecRS RSFacts Pf6.
Import ListNotations.

(*PROPS
From Coq Require Import List NArith ZArith Lia Arith Bool Permutation.
From Coq.Init Require Import Byte.
From Verif Require Import GoSem Bytes Spec SpecKr Vector Csprng Pool Polynomial Shamir Libs AES Krawczyk SpecRS ExData Pf30.
Import ListNotations.
*)

Lemma nth_map_l {A} (f : nat -> list A) n i : i < n -> nth i (map f (seq 0 n)) [] = f i.
Proof.
  intros H. rewrite nth_indep with (d' := f 0) by (rewrite map_length, seq_length; exact H).
  rewrite map_nth, seq_nth by exact H. reflexivity.
Qed.

(** one position of the pieces *)
Definition column (P : nat -> list byte) (is : list nat) (k : nat) : list byte := map (fun i => nth k (P i) x00) is.

Lemma nth_column P is k i : i < length is -> nth i (column P is k) x00 = nth k (P (nth i is 0)) x00.
Proof.
  intros H. unfold column. rewrite nth_indep with (d' := nth k (P 0) x00) by (rewrite map_length; exact H).
  now rewrite (map_nth (fun i => nth k (P i) x00)).
Qed.

Lemma entry_pieces P is i k : i < length is -> entry (map P is) i k = nth k (P (nth i is 0)) x00.
Proof.
  intros H. unfold entry. f_equal. rewrite nth_indep with (d' := P 0) by (rewrite map_length; exact H). now rewrite map_nth.
Qed.

Lemma mul_pieces r t len M P is i k : i < r -> k < len -> length is = t ->
  entry (mat_mul r t len M (map P is)) i k = mv t M (column P is k) i.
Proof.
  intros Hi Hk L. unfold mat_mul. rewrite entry_build by assumption. unfold mv. apply gsum_ext. intros j Hj. apply in_seq in Hj.
  rewrite entry_pieces, nth_column by lia. reflexivity.
Qed.

Lemma pieces_ext r len (A : list (list byte)) (f : nat -> nat -> byte) : length A = r -> (forall i, i < r -> length (nth i A []) = len) ->
  (forall i k, i < r -> k < len -> nth k (nth i A []) x00 = f i k) -> A = build r len f.
Proof.
  intros L R H. apply nth_ext with (d := []) (d' := []); [unfold build; rewrite map_length, seq_length; exact L|].
  intros i Hi. rewrite nth_build_row by lia. apply nth_ext with (d := x00) (d' := x00).
  - rewrite map_length, seq_length. apply R. lia.
  - intros k Hk. rewrite R in Hk by lia. rewrite nth_map_seq by exact Hk. apply H; lia.
Qed.

Lemma lagrange_column t n len P is k x : rs_codeword t n len P -> n <= 256 -> NoDup is -> (forall i, In i is -> i < n) -> length is = t -> k < len -> x < n ->
  lagrange (map rsPoint is) (column P is k) (rsPoint x) = nth k (P x) x00.
Proof.
  intros [_ C] N Nd H L Hk Hx. destruct (C k Hk) as (f & Lf & Ef). rewrite (Ef x Hx), peval_heval. unfold rsPoint at 2.
  apply lagrange_unique.
  - apply points_NoDup; [exact Nd|]. intros i Hi. apply H in Hi. lia.
  - rewrite map_length. lia.
  - intros i Hi. rewrite map_length in Hi. rewrite nth_rsPoint, nth_column by exact Hi. rewrite <- peval_heval. symmetry. apply Ef, H, nth_In, Hi.
Qed.

Lemma codeword_encode t n len P Ti : 0 < t -> t <= n -> n <= 256 -> inverse t (vandermonde t t) Ti -> rs_codeword t n len P ->
  map P (seq 0 n) = mat_mul n t len (coding_matrix t n Ti) (map P (seq 0 t)).
Proof.
  intros T TN N I C. pose proof C as [R _]. unfold mat_mul. apply pieces_ext.
  - now rewrite map_length, seq_length.
  - intros i Hi. rewrite nth_map_l by exact Hi. apply R, Hi.
  - intros i k Hi Hk. rewrite nth_map_l by exact Hi.
    rewrite <- (lagrange_column t n len P (seq 0 t) k i C N (seq_NoDup _ _)); [|intros j Hj; apply in_seq in Hj; lia|apply seq_length|exact Hk|exact Hi].
    rewrite (encode_matrix t n Ti) by (try assumption; unfold column; now rewrite map_length, seq_length).
    unfold mv. apply gsum_ext. intros j Hj. apply in_seq in Hj. rewrite entry_pieces, nth_column by (rewrite seq_length; lia). reflexivity.
Qed.

Lemma codeword_decode t n len P Ti src Di : 0 < t -> t <= n -> n <= 256 -> inverse t (vandermonde t t) Ti -> rs_codeword t n len P ->
  NoDup src -> (forall i, In i src -> i < n) -> length src = t -> inverse t (rows_at (coding_matrix t n Ti) src) Di ->
  map P (seq 0 t) = mat_mul t t len Di (map P src).
Proof.
  intros T TN N I C Nd H L ID. pose proof C as [R _]. unfold mat_mul. apply pieces_ext.
  - now rewrite map_length, seq_length.
  - intros i Hi. rewrite nth_map_l by exact Hi. apply R. lia.
  - intros i k Hi Hk. rewrite nth_map_l by exact Hi.
    rewrite <- (lagrange_column t n len P src k i C N Nd H L Hk) by lia.
    rewrite (decode_matrix t n Ti src Di) by (try assumption; unfold column; now rewrite map_length).
    unfold mv. apply gsum_ext. intros j Hj. apply in_seq in Hj. rewrite entry_pieces, nth_column by lia. reflexivity.
Qed.

Lemma map_nth_seq {A} (f : list A -> list A) (l : list (list A)) : map f l = map (fun i => f (nth i l [])) (seq 0 (length l)).
Proof.
  apply nth_ext with (d := []) (d' := []); [now rewrite !map_length, seq_length|].
  intros i Hi. rewrite map_length in Hi. rewrite nth_map_l by exact Hi. rewrite nth_indep with (d' := f []) by (rewrite map_length; exact Hi). apply map_nth.
Qed.

Lemma map_firstn_pieces (shares : list (list byte)) t : t <= length shares ->
  map kr_piece (firstn t shares) = map (fun i => kr_piece (nth i shares [])) (seq 0 t).
Proof.
  intros H. rewrite map_nth_seq, firstn_length, Nat.min_l by exact H. apply map_ext_in. intros i Hi. apply in_seq in Hi.
  rewrite nth_firstn by lia. reflexivity.
Qed.

Lemma shares_matrix shares t n len : 0 < t -> t <= n -> n <= 256 -> length shares = n -> rs_codeword t n len (fun i => kr_piece (nth i shares [])) ->
  forall Ti, inverse t (vandermonde t t) Ti ->
  map kr_piece shares = mat_mul n t len (coding_matrix t n Ti) (map kr_piece (firstn t shares)) /\
  forall is, selection n t is -> length is = t ->
    exists Di, inverse t (rows_at (coding_matrix t n Ti) is) Di /\
      (forall Di', inverse t (rows_at (coding_matrix t n Ti) is) Di' -> Di' = Di) /\
      map kr_piece (firstn t shares) = mat_mul t t len Di (map kr_piece (pick [] shares is)).
Proof.
  intros T TN N L C Ti I. set (P := fun i => kr_piece (nth i shares [])) in *. split.
  - rewrite map_firstn_pieces by lia. rewrite map_nth_seq, L. exact (codeword_encode t n len P Ti T TN N I C).
  - intros is (Nd & H & _) Li. destruct (rows_inverse t n Ti is) as (Di & D); try assumption; try lia.
    exists Di. split; [exact D|]. split; [intros Di' D'; exact (inverse_unique _ _ _ _ D' D)|].
    rewrite map_firstn_pieces by lia. unfold pick. rewrite map_map. exact (codeword_decode t n len P Ti is Di T TN N I C Nd H Li D).
Qed.

(** C77: the inverse of the top square of the Vandermonde matrix, which the library computes, exists and is unique, and so is the inverse of
    any [t] rows of the coding matrix, which it computes when pieces are missing. *)
Lemma C77_invertible_pf : forall t n, 0 < t -> t <= n -> n <= 256 ->
  exists Ti, inverse t (vandermonde t t) Ti /\ (forall Ti', inverse t (vandermonde t t) Ti' -> Ti' = Ti) /\
  forall is, selection n t is -> length is = t ->
  exists Di, inverse t (rows_at (coding_matrix t n Ti) is) Di /\
    (forall Di', inverse t (rows_at (coding_matrix t n Ti) is) Di' -> Di' = Di).
Proof.
  intros t n T TN N. destruct (top_inverse t) as (Ti & I); [lia|]. exists Ti. split; [exact I|]. split.
  - intros Ti' I'. exact (inverse_unique _ _ _ _ I' I).
  - intros is (Nd & H & _) L. destruct (rows_inverse t n Ti is) as (Di & D); try assumption; try lia.
    exists Di. split; [exact D|]. intros Di' D'. exact (inverse_unique _ _ _ _ D' D).
Qed.



(** C77: the pieces in the shares of krawczyk.Split are the product of the coding matrix with the first [threshold] pieces, and from any
    [threshold] pieces the first ones are recovered with the inverse of the corresponding rows. *)
Lemma C77_split_pf : forall E zp ar growcap krand perm stream polB trB evBufs secret parts threshold shares Ti,
  grow_ok growcap -> Permutation perm (seq 0 255) ->
  krSplit E zp ar growcap krand perm stream polB trB evBufs secret parts threshold = Ret shares ->
  let n := Z.to_nat parts in let t := Z.to_nat threshold in let len := ceil_div (length secret) t in
  inverse t (vandermonde t t) Ti ->
  map kr_piece shares = mat_mul n t len (coding_matrix t n Ti) (map kr_piece (firstn t shares)) /\
  forall is, selection n t is -> length is = t ->
    exists Di, inverse t (rows_at (coding_matrix t n Ti) is) Di /\
      (forall Di', inverse t (rows_at (coding_matrix t n Ti) is) Di' -> Di' = Di) /\
      map kr_piece (firstn t shares) = mat_mul t t len Di (map kr_piece (pick [] shares is)).
Proof.
  intros E zp ar growcap krand perm stream polB trB evBufs secret parts threshold shares Ti G P R n t len I.
  destruct (C33_shape_pf _ _ _ _ _ _ _ _ _ _ _ _ _ _ G P R) as (L & _ & _ & C & _).
  destruct (proj1 (C34_contract_pf E zp ar growcap krand perm stream polB trB evBufs secret parts threshold G P)) as [V _].
  destruct V as (_ & _ & H2 & H3 & H4 & _); [exists shares; exact R|].
  apply shares_matrix; try assumption; unfold t, n; lia.
Qed.

(** C77: the same for krawczyk.SplitWithRandomizer. *)
Lemma C77_randomizer_pf : forall fuel E zp ar growcap ks polB trB evBufs secret parts threshold shares Ti,
  grow_ok growcap ->
  krSplitWithRandomizer fuel E zp ar growcap ks polB trB evBufs secret parts threshold = Ret shares ->
  let n := Z.to_nat parts in let t := Z.to_nat threshold in let len := ceil_div (length secret) t in
  inverse t (vandermonde t t) Ti ->
  map kr_piece shares = mat_mul n t len (coding_matrix t n Ti) (map kr_piece (firstn t shares)) /\
  forall is, selection n t is -> length is = t ->
    exists Di, inverse t (rows_at (coding_matrix t n Ti) is) Di /\
      (forall Di', inverse t (rows_at (coding_matrix t n Ti) is) Di' -> Di' = Di) /\
      map kr_piece (firstn t shares) = mat_mul t t len Di (map kr_piece (pick [] shares is)).
Proof.
  intros fuel E zp ar growcap ks polB trB evBufs secret parts threshold shares Ti G R n t len I.
  destruct (C40_shape_pf _ _ _ _ _ _ _ _ _ _ _ _ _ G R) as (L & _ & _ & C & _).
  destruct (krSWR_inv _ _ _ _ _ _ _ _ _ _ _ _ _ G R) as ((_ & _ & H2 & H3 & H4 & _) & _).
  apply shares_matrix; try assumption; unfold t, n; lia.
Qed.

(** C77: what the codec model of Libs.v does with arbitrary shards, not only with those of a split: [Encode] keeps the data shards and writes the
    rows of the product into the parity shards; [ReconstructData] writes the rows of the product with the inverse into the missing data shards. *)
Lemma C77_encode_pf : forall d n shards out Ti, 0 < d -> d <= n -> n <= 256 -> inverse d (vandermonde d d) Ti ->
  rsEncode d n shards = Ret out ->
  out = mat_mul n d (length (nth 0 shards [])) (coding_matrix d n Ti) (firstn d shards).
Proof.
  intros d n shards out Ti D DN N I R. unfold rsEncode in R.
  destruct (Nat.eqb_spec (length shards) n) as [L|]; cbn [negb] in R; [|discriminate].
  unfold rsCheckShards in R. destruct (Nat.eqb_spec (rsShardSize shards) 0) as [|Z]; [discriminate|].
  destruct (forallb _ shards) eqn:F in R; [|discriminate].
  assert (Sz : forall s, In s shards -> length s = rsShardSize shards).
  { intros s Hs. rewrite forallb_forall in F. specialize (F s Hs). cbn [andb] in F. rewrite orb_false_r in F. apply Nat.eqb_eq, F. }
  set (size := rsShardSize shards) in *. injection R as R.
  assert (S0 : length (nth 0 shards []) = size) by (apply Sz, nth_In; lia). rewrite S0.
  assert (Lf : length (firstn d shards) = d) by (rewrite firstn_length; lia).
  assert (Col : forall k, map (fun r => nth k r x00) (firstn d shards) = column (fun i => nth i shards []) (seq 0 d) k).
  { intros k. unfold column. apply nth_ext with (d := x00) (d' := x00); [rewrite !map_length, seq_length; exact Lf|].
    intros i Hi. rewrite map_length, Lf in Hi. rewrite nth_map_seq by exact Hi.
    rewrite nth_indep with (d' := nth k [] x00) by (rewrite map_length; lia).
    rewrite (map_nth (fun r => nth k r x00)). rewrite nth_firstn by exact Hi. reflexivity. }
  unfold mat_mul. subst out. apply pieces_ext.
  - rewrite app_length, map_length, seq_length, Lf. lia.
  - intros i Hi. destruct (Nat.lt_ge_cases i d) as [Hd|Hd].
    + rewrite app_nth1 by lia. rewrite nth_firstn by exact Hd. apply Sz, nth_In. lia.
    + rewrite app_nth2 by lia. rewrite Lf.
      rewrite nth_indep with (d' := rsShardFrom (seq 0 d) (firstn d shards) size 0) by (rewrite map_length, seq_length; lia).
      rewrite map_nth. unfold rsShardFrom. now rewrite map_length, seq_length.
  - intros i k Hi Hk.
    transitivity (mv d (coding_matrix d n Ti) (column (fun i => nth i shards []) (seq 0 d) k) i).
    + destruct (Nat.lt_ge_cases i d) as [Hd|Hd].
      * rewrite app_nth1 by lia. rewrite nth_firstn by exact Hd.
        rewrite <- (encode_matrix d n Ti) by (try assumption; unfold column; now rewrite map_length, seq_length).
        replace (rsPoint i) with (nth i (map rsPoint (seq 0 d)) x00) by (rewrite nth_rsPoint, seq_nth by (rewrite ?seq_length; exact Hd); reflexivity).
        rewrite lagrange_at.
        -- rewrite nth_column, seq_nth by (rewrite ?seq_length; exact Hd). reflexivity.
        -- apply points_NoDup; [apply seq_NoDup|]. intros j Hj. apply in_seq in Hj. lia.
        -- rewrite map_length, seq_length. exact Hd.
      * rewrite app_nth2 by lia. rewrite Lf.
        rewrite nth_indep with (d' := rsShardFrom (seq 0 d) (firstn d shards) size 0) by (rewrite map_length, seq_length; lia).
        rewrite map_nth, seq_nth by lia. replace (d + (i - d)) with i by lia. unfold rsShardFrom. rewrite nth_map_seq by exact Hk.
        rewrite Col. apply encode_matrix; try assumption. unfold column. now rewrite map_length, seq_length.
    + unfold mv. apply gsum_ext. intros j Hj. apply in_seq in Hj. f_equal. rewrite nth_column, seq_nth by (rewrite ?seq_length; lia).
      unfold entry. rewrite nth_firstn by lia. reflexivity.
Qed.

Lemma filter_full {A} (f : A -> bool) l : length (filter f l) = length l -> forall a, In a l -> f a = true.
Proof.
  induction l as [|b l IH]; intros L a Ha; [destruct Ha|]. cbn [filter] in L. destruct (f b) eqn:F.
  - cbn [length] in L. destruct Ha as [X|Ha]; [now subst|]. apply IH; [lia|exact Ha].
  - exfalso. cbn [length] in L. assert (X : length (filter f l) <= length l) by (clear; induction l as [|c l IH]; cbn; [lia|destruct (f c); cbn; lia]). lia.
Qed.

(** C77: what the codec model of Libs.v does with arbitrary shards: [ReconstructData] writes the rows of the product with the inverse of the rows
    of the first [d] shards that are present into the missing data shards, and leaves all others alone. *)
Lemma C77_reconstruct_pf : forall d n shards out Ti i, 0 < d -> d <= n -> n <= 256 -> inverse d (vandermonde d d) Ti ->
  rsReconstructData d n shards = Ret out -> i < n ->
  let is := firstn d (filter (fun j => negb (length (nth j shards []) =? 0)) (seq 0 n)) in
  (nth i shards [] <> [] \/ d <= i -> nth i out [] = nth i shards []) /\
  (nth i shards [] = [] -> i < d -> length is = d /\
    exists Di, inverse d (rows_at (coding_matrix d n Ti) is) Di /\
      nth i out [] = nth i (mat_mul d d (length (nth (hd 0 is) shards [])) Di (pick [] shards is)) []).
Proof.
  intros d n shards out Ti i D DN N I R Hi is. unfold rsReconstructData in R.
  destruct (Nat.eqb_spec (length shards) n) as [L|]; cbn [negb] in R; [|discriminate].
  unfold rsCheckShards in R. destruct (Nat.eqb_spec (rsShardSize shards) 0) as [|Z]; [discriminate|].
  destruct (forallb _ shards) eqn:F in R; [|discriminate].
  set (present := filter (fun j => negb (length (nth j shards []) =? 0)) (seq 0 n)) in *.
  assert (Sz : forall j, In j present -> length (nth j shards []) = rsShardSize shards).
  { intros j Hj. unfold present in Hj. apply filter_In in Hj as [Hj E]. apply in_seq in Hj. rewrite forallb_forall in F.
    assert (Hin : In (nth j shards []) shards) by (apply nth_In; lia). specialize (F _ Hin). apply orb_true_iff in F as [F|F]; [apply Nat.eqb_eq, F|].
    apply andb_true_iff in F as [_ F]. rewrite F in E. discriminate. }
  assert (NP : NoDup present) by (apply NoDup_filter, seq_NoDup).
  assert (RP : forall j, In j present -> j < n) by (intros j Hj; unfold present in Hj; apply filter_In in Hj as [Hj _]; apply in_seq in Hj; lia).
  destruct ((length present =? n) || (length (filter (fun i => i <? d) present) =? d)) eqn:Full.
  - injection R as R. subst out. split; [reflexivity|]. intros Em Hd. exfalso. apply orb_true_iff in Full as [Full|Full]; apply Nat.eqb_eq in Full.
    + assert (FL : length (filter (fun j => negb (length (nth j shards []) =? 0)) (seq 0 n)) = length (seq 0 n)) by (rewrite seq_length; exact Full).
      assert (HI : In i (seq 0 n)) by (apply in_seq; lia).
      pose proof (filter_full _ _ FL i HI) as X. cbv beta in X. rewrite Em in X. discriminate X.
    + assert (NI : NoDup (i :: filter (fun i => i <? d) present)).
      { constructor; [|apply NoDup_filter, NP]. intros X. apply filter_In in X as [X _]. unfold present in X. apply filter_In in X as [_ X]. rewrite Em in X. discriminate. }
      apply (NoDup_incl_length) with (l' := seq 0 d) in NI.
      * cbn [length] in NI. rewrite seq_length in NI. lia.
      * intros j [X|X]; [subst; apply in_seq; lia|]. apply filter_In in X as [_ X]. apply Nat.ltb_lt in X. apply in_seq. lia.
  - destruct (Nat.ltb_spec (length present) d) as [|Ld]; [discriminate|]. injection R as R. fold is in R.
    assert (Lis : length is = d) by (unfold is; rewrite firstn_length; lia).
    assert (In_is : forall j, In j is -> In j present).
    { intros j Hj. unfold is in Hj. rewrite <- (firstn_skipn d present). apply in_or_app. now left. }
    assert (Nis : NoDup is).
    { unfold is. rewrite <- (firstn_skipn d present) in NP. clear - NP. revert NP. generalize (skipn d present) as r. generalize (firstn d present) as l.
      induction l as [|a l IH]; intros r H; [constructor|]. cbn in H. inversion H as [|? ? A B]; subst. constructor.
      - intros X. apply A, in_or_app. now left.
      - exact (IH _ B). }
    assert (Ho : nth i out [] = if (i <? d) && (length (nth i shards []) =? 0) then rsShardFrom is (map (fun i => nth i shards []) is) (rsShardSize shards) i else nth i shards []).
    { subst out. rewrite nth_map_l by exact Hi. reflexivity. }
    rewrite Ho. split.
    + intros [X|X].
      * destruct (nth i shards []) as [|b r]; [congruence|]. cbn. rewrite andb_false_r. reflexivity.
      * destruct (Nat.ltb_spec i d) as [Y|_]; [lia|]. reflexivity.
    + intros Em Hd. split; [exact Lis|]. rewrite Em. apply Nat.ltb_lt in Hd as Hd'. rewrite Hd'. cbn [andb length Nat.eqb].
      destruct (rows_inverse d n Ti is) as (Di & ID); try assumption; try lia; [intros j Hj; apply RP, In_is, Hj|].
      exists Di. split; [exact ID|].
      assert (H0 : length (nth (hd 0 is) shards []) = rsShardSize shards).
      { apply Sz, In_is. destruct is as [|a r]; [cbn in Lis; lia|]. now left. }
      rewrite H0. unfold mat_mul. rewrite nth_build_row by exact Hd. unfold rsShardFrom. apply map_ext_in. intros k Hk. apply in_seq in Hk.
      rewrite map_map. change (map (fun x => nth k (nth x shards []) x00) is) with (column (fun x => nth x shards []) is k).
      rewrite (decode_matrix d n Ti is Di) by (try assumption; try (intros j Hj; apply RP, In_is, Hj); unfold column; rewrite map_length; exact Lis).
      unfold mv. apply gsum_ext. intros j Hj. apply in_seq in Hj. unfold pick. rewrite entry_pieces, nth_column by lia. reflexivity.
Qed.

(*COPY
(** the coding matrix for three data shards out of five *)
Definition ex_top : matrix := [[x01; x00; x00]; [x8f; xf5; x7a]; [x8e; xf4; x7a]].
Example C77_top : inverse 3 (vandermonde 3 3) ex_top.
Proof. split; [split; [reflexivity|intros i H; do 3 (destruct i as [|i]; [reflexivity|]); exfalso; lia]|]. split; vm_compute; reflexivity. Qed.
Example C77_run : match krSplit AES true ex_ar growcap117 (fun i => i2b (5 * i + 9)) ex_perm ex_stream ex_stale ex_stale ex_ev ex_secret 5 3 with
  | Ret sh => coding_matrix 3 5 ex_top = [[x01; x00; x00]; [x00; x01; x00]; [x00; x00; x01]; [x01; x01; x01]; [x0f; x08; x06]] /\
      map kr_piece sh = mat_mul 5 3 2 (coding_matrix 3 5 ex_top) (map kr_piece (firstn 3 sh))
  | _ => False end.
Proof. vm_compute. split; reflexivity. Qed.
END*)
