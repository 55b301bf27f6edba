(** The interpolation form of the Reed-Solomon code (Libs.v) equals its matrix form (SpecRS.v). *)
From Coq Require Import List NArith ZArith Lia Arith Bool.
From Coq.Init Require Import Byte.
From Verif Require Import GoSem Bytes Spec GF PolyFacts GoFacts VectorFacts Libs SpecRS.
Import ListNotations.

Lemma nth_build_row r c f i : i < r -> nth i (build r c f) [] = map (f i) (seq 0 c).
Proof.
  intros H. unfold build. rewrite nth_indep with (d' := map (f 0) (seq 0 c)) by (rewrite map_length, seq_length; exact H).
  rewrite (map_nth (fun i => map (f i) (seq 0 c))), seq_nth by exact H. reflexivity.
Qed.
Lemma nth_map_seq (f : nat -> byte) n j : j < n -> nth j (map f (seq 0 n)) x00 = f j.
Proof.
  intros H. rewrite nth_indep with (d' := f 0) by (rewrite map_length, seq_length; exact H).
  rewrite map_nth, seq_nth by exact H. reflexivity.
Qed.
Lemma entry_build r c f i j : i < r -> j < c -> entry (build r c f) i j = f i j.
Proof. intros Hi Hj. unfold entry. rewrite nth_build_row by exact Hi. apply nth_map_seq, Hj. Qed.
Lemma is_matrix_build r c f : is_matrix r c (build r c f).
Proof.
  split; [unfold build; now rewrite map_length, seq_length|].
  intros i Hi. rewrite nth_build_row by exact Hi. now rewrite map_length, seq_length.
Qed.
Lemma build_ext r c f g : (forall i j, i < r -> j < c -> f i j = g i j) -> build r c f = build r c g.
Proof.
  intros H. unfold build. apply map_ext_in. intros i Hi. apply in_seq in Hi. apply map_ext_in. intros j Hj.
  apply in_seq in Hj. apply H; lia.
Qed.
Lemma gsum_ext {A} (f g : A -> byte) l : (forall a, In a l -> f a = g a) -> gsum (map f l) = gsum (map g l).
Proof. intros H. f_equal. apply map_ext_in, H. Qed.

(** exchange of sums *)
Lemma gsum_swap {A B} (f : A -> B -> byte) (l : list A) (m : list B) :
  gsum (map (fun a => gsum (map (f a) m)) l) = gsum (map (fun b => gsum (map (fun a => f a b) l)) m).
Proof.
  induction l as [|a l IH]; cbn [map].
  - symmetry. apply gsum_map_zero. intros; reflexivity.
  - rewrite gsum_cons, IH, <- gsum_map_add. apply gsum_ext. intros b _. cbn [map]. rewrite gsum_cons. reflexivity.
Qed.

(** a matrix (n columns) times a vector *)
Definition mv (n : nat) (A : matrix) (v : list byte) (i : nat) : byte :=
  gsum (map (fun k => gmul (entry A i k) (nth k v x00)) (seq 0 n)).

Lemma mv_mul r n c A B v i : i < r ->
  mv c (mat_mul r n c A B) v i = mv n A (map (mv c B v) (seq 0 n)) i.
Proof.
  intros Hi. unfold mv at 1.
  transitivity (gsum (map (fun k => gsum (map (fun l => gmul (gmul (entry A i l) (entry B l k)) (nth k v x00)) (seq 0 n))) (seq 0 c))).
  - apply gsum_ext. intros k Hk. apply in_seq in Hk. unfold mat_mul. rewrite entry_build by lia.
    rewrite gmul_comm, <- gsum_map_scale. apply gsum_ext. intros l _. apply gmul_comm.
  - rewrite gsum_swap. unfold mv at 1. apply gsum_ext. intros l Hl. apply in_seq in Hl.
    rewrite nth_map_seq by lia. unfold mv. rewrite <- gsum_map_scale. apply gsum_ext. intros k _. ring.
Qed.

Lemma mv_identity n v i : i < n -> mv n (identity n) v i = nth i v x00.
Proof.
  intros Hi. unfold mv. rewrite (gsum_map_single _ _ i); [|apply seq_NoDup|apply in_seq; lia|].
  - unfold identity. rewrite entry_build, Nat.eqb_refl by lia. apply gmul_1_l.
  - intros k Hk Hne. apply in_seq in Hk. unfold identity. rewrite entry_build by lia.
    destruct (Nat.eqb_spec i k) as [X|X]; [congruence|]. apply gmul_0_l.
Qed.

Lemma mv_vandermonde r d v i : i < r -> length v = d -> mv d (vandermonde r d) v i = heval v (i2b i).
Proof.
  intros Hi L. rewrite <- peval_heval. unfold mv, peval. rewrite L. apply gsum_ext. intros k Hk. apply in_seq in Hk.
  unfold vandermonde. rewrite entry_build by lia. apply gmul_comm.
Qed.

Lemma i2b_inj i j : i < 256 -> j < 256 -> i2b i = i2b j -> i = j.
Proof. intros Hi Hj E. apply (f_equal b2i) in E. rewrite !b2i_i2b in E by assumption. exact E. Qed.
Lemma points_NoDup is : NoDup is -> (forall i, In i is -> i < 256) -> NoDup (map rsPoint is).
Proof.
  induction is as [|i is IH]; intros Hn H; [constructor|]. inversion Hn as [|? ? Hi Hn']; subst. cbn [map]. constructor.
  - intros X. apply in_map_iff in X as (j & E & Hj). unfold rsPoint in E.
    apply i2b_inj in E; [subst; auto| apply H; now right | apply H; now left].
  - apply IH; [exact Hn'|]. intros j Hj. apply H. now right.
Qed.

(** the coefficients given by the inverse of the top square interpolate the data *)
Lemma coefs_interpolate d Ti v i : inverse d (vandermonde d d) Ti -> length v = d -> i < d ->
  heval (map (mv d Ti v) (seq 0 d)) (i2b i) = nth i v x00.
Proof.
  intros (_ & R & _) L Hi.
  rewrite <- (mv_vandermonde d d) by (rewrite ?map_length, ?seq_length; lia).
  rewrite <- (mv_mul d d d) by exact Hi. rewrite R. apply mv_identity, Hi.
Qed.

Lemma coding_row d n Ti v i : i < n -> length v = d ->
  mv d (coding_matrix d n Ti) v i = heval (map (mv d Ti v) (seq 0 d)) (i2b i).
Proof.
  intros Hi L. unfold coding_matrix. rewrite mv_mul by exact Hi. apply mv_vandermonde; [exact Hi|]. now rewrite map_length, seq_length.
Qed.

Lemma nth_rsPoint is i : i < length is -> nth i (map rsPoint is) x00 = i2b (nth i is 0).
Proof. intros H. rewrite nth_indep with (d' := rsPoint 0) by (rewrite map_length; exact H). now rewrite map_nth. Qed.

(** encoding *)
Lemma encode_matrix d n Ti v j : 0 < d -> d <= n -> n <= 256 -> inverse d (vandermonde d d) Ti -> length v = d -> j < n ->
  lagrange (map rsPoint (seq 0 d)) v (rsPoint j) = mv d (coding_matrix d n Ti) v j.
Proof.
  intros Hd Hdn Hn I L Hj. rewrite coding_row by assumption. unfold rsPoint at 2.
  apply lagrange_unique.
  - apply points_NoDup; [apply seq_NoDup|]. intros i Hi. apply in_seq in Hi. lia.
  - now rewrite !map_length, !seq_length.
  - intros i Hi. rewrite map_length, seq_length in Hi. rewrite nth_rsPoint, seq_nth by (rewrite ?seq_length; exact Hi).
    now apply coefs_interpolate.
Qed.

Lemma entry_rows A is i k : i < length is -> entry (rows_at A is) i k = entry A (nth i is 0) k.
Proof.
  intros H. unfold entry, rows_at. f_equal. rewrite nth_indep with (d' := nth 0 A []) by (rewrite map_length; exact H).
  now rewrite (map_nth (fun i => nth i A [])).
Qed.

(** decoding *)
Lemma decode_matrix d n Ti src Di ys j : 0 < d -> d <= n -> n <= 256 -> inverse d (vandermonde d d) Ti ->
  NoDup src -> (forall i, In i src -> i < n) -> length src = d -> inverse d (rows_at (coding_matrix d n Ti) src) Di ->
  length ys = d -> j < d ->
  lagrange (map rsPoint src) ys (rsPoint j) = mv d Di ys j.
Proof.
  intros Hd Hdn Hn I Nd Hsrc Ls (_ & R & _) Ly Hj.
  set (data := map (mv d Di ys) (seq 0 d)).
  assert (Ld : length data = d) by (unfold data; now rewrite map_length, seq_length).
  transitivity (heval (map (mv d Ti data) (seq 0 d)) (i2b j)).
  - unfold rsPoint at 2. apply lagrange_unique.
    + apply points_NoDup; [exact Nd|]. intros i Hi. apply Hsrc in Hi. lia.
    + rewrite !map_length, seq_length. lia.
    + intros i Hi. rewrite map_length in Hi. rewrite nth_rsPoint by exact Hi.
      assert (Hin : nth i src 0 < n) by (apply Hsrc, nth_In, Hi).
      rewrite <- (coding_row d n Ti data) by assumption.
      transitivity (mv d (rows_at (coding_matrix d n Ti) src) data i).
      * unfold mv. apply gsum_ext. intros k _. now rewrite entry_rows.
      * unfold data. rewrite <- (mv_mul d d d) by lia. rewrite R. apply mv_identity. lia.
  - rewrite coefs_interpolate by assumption. unfold data. now apply nth_map_seq.
Qed.

(** ** the inverses exist and are unique *)
Lemma mat_mul_id_r r n A : is_matrix r n A -> mat_mul r n n A (identity n) = A.
Proof.
  intros [L R]. apply nth_ext with (d := []) (d' := []).
  - unfold mat_mul, build. rewrite map_length, seq_length. lia.
  - intros i Hi. unfold mat_mul, build in Hi. rewrite map_length, seq_length in Hi.
    unfold mat_mul. rewrite nth_build_row by exact Hi. apply nth_ext with (d := x00) (d' := x00).
    + rewrite map_length, seq_length. symmetry. apply R, Hi.
    + intros j Hj. rewrite map_length, seq_length in Hj. rewrite nth_map_seq by exact Hj.
      rewrite (gsum_map_single _ _ j); [|apply seq_NoDup|apply in_seq; lia|].
      * unfold identity. rewrite entry_build, Nat.eqb_refl by lia. apply gmul_1_r.
      * intros k Hk Hne. apply in_seq in Hk. unfold identity. rewrite entry_build by lia.
        destruct (Nat.eqb_spec k j) as [X|X]; [congruence|]. apply gmul_0_r.
Qed.
Lemma mat_mul_id_l n c A : is_matrix n c A -> mat_mul n n c (identity n) A = A.
Proof.
  intros [L R]. apply nth_ext with (d := []) (d' := []).
  - unfold mat_mul, build. rewrite map_length, seq_length. lia.
  - intros i Hi. unfold mat_mul, build in Hi. rewrite map_length, seq_length in Hi.
    unfold mat_mul. rewrite nth_build_row by exact Hi. apply nth_ext with (d := x00) (d' := x00).
    + rewrite map_length, seq_length. symmetry. apply R, Hi.
    + intros j Hj. rewrite map_length, seq_length in Hj. rewrite nth_map_seq by exact Hj.
      rewrite (gsum_map_single _ _ i); [|apply seq_NoDup|apply in_seq; lia|].
      * unfold identity. rewrite entry_build, Nat.eqb_refl by lia. apply gmul_1_l.
      * intros k Hk Hne. apply in_seq in Hk. unfold identity. rewrite entry_build by lia.
        destruct (Nat.eqb_spec i k) as [X|X]; [congruence|]. apply gmul_0_l.
Qed.
Lemma mat_mul_assoc r n m c A B C :
  mat_mul r m c (mat_mul r n m A B) C = mat_mul r n c A (mat_mul n m c B C).
Proof.
  unfold mat_mul. apply build_ext. intros i j Hi Hj.
  transitivity (gsum (map (fun k => gsum (map (fun l => gmul (gmul (entry A i l) (entry B l k)) (entry C k j)) (seq 0 n))) (seq 0 m))).
  - apply gsum_ext. intros k Hk. apply in_seq in Hk. rewrite entry_build by lia.
    rewrite gmul_comm, <- gsum_map_scale. apply gsum_ext. intros l _. apply gmul_comm.
  - rewrite gsum_swap. apply gsum_ext. intros l Hl. apply in_seq in Hl. rewrite entry_build by lia.
    rewrite <- gsum_map_scale. apply gsum_ext. intros k _. ring.
Qed.
Lemma inverse_unique n A B B' : inverse n A B -> inverse n A B' -> B = B'.
Proof.
  intros (M & R & _) (M' & _ & L').
  rewrite <- (mat_mul_id_l n n B M), <- L', mat_mul_assoc, R. apply mat_mul_id_r, M'.
Qed.

(** a polynomial that vanishes everywhere, with at most 256 coefficients, has zero coefficients *)
Lemma coefs_zero p : length p <= 256 -> (forall x, heval p x = x00) -> forall i, nth i p x00 = x00.
Proof.
  induction p as [|c p IH]; intros L H i; [now destruct i|].
  assert (C : c = x00) by (specialize (H x00); rewrite heval_0 in H; exact H).
  destruct i as [|i]; [exact C|]. cbn [nth]. apply IH; [cbn in L; lia|].
  apply (roots_zero (map rsPoint (seq 1 255))).
  - apply points_NoDup; [apply seq_NoDup|]. intros a Ha. apply in_seq in Ha. lia.
  - rewrite map_length, seq_length. cbn in L. lia.
  - intros r Hr. apply in_map_iff in Hr as (a & E & Ha). apply in_seq in Ha.
    specialize (H r). cbn [heval] in H. rewrite C, gadd_0_l in H. apply gmul_eq_0 in H as [H|H]; [|exact H].
    exfalso. rewrite H in E. apply (i2b_inj a 0) in E; lia.
Qed.
Lemma nth_padd p : forall q i, nth i (padd p q) x00 = gadd (nth i p x00) (nth i q x00).
Proof.
  induction p as [|a p IH]; intros [|b q] [|i]; cbn [padd nth]; rewrite ?gadd_0_l, ?gadd_0_r; try reflexivity. apply IH.
Qed.

(** values of polynomials with [d] coefficients at [d] distinct points: invertible *)
Definition vander_at (xs : list byte) (d : nat) : matrix := build (length xs) d (fun i j => gpow (nth i xs x00) j).

Lemma polyfun_exact n g : polyfun n g -> exists p, length p = n /\ forall x, heval p x = g x.
Proof.
  intros (p & L & E). exists (p ++ repeat x00 (n - length p)). split.
  - rewrite app_length, repeat_length. lia.
  - intros x. rewrite heval_app_zeros. apply E.
Qed.

Lemma choose_list {A} (P : nat -> A -> Prop) (d : A) n : (forall i, i < n -> exists a, P i a) ->
  exists l, length l = n /\ forall i, i < n -> P i (nth i l d).
Proof.
  induction n as [|n IH]; intros H.
  - exists []. split; [reflexivity|]. intros i Hi. lia.
  - destruct IH as (l & L & Hl); [intros i Hi; apply H; lia|]. destruct (H n) as (a & Ha); [lia|].
    exists (l ++ [a]). split; [rewrite app_length; cbn; lia|]. intros i Hi.
    destruct (Nat.eq_dec i n) as [X|X].
    + subst i. rewrite app_nth2, L, Nat.sub_diag by lia. exact Ha.
    + rewrite app_nth1 by lia. apply Hl. lia.
Qed.

(** a right inverse of a square matrix of point evaluations *)
Lemma vander_inverse xs d : NoDup xs -> length xs = d -> d <= 256 ->
  exists B, inverse d (vander_at xs d) B.
Proof.
  intros Nd L D.
  destruct (choose_list (fun i p => length p = d /\ forall x, heval p x = basis xs i x) [] d) as (ps & Lp & Hp).
  { intros i Hi. apply polyfun_exact. rewrite <- L. apply basis_polyfun. lia. }
  exists (build d d (fun i j => nth i (nth j ps []) x00)). split; [apply is_matrix_build|].
  assert (E : forall i j, i < d -> j < d ->
            gsum (map (fun k => gmul (gpow (nth i xs x00) k) (nth k (nth j ps []) x00)) (seq 0 d)) = if i =? j then x01 else x00).
  { intros i j Hi Hj. destruct (Hp j Hj) as [Lj Ej].
    transitivity (basis xs j (nth i xs x00)).
    - rewrite <- Ej, <- peval_heval. unfold peval. rewrite Lj. apply gsum_ext. intros k _. apply gmul_comm.
    - destruct (Nat.eqb_spec i j) as [X|X].
      + subst j. apply basis_same; [exact Nd|lia].
      + apply basis_other; [lia|exact X]. }
  split.
  - unfold mat_mul, identity. apply build_ext. intros i j Hi Hj. rewrite <- (E i j Hi Hj). apply gsum_ext. intros k Hk. apply in_seq in Hk.
    unfold vander_at. rewrite !entry_build by lia. reflexivity.
  - unfold mat_mul, identity. apply build_ext. intros a b Ha Hb.
    transitivity (gsum (map (fun k => gmul (nth a (nth k ps []) x00) (gpow (nth k xs x00) b)) (seq 0 d))).
    { apply gsum_ext. intros k Hk. apply in_seq in Hk. unfold vander_at. rewrite !entry_build by lia. reflexivity. }
    (* the polynomial with coefficients (sum_k ps_k[a] * xs_k^b)_a takes the values of x^b at the points *)
    set (q := map (fun a => gsum (map (fun k => gmul (nth a (nth k ps []) x00) (gpow (nth k xs x00) b)) (seq 0 d))) (seq 0 d)).
    set (m := map (fun a => if a =? b then x01 else x00) (seq 0 d)).
    assert (Lq : length q = d) by (unfold q; now rewrite map_length, seq_length).
    assert (Lm : length m = d) by (unfold m; now rewrite map_length, seq_length).
    assert (Em : forall x, heval m x = gpow x b).
    { intros x. rewrite <- peval_heval. unfold peval. rewrite Lm. rewrite (gsum_map_single _ _ b); [|apply seq_NoDup|apply in_seq; lia|].
      - unfold m. rewrite nth_map_seq, Nat.eqb_refl by lia. apply gmul_1_l.
      - intros k Hk Hne. apply in_seq in Hk. unfold m. rewrite nth_map_seq by lia.
        destruct (Nat.eqb_spec k b) as [X|X]; [congruence|]. apply gmul_0_l. }
    assert (Eq : forall x, heval q x = gsum (map (fun k => gmul (gpow (nth k xs x00) b) (basis xs k x)) (seq 0 d))).
    { intros x. rewrite <- peval_heval. unfold peval. rewrite Lq.
      transitivity (gsum (map (fun a => gsum (map (fun k => gmul (gmul (nth a (nth k ps []) x00) (gpow (nth k xs x00) b)) (gpow x a)) (seq 0 d))) (seq 0 d))).
      - apply gsum_ext. intros i Hi. apply in_seq in Hi. unfold q. rewrite nth_map_seq by lia.
        rewrite gmul_comm, <- gsum_map_scale. apply gsum_ext. intros k _. apply gmul_comm.
      - rewrite gsum_swap. apply gsum_ext. intros k Hk. apply in_seq in Hk. destruct (Hp k) as [Lk Ek]; [lia|].
        rewrite <- Ek, <- peval_heval. unfold peval. rewrite Lk, <- gsum_map_scale. apply gsum_ext. intros i _. ring. }
    assert (Z : forall i, nth i (padd q m) x00 = x00).
    { apply coefs_zero; [rewrite padd_length; lia|]. apply (roots_zero xs); [exact Nd|rewrite padd_length; lia|].
      intros r Hr. apply In_nth with (d := x00) in Hr as (i & Hi & Hr). subst r.
      rewrite heval_padd, Em, Eq. rewrite (gsum_map_single _ _ i); [|apply seq_NoDup|apply in_seq; lia|].
      + rewrite basis_same by (assumption || lia). rewrite gmul_1_r. apply gadd_self.
      + intros k Hk Hne. apply in_seq in Hk. rewrite basis_other by (lia || congruence). apply gmul_0_r. }
    assert (Q : forall i, i < d -> nth i q x00 = nth i m x00).
    { intros i Hi. apply (proj1 (gadd_eq_0 _ _)). rewrite <- nth_padd. apply Z. }
    specialize (Q a Ha). unfold q, m in Q. rewrite !nth_map_seq in Q by exact Ha. rewrite Q. reflexivity.
Qed.

Lemma top_inverse d : d <= 256 -> exists Ti, inverse d (vandermonde d d) Ti.
Proof.
  intros D. destruct (vander_inverse (map rsPoint (seq 0 d)) d) as (B & I).
  - apply points_NoDup; [apply seq_NoDup|]. intros i Hi. apply in_seq in Hi. lia.
  - now rewrite map_length, seq_length.
  - exact D.
  - exists B. replace (vandermonde d d) with (vander_at (map rsPoint (seq 0 d)) d); [exact I|].
    unfold vander_at, vandermonde. rewrite map_length, seq_length. apply build_ext. intros i j Hi _.
    rewrite nth_rsPoint, seq_nth by (rewrite ?seq_length; exact Hi). reflexivity.
Qed.

Lemma inverse_mul n A B A' B' : inverse n A A' -> inverse n B B' -> is_matrix n n A -> is_matrix n n B ->
  inverse n (mat_mul n n n A B) (mat_mul n n n B' A').
Proof.
  intros (MA & RA & LA) (MB & RB & LB) _ HB. split; [apply is_matrix_build|]. split.
  - rewrite mat_mul_assoc, <- (mat_mul_assoc n n n n B B' A'), RB, mat_mul_id_l by exact MA. exact RA.
  - rewrite mat_mul_assoc, <- (mat_mul_assoc n n n n A' A B), LA.
    rewrite mat_mul_id_l; [exact LB|exact HB].
Qed.

Lemma rows_coding d n Ti src : (forall i, In i src -> i < n) -> length src = d ->
  rows_at (coding_matrix d n Ti) src = mat_mul d d d (vander_at (map rsPoint src) d) Ti.
Proof.
  intros H L. unfold rows_at, coding_matrix, mat_mul at 2, build.
  apply nth_ext with (d := []) (d' := []); [rewrite !map_length, seq_length; exact L|].
  intros i Hi. rewrite map_length in Hi. assert (Hd : i < d) by lia.
  rewrite nth_indep with (d' := nth 0 (mat_mul n d d (vandermonde n d) Ti) []) by (rewrite map_length; exact Hi).
  rewrite (map_nth (fun i => nth i (mat_mul n d d (vandermonde n d) Ti) [])).
  assert (Hin : nth i src 0 < n) by (apply H, nth_In, Hi).
  unfold mat_mul at 1. rewrite nth_build_row by exact Hin.
  rewrite nth_indep with (d' := map (fun j => gsum (map (fun k => gmul (entry (vander_at (map rsPoint src) d) 0 k) (entry Ti k j)) (seq 0 d))) (seq 0 d))
    by (rewrite map_length, seq_length; exact Hd).
  rewrite (map_nth (fun i => map (fun j => gsum (map (fun k => gmul (entry (vander_at (map rsPoint src) d) i k) (entry Ti k j)) (seq 0 d))) (seq 0 d))).
  rewrite seq_nth by exact Hd. cbn [Nat.add]. apply map_ext_in. intros j Hj. apply gsum_ext. intros k Hk. apply in_seq in Hk.
  f_equal. unfold vandermonde, vander_at. rewrite !entry_build by (rewrite ?map_length; lia). now rewrite nth_rsPoint.
Qed.

Lemma rows_inverse d n Ti src : d <= 256 -> n <= 256 -> inverse d (vandermonde d d) Ti ->
  NoDup src -> (forall i, In i src -> i < n) -> length src = d ->
  exists Di, inverse d (rows_at (coding_matrix d n Ti) src) Di.
Proof.
  intros D N (MT & RT & LT) Nd H L. destruct (vander_inverse (map rsPoint src) d) as (B & I).
  - apply points_NoDup; [exact Nd|]. intros i Hi. apply H in Hi. lia.
  - now rewrite map_length.
  - exact D.
  - rewrite rows_coding by assumption. eexists. apply inverse_mul; [exact I| | |exact MT].
    + split; [apply is_matrix_build|]. split; [exact LT|exact RT].
    + unfold vander_at. rewrite map_length, L. apply is_matrix_build.
Qed.
