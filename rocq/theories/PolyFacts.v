(** Polynomials over GF(2^8): Horner's rule, root counting, Lagrange interpolation. *)
From Coq Require Import List NArith ZArith Lia Arith Bool Ring Field.
From Coq.Init Require Import Byte.
From Verif Require Import Bytes Spec GF.
Import ListNotations.

(** Horner evaluation *)
Fixpoint heval (p : list byte) (x : byte) : byte :=
  match p with [] => x00 | c :: r => gadd c (gmul x (heval r x)) end.

Lemma gsum_map_scale {A} (k : byte) (f : A -> byte) l :
  gsum (map (fun i => gmul k (f i)) l) = gmul k (gsum (map f l)).
Proof.
  induction l as [|a l IH]; cbn; [symmetry; apply gmul_0_r|].
  fold (gsum (map f l)). change (fold_right gadd x00 (map (fun i => gmul k (f i)) l)) with
    (gsum (map (fun i => gmul k (f i)) l)). rewrite IH. ring.
Qed.

Lemma gsum_cons a l : gsum (a :: l) = gadd a (gsum l).
Proof. reflexivity. Qed.

Lemma gsum_app l m : gsum (l ++ m) = gadd (gsum l) (gsum m).
Proof.
  induction l as [|a l IH]; cbn [app]; [rewrite gadd_0_l; reflexivity|].
  rewrite !gsum_cons, IH. ring.
Qed.

Lemma gsum_map_add {A} (f g : A -> byte) l :
  gsum (map (fun i => gadd (f i) (g i)) l) = gadd (gsum (map f l)) (gsum (map g l)).
Proof.
  induction l as [|a l IH]; [reflexivity|]. cbn [map]. rewrite !gsum_cons, IH. ring.
Qed.

Lemma gsum_map_zero {A} (f : A -> byte) l : (forall a, In a l -> f a = x00) -> gsum (map f l) = x00.
Proof.
  induction l as [|a l IH]; intros H; [reflexivity|]. cbn [map]. rewrite gsum_cons.
  rewrite H by (left; reflexivity). rewrite gadd_0_l. apply IH. intros b Hb. apply H. right. exact Hb.
Qed.

Lemma gsum_map_single {A} (f : A -> byte) l a : NoDup l -> In a l ->
  (forall b, In b l -> b <> a -> f b = x00) -> gsum (map f l) = f a.
Proof.
  induction l as [|c l IH]; intros Hn Hi H; [destruct Hi|].
  cbn [map]. rewrite gsum_cons. inversion Hn as [|? ? Hc Hn']; subst.
  destruct Hi as [->|Hi].
  - rewrite gsum_map_zero, gadd_0_r; [reflexivity|].
    intros b Hb. apply H; [right; exact Hb|]. intros ->. contradiction.
  - rewrite (H c) by (try (left; reflexivity); intros ->; contradiction).
    rewrite gadd_0_l. apply IH; [assumption..|]. intros b Hb. apply H. right. exact Hb.
Qed.

Lemma peval_heval p x : peval p x = heval p x.
Proof.
  unfold peval. induction p as [|c r IH]; [reflexivity|].
  cbn [length].
  change (seq 0 (S (length r))) with (0 :: seq 1 (length r)).
  cbn [map]. rewrite gsum_cons. cbn [nth gpow heval]. rewrite gmul_1_r. f_equal.
  rewrite <- seq_shift, map_map. cbn [nth gpow]. rewrite <- IH, <- gsum_map_scale.
  f_equal. apply map_ext. intros i. ring.
Qed.

(** ** products *)
Definition gprod (l : list byte) : byte := fold_right gmul x01 l.
Lemma gprod_cons a l : gprod (a :: l) = gmul a (gprod l).
Proof. reflexivity. Qed.
Lemma gprod_zero l : In x00 l -> gprod l = x00.
Proof.
  induction l as [|a l IH]; intros H; [destruct H|]. rewrite gprod_cons.
  destruct H as [->|H]; [apply gmul_0_l|]. rewrite (IH H). apply gmul_0_r.
Qed.
Lemma gprod_neq_0 l : ~ In x00 l -> gprod l <> x00.
Proof.
  induction l as [|a l IH]; intros H; [discriminate|]. rewrite gprod_cons.
  apply gmul_neq_0; [intros ->; apply H; left; reflexivity|]. apply IH. intros F. apply H. right. exact F.
Qed.
Lemma gprod_ones {A} (f : A -> byte) l : (forall a, In a l -> f a = x01) -> gprod (map f l) = x01.
Proof.
  induction l as [|a l IH]; intros H; [reflexivity|]. cbn [map]. rewrite gprod_cons.
  rewrite H by (left; reflexivity). rewrite gmul_1_l. apply IH. intros b Hb. apply H. right. exact Hb.
Qed.

(** ** roots *)
Lemma synthetic p r : exists q, length q = pred (length p) /\
  forall x, heval p x = gadd (gmul (gadd x r) (heval q x)) (heval p r).
Proof.
  induction p as [|c p [q [Hq IH]]].
  - exists []. split; [reflexivity|]. intros x. cbn. ring.
  - destruct p as [|d p].
    + exists []. split; [reflexivity|]. intros x. cbn. ring.
    + exists (heval (d :: p) r :: q). split.
      * cbn [length pred] in *. lia.
      * intros x. cbn [heval] in *. rewrite IH. generalize (heval q x). intros u.
        generalize (gadd d (gmul r (heval p r))). intros v.
        ring.
Qed.

Lemma roots_zero rs : forall p, NoDup rs -> length p <= length rs ->
  (forall r, In r rs -> heval p r = x00) -> forall x, heval p x = x00.
Proof.
  induction rs as [|r rs IH]; intros p Hn Hl Hr x.
  - destruct p; [reflexivity|cbn in Hl; lia].
  - inversion Hn as [|? ? Hr' Hn']; subst.
    destruct (synthetic p r) as [q [Hq Hs]].
    rewrite Hs, (Hr r) by (left; reflexivity).
    rewrite (IH q); [ring| assumption | cbn in Hl; lia |].
    intros s Hin. specialize (Hs s). rewrite (Hr r) in Hs by (left; reflexivity).
    rewrite (Hr s) in Hs by (right; assumption). rewrite gadd_0_r in Hs. symmetry in Hs.
    apply gmul_eq_0 in Hs as [Hs|Hs]; [|assumption].
    apply (proj1 (gadd_eq_0 _ _)) in Hs. subst. contradiction.
Qed.

(** ** sum, scaling, multiplication by linear factors *)
Fixpoint padd (p q : list byte) : list byte :=
  match p, q with
  | [], _ => q
  | _, [] => p
  | a :: p', b :: q' => gadd a b :: padd p' q'
  end.
Lemma heval_padd p : forall q x, heval (padd p q) x = gadd (heval p x) (heval q x).
Proof.
  induction p as [|a p IH]; intros q x; [cbn; ring|].
  destruct q as [|b q]; cbn [padd heval]; [ring|]. rewrite IH. ring.
Qed.
Lemma padd_length p : forall q, length (padd p q) = max (length p) (length q).
Proof.
  induction p as [|a p IH]; intros [|b q]; cbn [padd length]; try lia. rewrite IH. lia.
Qed.
Definition pscale (k : byte) (p : list byte) : list byte := map (gmul k) p.
Lemma heval_pscale k p x : heval (pscale k p) x = gmul k (heval p x).
Proof.
  induction p as [|a p IH]; cbn; [ring|]. fold (pscale k p). rewrite IH. ring.
Qed.
Lemma pscale_length k p : length (pscale k p) = length p.
Proof. apply map_length. Qed.
(** (X + r) * p *)
Definition pmulX (r : byte) (p : list byte) : list byte := padd (pscale r p) (x00 :: p).
Lemma heval_pmulX r p x : heval (pmulX r p) x = gmul (gadd x r) (heval p x).
Proof. unfold pmulX. rewrite heval_padd, heval_pscale. cbn [heval]. ring. Qed.
Lemma pmulX_length r p : length (pmulX r p) = S (length p).
Proof. unfold pmulX. rewrite padd_length, pscale_length. cbn [length]. lia. Qed.

Definition prodpoly (rs : list byte) : list byte := fold_right pmulX [x01] rs.
Lemma prodpoly_length rs : length (prodpoly rs) = S (length rs).
Proof. induction rs as [|r rs IH]; [reflexivity|]. cbn. rewrite pmulX_length. fold (prodpoly rs). lia. Qed.
Lemma heval_prodpoly rs x : heval (prodpoly rs) x = gprod (map (fun r => gadd x r) rs).
Proof.
  induction rs as [|r rs IH]; [cbn; ring|]. cbn [prodpoly fold_right map]. fold (prodpoly rs).
  rewrite heval_pmulX, gprod_cons, IH. reflexivity.
Qed.

Lemma heval_0 p : heval p x00 = nth 0 p x00.
Proof. destruct p as [|c p]; [reflexivity|]. cbn. ring. Qed.

Lemma heval_app_zeros p n x : heval (p ++ repeat x00 n) x = heval p x.
Proof.
  induction p as [|c p IH]; cbn.
  - induction n as [|n IHn]; [reflexivity|]. cbn. rewrite IHn. ring.
  - rewrite IH. reflexivity.
Qed.

(** ** functions given by a polynomial with at most n coefficients *)
Definition polyfun (n : nat) (g : byte -> byte) : Prop :=
  exists p, length p <= n /\ forall x, heval p x = g x.

Lemma polyfun_add n g h : polyfun n g -> polyfun n h -> polyfun n (fun x => gadd (g x) (h x)).
Proof.
  intros [p [Hp Ep]] [q [Hq Eq]]. exists (padd p q). split.
  - rewrite padd_length. lia.
  - intros x. rewrite heval_padd, Ep, Eq. reflexivity.
Qed.
Lemma polyfun_scale n k g : polyfun n g -> polyfun n (fun x => gmul k (g x)).
Proof.
  intros [p [Hp Ep]]. exists (pscale k p). split; [rewrite pscale_length; exact Hp|].
  intros x. rewrite heval_pscale, Ep. reflexivity.
Qed.
Lemma polyfun_ext n g h : (forall x, g x = h x) -> polyfun n g -> polyfun n h.
Proof. intros E [p [Hp Ep]]. exists p. split; [exact Hp|]. intros x. rewrite Ep. apply E. Qed.
Lemma polyfun_le n m g : n <= m -> polyfun n g -> polyfun m g.
Proof. intros H [p [Hp Ep]]. exists p. split; [lia|exact Ep]. Qed.
Lemma polyfun_gsum {A} n (l : list A) (g : A -> byte -> byte) :
  (forall a, In a l -> polyfun n (g a)) -> polyfun n (fun x => gsum (map (fun a => g a x) l)).
Proof.
  induction l as [|a l IH]; intros H.
  - exists []. split; [cbn; lia|reflexivity].
  - apply (polyfun_ext n (fun x => gadd (g a x) (gsum (map (fun a => g a x) l)))); [reflexivity|].
    apply polyfun_add; [apply H; left; reflexivity|]. apply IH. intros b Hb. apply H. right. exact Hb.
Qed.

(** two polynomial functions with at most n coefficients agreeing on n points are equal *)
Lemma polyfun_unique n g h rs : polyfun n g -> polyfun n h -> NoDup rs -> n <= length rs ->
  (forall r, In r rs -> g r = h r) -> forall x, g x = h x.
Proof.
  intros [p [Hp Ep]] [q [Hq Eq]] Hn Hl Hr x.
  apply gadd_eq_0. rewrite <- Ep, <- Eq, <- heval_padd.
  apply (roots_zero rs); [exact Hn | rewrite padd_length; lia |].
  intros r Hin. rewrite heval_padd, Ep, Eq, (Hr r Hin). apply gadd_self.
Qed.

(** ** Lagrange interpolation, by index *)
Definition others (i k : nat) : list nat := filter (fun j => negb (i =? j)) (seq 0 k).

Lemma others_in i k j : In j (others i k) <-> j < k /\ j <> i.
Proof.
  unfold others. rewrite filter_In, in_seq, negb_true_iff, Nat.eqb_neq. lia.
Qed.
Lemma others_length i k : i < k -> length (others i k) = k - 1.
Proof.
  intros H. unfold others.
  replace k with (i + S (k - i - 1)) at 1 by lia.
  rewrite seq_app, filter_app, app_length. cbn [seq filter]. rewrite Nat.add_0_l, Nat.eqb_refl. cbn [negb].
  assert (F : forall a n, (forall j, a <= j < a + n -> j <> i) ->
            filter (fun j => negb (i =? j)) (seq a n) = seq a n).
  { intros a n. revert a. induction n as [|n IH]; intros a Hj; [reflexivity|]. cbn [seq filter].
    destruct (Nat.eqb_spec i a) as [E|E]; [exfalso; apply (Hj a); lia|]. cbn [negb].
    rewrite IH; [reflexivity|]. intros j Hjj. apply Hj. lia. }
  rewrite !F by (intros; lia). rewrite !seq_length. lia.
Qed.

Definition basis (xs : list byte) (i : nat) (x : byte) : byte :=
  gprod (map (fun j => gdiv (gadd x (nth j xs x00)) (gadd (nth i xs x00) (nth j xs x00)))
             (others i (length xs))).

Definition lagrange (xs ys : list byte) (x : byte) : byte :=
  gsum (map (fun i => gmul (nth i ys x00) (basis xs i x)) (seq 0 (length xs))).

Lemma gprod_div {A} (f g : A -> byte) l :
  gprod (map (fun j => gdiv (f j) (g j)) l) =
  gmul (gprod (map (fun j => ginv (g j)) l)) (gprod (map f l)).
Proof.
  induction l as [|a l IH]; cbn [map]; [cbn; ring|]. rewrite !gprod_cons, IH. unfold gdiv. ring.
Qed.

Lemma basis_polyfun xs i : i < length xs -> polyfun (length xs) (basis xs i).
Proof.
  intros Hi. unfold basis.
  eapply polyfun_ext; [intros x; symmetry; apply gprod_div|].
  apply polyfun_scale.
  exists (prodpoly (map (fun j => nth j xs x00) (others i (length xs)))). split.
  - rewrite prodpoly_length, map_length, others_length by exact Hi. lia.
  - intros x. rewrite heval_prodpoly, map_map. reflexivity.
Qed.

Lemma lagrange_polyfun xs ys : polyfun (length xs) (lagrange xs ys).
Proof.
  unfold lagrange. apply (polyfun_gsum (length xs) _ (fun i x => gmul (nth i ys x00) (basis xs i x))).
  intros i Hi. apply in_seq in Hi. apply polyfun_scale, basis_polyfun. lia.
Qed.

Lemma nth_inj_NoDup (xs : list byte) i j : NoDup xs -> i < length xs -> j < length xs ->
  nth i xs x00 = nth j xs x00 -> i = j.
Proof. intros Hn Hi Hj E. eapply NoDup_nth; eassumption. Qed.

Lemma gdiv_self a : a <> x00 -> gdiv a a = x01.
Proof. intros H. unfold gdiv. rewrite gmul_comm. apply ginv_l, H. Qed.

Lemma basis_same xs i : NoDup xs -> i < length xs -> basis xs i (nth i xs x00) = x01.
Proof.
  intros Hn Hi. unfold basis. apply gprod_ones. intros j Hj. apply others_in in Hj.
  apply gdiv_self. intros E. apply (proj1 (gadd_eq_0 _ _)) in E. apply nth_inj_NoDup in E; (lia || assumption).
Qed.

Lemma basis_other xs i m : m < length xs -> m <> i -> basis xs i (nth m xs x00) = x00.
Proof.
  intros Hm Hne. unfold basis. apply gprod_zero.
  apply in_map_iff. exists m. split; [|apply others_in; lia].
  rewrite gadd_self. unfold gdiv. apply gmul_0_l.
Qed.

Lemma lagrange_at xs ys m : NoDup xs -> m < length xs -> lagrange xs ys (nth m xs x00) = nth m ys x00.
Proof.
  intros Hn Hm. unfold lagrange.
  rewrite (gsum_map_single _ _ m); [|apply seq_NoDup|apply in_seq; lia|].
  - rewrite basis_same by assumption. apply gmul_1_r.
  - intros b Hb Hne. apply in_seq in Hb. rewrite basis_other by (assumption || congruence). apply gmul_0_r.
Qed.

Lemma lagrange_unique xs ys f : NoDup xs -> length f <= length xs ->
  (forall i, i < length xs -> heval f (nth i xs x00) = nth i ys x00) ->
  forall x, lagrange xs ys x = heval f x.
Proof.
  intros Hn Hl Hf x.
  apply (polyfun_unique (length xs) (lagrange xs ys) (heval f) xs); try assumption; try lia.
  - apply lagrange_polyfun.
  - exists f. split; [exact Hl|reflexivity].
  - intros r Hr. apply In_nth with (d := x00) in Hr as [i [Hi <-]].
    rewrite lagrange_at by assumption. symmetry. apply Hf, Hi.
Qed.

Lemma basis_neq_0 xs i : NoDup xs -> i < length xs -> ~ In x00 xs -> basis xs i x00 <> x00.
Proof.
  intros Hn Hi H0. unfold basis. apply gprod_neq_0. intros H. apply in_map_iff in H as [j [E Hj]].
  apply others_in in Hj. unfold gdiv in E. rewrite gadd_0_l in E.
  apply gmul_eq_0 in E as [E|E].
  - apply H0. rewrite <- E. apply nth_In. lia.
  - revert E. apply ginv_neq_0. intros F. apply (proj1 (gadd_eq_0 _ _)) in F. apply nth_inj_NoDup in F; (lia || assumption).
Qed.
