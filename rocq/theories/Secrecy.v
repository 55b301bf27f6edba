(** Counting argument behind perfect secrecy: the coefficient buffers that show a given view. *)
From Coq Require Import List NArith ZArith Lia Arith Bool Permutation.
From Coq.Init Require Import Byte.
From Verif Require Import GoSem Bytes Spec Galois GF PolyFacts Vector GoFacts VectorFacts Csprng Pool Polynomial PolynomialFacts Shamir SplitFacts CombineFacts.
Import ListNotations.

Lemma shares_eqb_true a b : shares_eqb a b = true <-> a = b.
Proof. unfold shares_eqb. destruct (list_eq_dec _ a b); split; congruence. Qed.

(** ** counting *)
Lemma all_strings_in n : forall r, In r (all_strings n) <-> length r = n.
Proof.
  induction n as [|n IH]; intros r; cbn [all_strings].
  - split; [intros [<-|[]]; reflexivity|]. destruct r; [left; reflexivity|discriminate].
  - rewrite in_flat_map. split.
    + intros (b & _ & H). apply in_map_iff in H as (q & <- & Hq). apply IH in Hq. cbn. lia.
    + destruct r as [|b r]; [discriminate|]. intros H. exists b. split; [apply all_bytes_in|]. apply in_map, IH. cbn in H. lia.
Qed.

Lemma NoDup_flat_cons (l : list byte) (m : list (list byte)) : NoDup l -> NoDup m -> NoDup (flat_map (fun b => map (cons b) m) l).
Proof.
  intros Hl Hm. induction Hl as [|b l Hb Hl IH]; [constructor|]. cbn [flat_map].
  assert (NM : NoDup (map (cons b) m)) by (apply FinFun.Injective_map_NoDup; [intros x y E; congruence|exact Hm]).
  remember (map (cons b) m) as h eqn:Eh.
  assert (D : forall x, In x h -> ~ In x (flat_map (fun b => map (cons b) m) l)).
  { intros x Hx F. subst h. apply in_map_iff in Hx as (q & <- & _). apply in_flat_map in F as (c & Hc & F).
    apply in_map_iff in F as (q' & E & _). injection E as -> _. contradiction. }
  clear Eh. induction h as [|x h IHh]; [exact IH|]. inversion NM as [|? ? Hx NM']; subst. cbn [app]. constructor.
  - rewrite in_app_iff. intros [F|F]; [contradiction|]. apply (D x); [left; reflexivity|exact F].
  - apply IHh; [exact NM'|]. intros y Hy. apply D. right. exact Hy.
Qed.

Lemma all_strings_NoDup n : NoDup (all_strings n).
Proof.
  induction n as [|n IH]; [repeat constructor; auto|]. cbn [all_strings]. apply NoDup_flat_cons; [apply all_bytes_NoDup|exact IH].
Qed.

Lemma count_ext {A} (P Q : A -> bool) l : (forall a, In a l -> P a = Q a) -> count P l = count Q l.
Proof. intros H. unfold count. rewrite (filter_ext_in _ _ l H). reflexivity. Qed.

Lemma count_map {A B} (f : A -> B) (P : B -> bool) l : count P (map f l) = count (fun a => P (f a)) l.
Proof.
  unfold count. induction l as [|a l IH]; [reflexivity|]. cbn [map filter]. destruct (P (f a)); cbn [length]; rewrite IH; reflexivity.
Qed.

Lemma filter_permutation {A} (P : A -> bool) l m : Permutation l m -> Permutation (filter P l) (filter P m).
Proof.
  induction 1 as [|x l m _ IH|x y l|l m k _ IH1 _ IH2]; cbn.
  - constructor.
  - destruct (P x); [constructor|]; exact IH.
  - destruct (P x), (P y); try reflexivity. constructor.
  - etransitivity; eassumption.
Qed.

Lemma count_bij {A} (P Q : A -> bool) (f : A -> A) l : NoDup l -> (forall a, In a l -> In (f a) l) ->
  (forall a b, In a l -> In b l -> f a = f b -> a = b) -> (forall a, In a l -> P a = Q (f a)) -> count P l = count Q l.
Proof.
  intros ND Hin Hinj HP.
  assert (Pm : Permutation (map f l) l).
  { apply NoDup_Permutation_bis.
    - clear HP Hin. induction ND as [|a l Ha ND IH]; [constructor|]. cbn [map]. constructor.
      + intros F. apply in_map_iff in F as (b & E & Hb). apply Ha. rewrite <- (Hinj b a); [exact Hb|right; exact Hb|left; reflexivity|exact E].
      + apply IH. intros x y Hx Hy. apply Hinj; right; assumption.
    - rewrite map_length. lia.
    - intros x Hx. apply in_map_iff in Hx as (a & <- & Ha). apply Hin, Ha. }
  transitivity (count Q (map f l)).
  - rewrite count_map. apply count_ext. exact HP.
  - unfold count. apply Permutation_length, filter_permutation, Pm.
Qed.

(** ** XOR by a fixed string *)
Lemma xor_bytes_cancel a b : length a = length b -> xor_bytes (xor_bytes a b) b = a.
Proof.
  revert b; induction a as [|x a IH]; intros [|y b] H; try discriminate; [reflexivity|]. cbn [xor_bytes].
  f_equal; [|apply IH; cbn in H; lia]. rewrite gadd_assoc', gadd_self. apply gadd_0_r.
Qed.

Lemma firstn_xor_bytes n : forall a b, firstn n (xor_bytes a b) = xor_bytes (firstn n a) (firstn n b).
Proof. induction n as [|n IH]; intros [|x a] [|y b]; cbn; try reflexivity. f_equal. apply IH. Qed.

Lemma xor_bytes_nil_r a : xor_bytes a [] = [].
Proof. destruct a; reflexivity. Qed.

Lemma skipn_xor_bytes n : forall a b, skipn n (xor_bytes a b) = xor_bytes (skipn n a) (skipn n b).
Proof. induction n as [|n IH]; intros [|x a] [|y b]; cbn; rewrite ?xor_bytes_nil_r; try reflexivity. apply IH. Qed.

Lemma row_xor_bytes c a b k : row c (xor_bytes a b) k = xor_bytes (row c a k) (row c b k).
Proof. unfold row. rewrite skipn_xor_bytes, firstn_xor_bytes. reflexivity. Qed.

Lemma heval_xor_bytes p : forall q x, length p = length q -> heval (xor_bytes p q) x = gadd (heval p x) (heval q x).
Proof.
  induction p as [|a p IH]; intros [|b q] x H; try discriminate; [reflexivity|]. cbn [xor_bytes heval].
  rewrite IH by (cbn in H; lia). ring.
Qed.

(** ** polynomials with prescribed values *)
Lemma poly_through t xs ys c0 : NoDup xs -> ~ In x00 xs -> length xs < t ->
  exists d, length d = t /\ nth 0 d x00 = c0 /\ forall i, i < length xs -> heval d (nth i xs x00) = nth i ys x00.
Proof.
  intros ND H0 Ht. assert (ND' : NoDup (x00 :: xs)) by (constructor; assumption).
  destruct (lagrange_polyfun (x00 :: xs) (c0 :: ys)) as (q & Lq & Eq). cbn [length] in Lq.
  exists (q ++ repeat x00 (t - length q)). split; [rewrite app_length, repeat_length; lia|]. split.
  - rewrite <- heval_0, heval_app_zeros, Eq. exact (lagrange_at (x00 :: xs) (c0 :: ys) 0 ND' (Nat.lt_0_succ _)).
  - intros i Hi. rewrite heval_app_zeros, Eq.
    refine (lagrange_at (x00 :: xs) (c0 :: ys) (S i) ND' _). cbn. lia.
Qed.

Lemma polys_through t xs N (ys : nat -> list byte) (c0 : nat -> byte) : NoDup xs -> ~ In x00 xs -> length xs < t ->
  exists ds, length ds = N /\ Forall (fun d => length d = t) ds /\
    forall p, p < N -> nth 0 (nth p ds []) x00 = c0 p /\
      forall i, i < length xs -> heval (nth p ds []) (nth i xs x00) = nth i (ys p) x00.
Proof.
  intros ND H0 Ht. induction N as [|N (ds & L & F & V)].
  - exists []. split; [reflexivity|]. split; [constructor|]. intros; lia.
  - destruct (poly_through t xs (ys N) (c0 N) ND H0 Ht) as (d & Ld & V0 & Vi).
    exists (ds ++ [d]). split; [rewrite app_length, L; cbn; lia|]. split; [apply Forall_app; split; [exact F|repeat constructor; exact Ld]|].
    intros p Hp. destruct (Nat.eq_dec p N) as [->|Hne].
    + rewrite app_nth2 by lia. rewrite L, Nat.sub_diag. cbn [nth]. split; assumption.
    + rewrite app_nth1 by lia. apply V. lia.
Qed.

(** A family of sharings [P secret randomness] is shiftable when any change of the polynomials that turns the constant
    terms of [s] into those of [s'] comes from XORing a fixed string to the randomness. *)
Definition shiftable (P : list byte -> list byte -> list (list byte)) (M N t : nat) : Prop :=
  (forall s r, length s = N -> length r = M -> length (P s r) = N /\ Forall (fun p => length p = t) (P s r)) /\
  forall s s' ds, length s = N -> length s' = N -> length ds = N -> Forall (fun d => length d = t) ds ->
    (forall p, p < N -> nth 0 (nth p ds []) x00 = gadd (nth p s x00) (nth p s' x00)) ->
    exists delta, length delta = M /\ forall r, length r = M -> forall p, p < N ->
      nth p (P s' (xor_bytes r delta)) [] = xor_bytes (nth p (P s r) []) (nth p ds []).

Lemma shift_core P M N t xs (s s' : list byte) (ys : nat -> list byte) :
  shiftable P M N t -> NoDup xs -> ~ In x00 xs -> length xs < t -> length s = N -> length s' = N ->
  exists delta, length delta = M /\ forall r, length r = M -> forall p i, p < N -> i < length xs ->
    heval (nth p (P s' (xor_bytes r delta)) []) (nth i xs x00)
    = gadd (heval (nth p (P s r) []) (nth i xs x00)) (nth i (ys p) x00).
Proof.
  intros (H1 & H2) ND H0 Ht Ls Ls'.
  destruct (polys_through t xs N ys (fun p => gadd (nth p s x00) (nth p s' x00)) ND H0 Ht) as (ds & Ld & Fd & Vd).
  destruct (H2 s s' ds Ls Ls' Ld Fd) as (delta & Ldel & E); [intros p Hp; apply Vd, Hp|].
  exists delta. split; [exact Ldel|]. intros r Hr p i Hp Hi. rewrite E by assumption.
  destruct (H1 s r Ls Hr) as (Lp & Fp). rewrite Forall_forall in Fp, Fd.
  rewrite heval_xor_bytes by (rewrite Fp, Fd by (apply nth_In; lia); reflexivity).
  f_equal. apply Vd; assumption.
Qed.

Lemma xor_count M (Pa Pb : list byte -> bool) delta : length delta = M ->
  (forall r, length r = M -> Pa r = Pb (xor_bytes r delta)) -> count Pa (all_strings M) = count Pb (all_strings M).
Proof.
  intros Ld H. apply count_bij with (f := fun r => xor_bytes r delta).
  - apply all_strings_NoDup.
  - intros r Hr. apply all_strings_in in Hr. apply all_strings_in. rewrite xor_bytes_length by lia. exact Hr.
  - intros a b Ha Hb E. apply all_strings_in in Ha, Hb.
    rewrite <- (xor_bytes_cancel a delta), <- (xor_bytes_cancel b delta) by lia. rewrite E. reflexivity.
  - intros r Hr. apply H. apply all_strings_in. exact Hr.
Qed.

Lemma share_at_ext N polys polys' x : length polys = N -> length polys' = N ->
  (forall p, p < N -> heval (nth p polys []) x = heval (nth p polys' []) x) -> share_at polys x = share_at polys' x.
Proof.
  intros L L' H. unfold share_at. f_equal. rewrite (map_as_seq _ polys []), (map_as_seq _ polys' []), L, L'.
  apply map_ext_in. intros p Hp. apply in_seq in Hp. rewrite !peval_heval. apply H. lia.
Qed.

(** the same view is shown equally often for both secrets *)
Lemma secrecy_count P M N t xs s s' (test : list (list byte) -> bool) :
  shiftable P M N t -> NoDup xs -> ~ In x00 xs -> length xs < t -> length s = N -> length s' = N ->
  count (fun r => test (map (share_at (P s r)) xs)) (all_strings M)
  = count (fun r => test (map (share_at (P s' r)) xs)) (all_strings M).
Proof.
  intros HP ND H0 Ht Ls Ls'.
  destruct (shift_core P M N t xs s s' (fun _ => []) HP ND H0 Ht Ls Ls') as (delta & Ld & E).
  apply (xor_count M _ _ delta Ld). intros r Hr. f_equal. apply map_ext_in. intros x Hx.
  apply In_nth with (d := x00) in Hx as (i & Hi & <-).
  destruct HP as (H1 & _). assert (Lx : length (xor_bytes r delta) = M) by (rewrite xor_bytes_length; lia).
  apply (share_at_ext N); [apply H1; assumption|apply H1; assumption|].
  intros p Hp. rewrite E by assumption. destruct i; cbn [nth]; rewrite gadd_0_r; reflexivity.
Qed.

(** all views with the right tags are shown equally often, whatever the secrets *)
Lemma uniform_count P M N t xs s s' v v' :
  shiftable P M N t -> NoDup xs -> ~ In x00 xs -> length xs < t -> length s = N -> length s' = N ->
  is_view N xs v -> is_view N xs v' ->
  count (fun r => shares_eqb (map (share_at (P s r)) xs) v) (all_strings M)
  = count (fun r => shares_eqb (map (share_at (P s' r)) xs) v') (all_strings M).
Proof.
  intros HP ND H0 Ht Ls Ls' (Lv & Hv) (Lv' & Hv').
  destruct (shift_core P M N t xs s s' (fun p => map (fun i => gadd (nth p (nth i v []) x00) (nth p (nth i v' []) x00)) (seq 0 (length xs)))
     HP ND H0 Ht Ls Ls') as (delta & Ld & E).
  apply (xor_count M _ _ delta Ld). intros r Hr.
  assert (Lx : length (xor_bytes r delta) = M) by (rewrite xor_bytes_length; lia).
  destruct HP as (H1 & _). destruct (H1 s r Ls Hr) as (Lp & _). destruct (H1 s' _ Ls' Lx) as (Lp' & _).
  assert (Char : forall polys w, length polys = N -> length w = length xs ->
    (forall i, i < length xs -> length (nth i w []) = N + 1 /\ nth N (nth i w []) x00 = nth i xs x00) ->
    (map (share_at polys) xs = w <-> forall p i, p < N -> i < length xs -> heval (nth p polys []) (nth i xs x00) = nth p (nth i w []) x00)).
  { intros polys w Lpo Lw Hw. split.
    - intros <- p i Hp Hi. rewrite (nth_map' (share_at polys) xs i [] x00) by exact Hi. rewrite nth_share_at by lia. reflexivity.
    - intros H. apply nth_ext with [] []; [rewrite map_length; lia|]. intros i Hi. rewrite map_length in Hi.
      rewrite (nth_map' (share_at polys) xs i [] x00) by exact Hi. destruct (Hw i Hi) as (Lwi & Twi).
      apply nth_ext with x00 x00; [rewrite share_at_length; lia|]. intros p Hp. rewrite share_at_length, Lpo in Hp.
      destruct (Nat.eq_dec p N) as [->|Hne].
      + unfold share_at. rewrite app_nth2 by (rewrite map_length; lia). rewrite map_length, Lpo, Nat.sub_diag. symmetry. exact Twi.
      + rewrite nth_share_at by lia. apply H; lia. }
  apply eq_true_iff_eq. rewrite !shares_eqb_true.
  rewrite (Char _ v Lp Lv Hv), (Char _ v' Lp' Lv' Hv'). clear Char.
  split; intros H p i Hp Hi.
  - rewrite E by assumption. rewrite nth_map_seq by exact Hi. rewrite H by assumption.
    rewrite <- gadd_assoc', gadd_self. apply gadd_0_l.
  - specialize (H p i Hp Hi). rewrite E in H by assumption. rewrite nth_map_seq in H by exact Hi.
    set (a := heval _ _) in *. set (b := nth p (nth i v []) x00) in *. set (c := nth p (nth i v' []) x00) in *. clearbody a b c.
    rewrite <- gadd_assoc' in H. assert (G : gadd (gadd (gadd a b) c) c = gadd c c) by (rewrite H; reflexivity).
    rewrite gadd_assoc', gadd_self, gadd_0_r in G. apply (proj1 (gadd_eq_0 _ _)). exact G.
Qed.

(** ** the buffers of Split and SplitGeneric *)
Lemma row_concat t ds : Forall (fun d : list byte => length d = t) ds -> forall p, p < length ds -> row t (concat ds) p = nth p ds [].
Proof.
  induction 1 as [|d ds Hd Hds IH]; intros p Hp; [cbn in Hp; lia|]. destruct p as [|p].
  - unfold row. rewrite Nat.mul_0_r. cbn [concat skipn nth]. apply firstn_app_exact. exact Hd.
  - cbn [nth]. rewrite <- IH by (cbn in Hp; lia). unfold row. cbn [concat]. f_equal.
    replace (t * S p) with (t + t * p) by lia. rewrite skipn_add. rewrite skipn_app_exact by exact Hd. reflexivity.
Qed.

Lemma concat_length t (ds : list (list byte)) : Forall (fun d => length d = t) ds -> length (concat ds) = t * length ds.
Proof. induction 1 as [|d ds Hd _ IH]; cbn [concat length]; [lia|]. rewrite app_length, IH, Hd. lia. Qed.

Lemma nth0_split (d : list byte) : d <> [] -> d = nth 0 d x00 :: skipn 1 d.
Proof. destruct d; [congruence|reflexivity]. Qed.

Lemma shiftable_polysOf t N : 0 < t -> shiftable (polysOf t) (t * N) N t.
Proof.
  intros Ht. split.
  - intros s r Ls Lr. split; [rewrite polysOf_length; exact Ls|]. apply polysOf_row_length; [exact Ht|rewrite Ls; exact Lr].
  - intros s s' ds Ls Ls' Ld Fd H0. exists (concat ds). split; [rewrite (concat_length t) by exact Fd; rewrite Ld; reflexivity|].
    intros r Hr p Hp. rewrite !nth_polysOf by lia. unfold polyOf.
    rewrite row_xor_bytes, row_concat by (try exact Fd; lia).
    assert (Lp : length (nth p ds []) = t) by (rewrite Forall_forall in Fd; apply Fd, nth_In; lia).
    rewrite (nth0_split (nth p ds [])) at 2 by (intros E; rewrite E in Lp; cbn in Lp; lia).
    cbn [xor_bytes]. rewrite skipn_xor_bytes. f_equal. rewrite H0 by exact Hp. rewrite <- gadd_assoc', gadd_self, gadd_0_l. reflexivity.
Qed.

Lemma shiftable_polysGen t N : 0 < t -> shiftable (polysGen t) ((t - 1) * N) N t.
Proof.
  intros Ht. split.
  - intros s r Ls Lr. split; [unfold polysGen; rewrite map_length, seq_length; exact Ls|].
    apply Forall_forall. intros q Hq. unfold polysGen in Hq. apply in_map_iff in Hq as (p & <- & Hp). apply in_seq in Hp.
    cbn [length]. rewrite row_length by nia. lia.
  - intros s s' ds Ls Ls' Ld Fd H0.
    assert (Ft : Forall (fun d => length d = t - 1) (map (skipn 1) ds)).
    { apply Forall_forall. intros q Hq. apply in_map_iff in Hq as (d & <- & Hd). rewrite Forall_forall in Fd.
      rewrite skipn_length, Fd by exact Hd. reflexivity. }
    exists (concat (map (skipn 1) ds)). split; [rewrite (concat_length (t - 1)) by exact Ft; rewrite map_length, Ld; reflexivity|].
    intros r Hr p Hp. unfold polysGen. rewrite Ls, Ls'. rewrite !nth_map_seq by exact Hp.
    rewrite row_xor_bytes, row_concat by (try exact Ft; rewrite map_length; lia).
    rewrite (nth_map' (skipn 1) ds p [] []) by lia.
    assert (Lp : length (nth p ds []) = t) by (rewrite Forall_forall in Fd; apply Fd, nth_In; lia).
    rewrite (nth0_split (nth p ds [])) at 2 by (intros E; rewrite E in Lp; cbn in Lp; lia).
    cbn [xor_bytes]. f_equal. rewrite H0 by exact Hp. rewrite <- gadd_assoc', gadd_self, gadd_0_l. reflexivity.
Qed.

Lemma take_stream_of r n : length r = n -> take_stream (stream_of r) n = r.
Proof. intros <-. unfold take_stream, stream_of. symmetry. apply list_as_map. Qed.
