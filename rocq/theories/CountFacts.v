(** Exact number of coefficient buffers behind a view; uniqueness of polynomials as coefficient lists. *)
From Coq Require Import List NArith ZArith Lia Arith Bool Permutation.
From Coq.Init Require Import Byte.
From Verif Require Import GoSem Bytes Spec Galois GF PolyFacts GoFacts VectorFacts Polynomial PolynomialFacts Shamir SplitFacts CombineFacts
  Secrecy CsprngFacts Derived.
Import ListNotations.

(** ** polynomials vanishing everywhere *)
Definition nonzero_bytes : list byte := filter (fun b => negb (beq b x00)) all_bytes.
Lemma nonzero_bytes_length : length nonzero_bytes = 255.
Proof. vm_compute. reflexivity. Qed.
Lemma nonzero_bytes_NoDup : NoDup nonzero_bytes.
Proof. apply NoDup_filter, all_bytes_NoDup. Qed.

Lemma nonzero_bytes_In r : In r nonzero_bytes -> r <> x00.
Proof. unfold nonzero_bytes. intros H E. apply filter_In in H as [_ H]. subst r. discriminate. Qed.

Global Opaque nonzero_bytes.

Lemma heval_cons c p x : heval (c :: p) x = gadd c (gmul x (heval p x)).
Proof. reflexivity. Qed.

Lemma heval_everywhere_zero p : length p <= 256 -> (forall x, heval p x = x00) -> p = repeat x00 (length p).
Proof.
  induction p as [|c p IH]; intros Hl Hz; [reflexivity|].
  assert (Hc : c = x00). { pose proof (Hz x00) as Hz0. rewrite heval_0 in Hz0. exact Hz0. }
  assert (Hlp : length p <= 255) by (apply le_S_n; exact Hl).
  assert (Hp : p = repeat x00 (length p)).
  { apply IH; [apply le_S; exact Hlp|].
    apply (roots_zero nonzero_bytes); [apply nonzero_bytes_NoDup|rewrite nonzero_bytes_length; exact Hlp|].
    intros r Hr. apply nonzero_bytes_In in Hr. pose proof (Hz r) as Hzr. rewrite heval_cons, Hc, gadd_0_l in Hzr.
    destruct (gmul_eq_0 _ _ Hzr); [contradiction|assumption]. }
  rewrite Hc. cbn [length repeat]. f_equal. exact Hp.
Qed.

Lemma poly_unique (p q rs : list byte) : length p = length q -> length p <= length rs -> NoDup rs ->
  (forall r, In r rs -> heval p r = heval q r) -> p = q.
Proof.
  intros Hl Hr ND E. assert (Hx : xor_bytes p q = repeat x00 (length (xor_bytes p q))).
  { apply heval_everywhere_zero.
    - rewrite xor_bytes_length by exact Hl. pose proof (RegenFacts.NoDup_bytes_256 rs ND). lia.
    - apply (roots_zero rs); [exact ND|rewrite xor_bytes_length by exact Hl; exact Hr|].
      intros r Hin. rewrite heval_xor_bytes by exact Hl. rewrite E by exact Hin. apply gadd_self. }
  apply nth_ext with (d := x00) (d' := x00); [exact Hl|]. intros i Hi.
  assert (Hn : nth i (xor_bytes p q) x00 = x00) by (rewrite Hx; apply nth_repeat).
  rewrite nth_xor_bytes in Hn by exact Hl. apply gadd_eq_0. exact Hn.
Qed.

(** ** counting by fibres *)
Lemma all_strings_length n : length (all_strings n) = 256 ^ n.
Proof.
  induction n as [|n IH]; [reflexivity|]. cbn [all_strings]. rewrite Nat.pow_succ_r'.
  assert (G : forall (l : list byte) (m : list (list byte)), length (flat_map (fun b => map (cons b) m) l) = length l * length m).
  { induction l as [|b l IHl]; intros m; [reflexivity|]. cbn [flat_map]. rewrite app_length, map_length, IHl. cbn [length]. lia. }
  rewrite G, IH. f_equal.
Qed.

Lemma count_0 {A} (P : A -> bool) l : (forall a, In a l -> P a = false) -> count P l = 0.
Proof. intros H. rewrite (count_ext _ (fun _ => false) _ H). unfold count. induction l as [|a l IH]; [reflexivity|]. cbn. apply IH. intros b Hb. apply H. right; exact Hb. Qed.

Lemma count_one {A} (P : A -> bool) l a : NoDup l -> In a l -> P a = true -> (forall b, In b l -> P b = true -> b = a) -> count P l = 1.
Proof.
  intros ND. induction ND as [|b l Hb ND IH]; intros Hin Ha Hu; [destruct Hin|]. unfold count in *. cbn [filter].
  destruct Hin as [->|Hin].
  - rewrite Ha. cbn [length]. f_equal. apply count_0. intros c Hc. destruct (P c) eqn:E; [|reflexivity].
    exfalso. apply Hb. rewrite <- (Hu c (or_intror Hc) E). exact Hc.
  - destruct (P b) eqn:E; [exfalso; apply Hb; rewrite (Hu b (or_introl eq_refl) E); exact Hin|].
    apply IH; [exact Hin|exact Ha|]. intros c Hc. apply Hu. right. exact Hc.
Qed.

Lemma list_sum_add {A} (f g : A -> nat) l : list_sum (map (fun a => f a + g a) l) = list_sum (map f l) + list_sum (map g l).
Proof. induction l as [|a l IH]; [reflexivity|]. cbn [map]. change (list_sum (?x :: ?r)) with (x + list_sum r). cbn. cbn in IH. lia. Qed.

Lemma double_count {A B} (R : A -> B -> bool) (la : list A) (lb : list B) :
  list_sum (map (fun a => count (R a) lb) la) = list_sum (map (fun b => count (fun a => R a b) la) lb).
Proof.
  induction la as [|a la IH].
  - cbn. induction lb as [|b lb IHb]; [reflexivity|]. cbn. exact IHb.
  - cbn [map]. change (count (R a) lb + list_sum (map (fun a => count (R a) lb) la) = list_sum (map (fun b => count (fun a0 => R a0 b) (a :: la)) lb)).
    rewrite IH. assert (E : map (fun b => count (fun a0 => R a0 b) (a :: la)) lb
      = map (fun b => (if R a b then 1 else 0) + count (fun a0 => R a0 b) la) lb).
    { apply map_ext. intros b. unfold count. cbn [filter]. destruct (R a b); reflexivity. }
    rewrite E, list_sum_add. f_equal. clear. unfold count. induction lb as [|b lb IHb]; [reflexivity|]. cbn [filter map].
    change (list_sum (?x :: ?r)) with (x + list_sum r). destruct (R a b); cbn in *; lia.
Qed.

Lemma list_sum_const {A} (l : list A) c : list_sum (map (fun _ => c) l) = length l * c.
Proof.
  induction l as [|a l IH]; [reflexivity|]. cbn [map length].
  change (list_sum (c :: map (fun _ : A => c) l)) with (c + list_sum (map (fun _ : A => c) l)). rewrite IH. reflexivity.
Qed.

(** the view that shows the data bytes [w] (row after row) under the tags [xs] *)
Definition view_of (N : nat) (xs w : list byte) : list (list byte) := map (fun i => row N w i ++ [nth i xs x00]) (seq 0 (length xs)).

Lemma view_of_is_view N xs w : length w = length xs * N -> is_view N xs (view_of N xs w).
Proof.
  intros Hw. split; [unfold view_of; rewrite map_length, seq_length; reflexivity|]. intros i Hi. unfold view_of. rewrite nth_map_seq by exact Hi.
  assert (Lr : length (row N w i) = N) by (apply row_length; nia).
  split; [rewrite app_length, Lr; reflexivity|]. rewrite app_nth2 by lia. rewrite Lr, Nat.sub_diag. reflexivity.
Qed.

Lemma view_of_inj N xs w w' : length w = length xs * N -> length w' = length xs * N -> view_of N xs w = view_of N xs w' -> w = w'.
Proof.
  intros Hw Hw' E. apply (rows_ext x00 N (length xs)); [nia|nia|]. intros i Hi.
  assert (Ei : nth i (view_of N xs w) [] = nth i (view_of N xs w') []) by (rewrite E; reflexivity).
  unfold view_of in Ei. rewrite !nth_map_seq in Ei by exact Hi. apply app_inj_tail in Ei as [Ei _]. exact Ei.
Qed.

Lemma view_of_surj N xs v : is_view N xs v -> exists w, length w = length xs * N /\ view_of N xs w = v.
Proof.
  intros (Lv & Hv). exists (concat (map (firstn N) v)).
  assert (F : Forall (fun d : list byte => length d = N) (map (firstn N) v)).
  { apply Forall_forall. intros q Hq. apply in_map_iff in Hq as (d & <- & Hd). destruct (In_nth _ _ [] Hd) as (i & Hi & <-).
    destruct (Hv i ltac:(lia)) as (L & _). rewrite firstn_length, L. lia. }
  split; [rewrite (concat_length N) by exact F; rewrite map_length, Lv; lia|].
  apply nth_ext with (d := []) (d' := []); [unfold view_of; rewrite map_length, seq_length; symmetry; exact Lv|].
  intros i Hi. unfold view_of in Hi |- *. rewrite map_length, seq_length in Hi. rewrite nth_map_seq by exact Hi.
  rewrite row_concat by (try exact F; rewrite map_length; lia). rewrite (nth_map' (firstn N) v i [] []) by lia.
  destruct (Hv i Hi) as (L & T). rewrite <- T.
  apply nth_ext with (d := x00) (d' := x00); [rewrite app_length, firstn_length, L; cbn [length]; lia|].
  intros j Hj. rewrite app_length, firstn_length, L in Hj. cbn [length] in Hj.
  destruct (Nat.lt_ge_cases j N); [rewrite app_nth1 by (rewrite firstn_length, L; lia); apply nth_firstn; assumption|].
  rewrite app_nth2 by (rewrite firstn_length, L; lia). rewrite firstn_length, L. replace (j - Nat.min N (N + 1)) with 0 by lia.
  cbn [nth]. f_equal. lia.
Qed.

Lemma share_view N xs polys : length polys = N -> is_view N xs (map (share_at polys) xs).
Proof.
  intros Lp. split; [apply map_length|]. intros i Hi. rewrite (nth_map' (share_at polys) xs i [] x00) by exact Hi.
  split; [rewrite share_at_length, Lp; reflexivity|]. unfold share_at. rewrite app_nth2 by (rewrite map_length; lia).
  rewrite map_length, Lp, Nat.sub_diag. reflexivity.
Qed.

Lemma exact_count P M N t xs s v : shiftable P M N t -> NoDup xs -> ~ In x00 xs -> length xs < t -> length s = N ->
  is_view N xs v -> length xs * N <= M ->
  count (fun r => shares_eqb (map (share_at (P s r)) xs) v) (all_strings M) = 256 ^ (M - length xs * N).
Proof.
  intros Sh ND H0 Ht Ls Hv HM. set (c := count _ _). set (K := length xs * N) in *.
  assert (E : 256 ^ K * c = 256 ^ M).
  { rewrite <- (all_strings_length K), <- (all_strings_length M). rewrite <- list_sum_const.
    rewrite (map_ext_in _ (fun w => count (fun r => shares_eqb (map (share_at (P s r)) xs) (view_of N xs w)) (all_strings M))).
    2: { intros w Hw. apply all_strings_in in Hw. unfold c. symmetry. apply (uniform_count P M N t); try assumption. apply view_of_is_view. exact Hw. }
    rewrite (double_count (fun w r => shares_eqb (map (share_at (P s r)) xs) (view_of N xs w)) (all_strings K) (all_strings M)).
    rewrite (map_ext_in _ (fun _ => 1)).
    { rewrite list_sum_const. lia. }
    intros r Hr. apply all_strings_in in Hr.
    assert (Lp : length (P s r) = N) by (apply Sh; assumption).
    destruct (view_of_surj N xs _ (share_view N xs (P s r) Lp)) as (w & Lw & Ew).
    apply (count_one _ _ w); [apply all_strings_NoDup|apply all_strings_in; exact Lw|apply shares_eqb_true; symmetry; exact Ew|].
    intros w' Hw' E'. apply all_strings_in in Hw'. apply shares_eqb_true in E'. apply (view_of_inj N xs); [exact Hw'|exact Lw|congruence]. }
  replace M with (K + (M - K)) in E by lia. rewrite Nat.pow_add_r in E.
  apply Nat.mul_cancel_l in E; [replace (K + (M - K) - K) with (M - K) in *; [exact E|lia]|]. apply Nat.pow_nonzero. lia.
Qed.
