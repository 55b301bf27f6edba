(** Proofs about combining too few genuine shares with other parts (C85). *)
From Coq Require Import List NArith ZArith Lia Arith Bool Permutation.
From Coq.Init Require Import Byte.
From Verif Require Import GoSem Bytes Spec Vector Pool Polynomial Shamir GoFacts GF PolyFacts PolynomialFacts SplitFacts CombineFacts RegenFacts Secrecy CountFacts
  Derived VectorFacts Pf1 Pf12 SpecMix.
Import ListNotations.

Lemma NoDup_app_remove_r' {A} (l l' : list A) : NoDup (l ++ l') -> NoDup l.
Proof. induction l as [|a l IH]; intros H; [constructor|]. inversion H as [|? ? Hn Hd]; subst. constructor; [intros X; apply Hn, in_app_iff; left; exact X|apply IH, Hd]. Qed.
Lemma sum_filter {A} (f : A -> bool) l : length (filter f l) = list_sum (map (fun a => if f a then 1 else 0) l).
Proof. induction l as [|a l IH]; [reflexivity|]. cbn [filter map]. change (list_sum (?x :: ?m)) with (x + list_sum m). destruct (f a); cbn [length]; rewrite IH; reflexivity. Qed.

Section Mix.
Variables (P : list byte -> list byte -> list (list byte)) (M N t : nat) (xj xh : list byte) (s : list byte) (w forged : list (list byte)).
Hypothesis Sh : shiftable P M N t.
Hypothesis ND : NoDup (xj ++ xh).
Hypothesis H0 : ~ In x00 (xj ++ xh).
Hypothesis Ht : length (xj ++ xh) < t.
Hypothesis Ls : length s = N.
Hypothesis HN : 1 <= N.
Hypothesis Lf : forall p, In p forged -> length p = N + 1.
Hypothesis F0 : ~ In x00 (map tag forged).
Hypothesis FD : NoDup (map tag forged ++ xh).
Hypothesis H2 : 2 <= length forged + length xh.
Hypothesis HM : (t - 1) * N <= M.

Let comb (v : list byte) (polys : list (list byte)) : bool :=
  match Combine (forged ++ map (share_at polys) xh) with Ret r => shares_eqb [r] [v] | _ => false end.
Let hit (v r : list byte) : bool := shares_eqb (map (share_at (P s r)) xj) w && comb v (P s r).

Lemma mix_combine polys : length polys = N -> exists u, Combine (forged ++ map (share_at polys) xh) = Ret u /\ length u = N.
Proof.
  intros Lp. exists (interpAt (forged ++ map (share_at polys) xh) N x00). split; [|apply interpAt_length].
  rewrite (Combine_accept _ (N + 1)).
  - replace (N + 1 - 1) with N by lia. reflexivity.
  - rewrite app_length, map_length. exact H2.
  - lia.
  - intros p Hp. apply in_app_iff in Hp as [Hp|Hp]; [apply Lf, Hp|]. apply in_map_iff in Hp as (x & <- & _). rewrite share_at_length, Lp. reflexivity.
  - rewrite map_app, map_tag_shares. exact FD.
Qed.

Lemma comb_true v polys u : Combine (forged ++ map (share_at polys) xh) = Ret u -> (comb v polys = true <-> u = v).
Proof.
  intros E. unfold comb. rewrite E. rewrite shares_eqb_true. split; [intros X; injection X; auto|intros ->; reflexivity].
Qed.

Lemma replace_mid {A} (f : list A) a b l : replace (f ++ a :: l) (length f) b = f ++ b :: l.
Proof.
  unfold replace. rewrite firstn_app, Nat.sub_diag, firstn_O, app_nil_r, firstn_all. f_equal. f_equal.
  rewrite skipn_app. rewrite skipn_all2 by lia. cbn [app]. replace (S (length f) - length f) with 1 by lia. reflexivity.
Qed.

Lemma mix_uniform v v' : xh <> [] -> length v = N -> length v' = N -> count (hit v) (all_strings M) = count (hit v') (all_strings M).
Proof.
  intros Ne Lv Lv'. assert (Exh : exists x0 xs, xh = x0 :: xs) by (destruct xh as [|x0 xs]; [congruence|eauto]).
  destruct Exh as (x0 & xs & Exh). pose proof ND as ND'. pose proof H0 as H0'. pose proof Ht as Ht'. pose proof FD as FD'. rewrite Exh in ND', H0', Ht', FD'.
  set (k := length forged).
  destruct (C57_targeted_pf (map tag forged ++ x0 :: xs) k) as (m & _ & Hm).
  { exact FD'. }
  { intros X. apply in_app_iff in X as [X|X]; [exact (F0 X)|]. apply H0'. apply in_app_iff. right. exact X. }
  { unfold k. rewrite app_length, map_length. cbn [length]. lia. }
  set (delta := xor_bytes v v'). assert (Ld : length delta = N) by (unfold delta; rewrite xor_bytes_length; lia).
  set (ys := fun p => repeat x00 (length xj) ++ gmul m (nth p delta x00) :: repeat x00 (length xs)).
  destruct (shift_core P M N t (xj ++ x0 :: xs) s s ys Sh ND' H0' Ht' Ls Ls) as (D & LD & E).
  apply (xor_count M _ _ D LD). intros r Hr. specialize (E r Hr).
  assert (Lx : length (xor_bytes r D) = M) by (rewrite xor_bytes_length; lia).
  destruct Sh as (S1 & _). destruct (S1 s r Ls Hr) as (Lp & _). destruct (S1 s _ Ls Lx) as (Lp' & _).
  assert (Ej : map (share_at (P s r)) xj = map (share_at (P s (xor_bytes r D))) xj).
  { apply map_ext_in. intros x Hx. apply In_nth with (d := x00) in Hx as (i & Hi & <-). apply (share_at_ext N); try assumption.
    intros p Hp. specialize (E p i Hp ltac:(rewrite app_length; lia)). rewrite app_nth1 in E by exact Hi. rewrite E.
    unfold ys. rewrite app_nth1 by (rewrite repeat_length; exact Hi). rewrite nth_repeat, gadd_0_r. reflexivity. }
  assert (Es : map (share_at (P s r)) xs = map (share_at (P s (xor_bytes r D))) xs).
  { apply map_ext_in. intros x Hx. apply In_nth with (d := x00) in Hx as (i & Hi & <-). apply (share_at_ext N); try assumption.
    intros p Hp. specialize (E p (length xj + S i) Hp ltac:(rewrite app_length; cbn [length]; lia)).
    rewrite app_nth2 in E by lia. replace (length xj + S i - length xj) with (S i) in E by lia.
    change (nth (S i) (x0 :: xs) x00) with (nth i xs x00) in E. rewrite E. unfold ys. rewrite app_nth2 by (rewrite repeat_length; lia). rewrite repeat_length.
    replace (length xj + S i - length xj) with (S i) by lia.
    change (nth (S i) (gmul m (nth p delta x00) :: repeat x00 (length xs)) x00) with (nth i (repeat x00 (length xs)) x00). rewrite nth_repeat, gadd_0_r. reflexivity. }
  assert (E0 : share_at (P s (xor_bytes r D)) x0
     = xor_bytes (data (share_at (P s r) x0)) (map (gmul m) delta) ++ [tag (share_at (P s r) x0)]).
  { assert (Ldd : length (data (share_at (P s r) x0)) = N) by (rewrite data_length, share_at_length, Lp; lia).
    apply nth_ext with x00 x00; [rewrite app_length, xor_bytes_length, share_at_length; rewrite ?map_length; cbn [length]; lia|].
    intros p Hp. rewrite share_at_length, Lp' in Hp. destruct (Nat.eq_dec p N) as [->|Hne].
    - rewrite app_nth2 by (rewrite xor_bytes_length; rewrite ?map_length; lia). rewrite xor_bytes_length, Ldd, Nat.sub_diag by (rewrite map_length; lia).
      cbn [nth]. rewrite tag_share_at. unfold share_at. rewrite app_nth2 by (rewrite map_length; lia). rewrite map_length, Lp', Nat.sub_diag. reflexivity.
    - rewrite app_nth1 by (rewrite xor_bytes_length; rewrite ?map_length; lia). rewrite nth_share_at by lia.
      rewrite nth_xor_bytes by (rewrite ?map_length; lia). rewrite nth_data by (rewrite share_at_length; lia). rewrite nth_share_at by lia.
      rewrite (nth_map' (gmul m) delta p x00 x00) by lia.
      specialize (E p (length xj) ltac:(lia) ltac:(rewrite app_length; cbn [length]; lia)).
      rewrite app_nth2, Nat.sub_diag in E by lia. change (nth 0 (x0 :: xs) x00) with x0 in E. rewrite E. unfold ys.
      rewrite app_nth2 by (rewrite repeat_length; lia). rewrite repeat_length, Nat.sub_diag. reflexivity. }
  unfold hit. rewrite Ej. f_equal.
  destruct (mix_combine (P s r) Lp) as (u & Eu & Lu). 
  assert (Eu' : Combine (forged ++ map (share_at (P s (xor_bytes r D))) (x0 :: xs)) = Ret (xor_bytes u delta)).
  { rewrite Exh in Eu. specialize (Hm (forged ++ map (share_at (P s r)) (x0 :: xs)) u delta).
    rewrite <- Hm; [|rewrite map_app, map_tag_shares; reflexivity|exact Eu|lia].
    f_equal. change (map (share_at (P s r)) (x0 :: xs)) with (share_at (P s r) x0 :: map (share_at (P s r)) xs).
    unfold k. rewrite replace_mid. rewrite app_nth2, Nat.sub_diag by lia. 
    change (nth 0 (share_at (P s r) x0 :: map (share_at (P s r)) xs) []) with (share_at (P s r) x0). rewrite <- E0, Es. reflexivity. }
  apply eq_true_iff_eq. rewrite <- Exh in Eu'. rewrite (comb_true v _ u Eu). rewrite (comb_true v' _ _ Eu').
  unfold delta. split.
  - intros ->. apply nth_ext with x00 x00; [rewrite !xor_bytes_length; rewrite ?xor_bytes_length; lia|]. intros p Hp.
    rewrite !xor_bytes_length in Hp by (rewrite ?xor_bytes_length; lia).
    rewrite !nth_xor_bytes by (rewrite ?xor_bytes_length; lia). rewrite <- gadd_assoc', gadd_self. apply gadd_0_l.
  - intros X. apply nth_ext with x00 x00; [lia|]. intros p Hp. apply (f_equal (fun l => nth p l x00)) in X.
    rewrite !nth_xor_bytes in X by (rewrite ?xor_bytes_length; lia).
    set (a := nth p u x00) in *. set (b := nth p v x00) in *. set (c := nth p v' x00) in *. clearbody a b c.
    transitivity (gadd (gadd a (gadd b c)) (gadd b c)).
    + transitivity (gadd a (gadd (gadd b c) (gadd b c))); [rewrite gadd_self; ring|ring].
    + rewrite X. transitivity (gadd (gadd c c) b); [ring|]. rewrite gadd_self. ring.
Qed.

Lemma mix_exact v : xh <> [] -> length v = N -> is_view N xj w -> count (hit v) (all_strings M) = 256 ^ (M - (length xj + 1) * N).
Proof.
  intros Ne Lv Hw. set (c := count _ _). pose proof Ht as Ht'. rewrite app_length in Ht'.
  assert (Lh : 1 <= length xh) by (destruct xh; [congruence|cbn; lia]).
  assert (HK : (length xj + 1) * N <= M) by nia.
  assert (E : 256 ^ N * c = 256 ^ (M - length xj * N)).
  { transitivity (count (fun r => shares_eqb (map (share_at (P s r)) xj) w) (all_strings M)).
    2: { apply (exact_count P M N t); try assumption; try nia.
         - apply NoDup_app_remove_r' with (l' := xh). exact ND.
         - intros X. apply H0. apply in_app_iff. left. exact X. }
    rewrite <- (all_strings_length N), <- list_sum_const.
    rewrite (map_ext_in _ (fun v => count (hit v) (all_strings M))).
    2: { intros u Hu. apply all_strings_in in Hu. apply mix_uniform; assumption. }
    rewrite (double_count hit (all_strings N) (all_strings M)).
    unfold count at 2. rewrite sum_filter. f_equal. apply map_ext_in.
    intros r Hr. apply all_strings_in in Hr. destruct Sh as (S1 & _). destruct (S1 s r Ls Hr) as (Lp & _).
    destruct (mix_combine (P s r) Lp) as (u & Eu & Lu). unfold hit. destruct (shares_eqb (map (share_at (P s r)) xj) w).
    - apply (count_one _ _ u); [apply all_strings_NoDup|apply all_strings_in; exact Lu|cbn [andb]; apply (comb_true u _ u Eu); reflexivity|].
      intros b Hb X. cbn [andb] in X. apply (comb_true b _ u Eu) in X. symmetry. exact X.
    - apply count_0. reflexivity. }
  replace (M - length xj * N) with (N + (M - (length xj + 1) * N)) in E by nia. rewrite Nat.pow_add_r in E.
  apply Nat.mul_cancel_l in E; [exact E|]. apply Nat.pow_nonzero. lia.
Qed.

Lemma mix_none v : ~ is_view N xj w -> count (hit v) (all_strings M) = 0.
Proof.
  intros Hw. apply count_0. intros r Hr. apply all_strings_in in Hr. destruct Sh as (S1 & _). destruct (S1 s r Ls Hr) as (Lp & _).
  unfold hit. destruct (shares_eqb (map (share_at (P s r)) xj) w) eqn:E; [|reflexivity]. exfalso. apply shares_eqb_true in E. apply Hw. rewrite <- E. apply share_view. exact Lp.
Qed.
End Mix.
