(** Random sources that are not ideal (C89): from equal counts over all strings to bounds over a source. *)
From Coq Require Import List NArith ZArith Lia Arith Bool.
From Coq.Init Require Import Byte.
From Verif Require Import GoSem Bytes Spec Secrecy CountFacts JointFacts SpecSource.
Import ListNotations.
Local Open Scope Z_scope.

Lemma strings_Z M : Z.of_nat (length (all_strings M)) = 256 ^ Z.of_nat M.
Proof. rewrite all_strings_length, Nat2Z.inj_pow. reflexivity. Qed.

Lemma gap_general X Y (src : source) M :
  gap X Y src * 256 ^ Z.of_nat M <= advantage X src M + advantage Y src M +
    Z.of_nat (length src) * Z.abs (Z.of_nat (count X (all_strings M)) - Z.of_nat (count Y (all_strings M))).
Proof.
  unfold gap, advantage. set (Q := 256 ^ Z.of_nat M). assert (0 < Q) by (apply Z.pow_pos_nonneg; lia).
  set (x := Z.of_nat (count X src)). set (y := Z.of_nat (count Y src)). set (T := Z.of_nat (length src)).
  assert (0 <= T) by lia.
  set (a := Z.of_nat (count X (all_strings M))). set (b := Z.of_nat (count Y (all_strings M))).
  rewrite <- (Z.abs_eq Q) at 1 by lia. rewrite <- Z.abs_mul.
  rewrite <- (Z.abs_eq T) at 3 by lia. rewrite <- Z.abs_mul.
  replace ((x - y) * Q) with ((x * Q - a * T) - (y * Q - b * T) + T * (a - b)) by ring. lia.
Qed.

Lemma gap_equal X Y (src : source) M : count X (all_strings M) = count Y (all_strings M) ->
  gap X Y src * 256 ^ Z.of_nat M <= advantage X src M + advantage Y src M.
Proof. intros E. pose proof (gap_general X Y src M) as H. rewrite E, Z.sub_diag, Z.abs_0, Z.mul_0_r, Z.add_0_r in H. exact H. Qed.

(** ** the distance *)
Definition occ (src : source) (r : list byte) : nat := count_occ (list_eq_dec byte_eq_dec) src r.

Lemma sum_occ_one (test : list byte -> bool) a L : NoDup L -> In a L ->
  list_sum (map (fun r => if test r then (if list_eq_dec byte_eq_dec a r then 1 else 0)%nat else 0%nat) L) = (if test a then 1 else 0)%nat.
Proof.
  assert (Z0 : forall l, ~ In a l -> list_sum (map (fun r => if test r then (if list_eq_dec byte_eq_dec a r then 1 else 0)%nat else 0%nat) l) = 0%nat).
  { induction l as [|r l IH]; intros H; cbn [map list_sum fold_right]; [reflexivity|].
    change (list_sum (?x :: ?y)) with (x + list_sum y)%nat. unfold list_sum in IH. rewrite IH by (intros K; apply H; right; exact K).
    destruct (list_eq_dec byte_eq_dec a r) as [E|E]; [exfalso; apply H; left; auto|]. destruct (test r); reflexivity. }
  induction L as [|r L IH]; intros ND HI; [destruct HI|]. inversion ND as [|? ? NI ND']; subst.
  cbn [map]. change (list_sum (?x :: ?y)) with (x + list_sum y)%nat.
  destruct (list_eq_dec byte_eq_dec a r) as [E|E].
  - subst r. rewrite Z0 by exact NI. destruct (test a); reflexivity.
  - destruct HI as [->|HI]; [contradiction|]. rewrite IH by assumption. destruct (test r); reflexivity.
Qed.

Lemma count_by_occ (test : list byte -> bool) src M : (forall r, In r src -> length r = M) ->
  count test src = list_sum (map (fun r => if test r then occ src r else 0%nat) (all_strings M)).
Proof.
  induction src as [|a src IH]; intros H.
  - unfold occ. cbn [count_occ]. transitivity (list_sum (map (fun _ : list byte => 0%nat) (all_strings M))).
    + rewrite list_sum_const. rewrite Nat.mul_0_r. reflexivity.
    + f_equal. apply map_ext. intros r. destruct (test r); reflexivity.
  - rewrite <- (app_nil_l src), app_comm_cons, count_app, IH by (intros r Hr; apply H; right; exact Hr).
    assert (E : count test [a] = (if test a then 1 else 0)%nat) by (unfold count; cbn; destruct (test a); reflexivity).
    rewrite E, <- (sum_occ_one test a (all_strings M)) by (try apply all_strings_NoDup; apply all_strings_in, H; left; reflexivity).
    rewrite <- list_sum_add. f_equal. apply map_ext. intros r. unfold occ. cbn [app count_occ].
    destruct (list_eq_dec byte_eq_dec a r); destruct (test r); lia.
Qed.

Definition zsum (l : list Z) : Z := fold_right Z.add 0 l.

Lemma zsum_nat {A} (f : A -> nat) l : Z.of_nat (list_sum (map f l)) = zsum (map (fun a => Z.of_nat (f a)) l).
Proof.
  induction l as [|a l IH]; [reflexivity|]. cbn [map]. change (list_sum (?x :: ?y)) with (x + list_sum y)%nat.
  change (zsum (?x :: ?y)) with (x + zsum y). rewrite Nat2Z.inj_add, IH. reflexivity.
Qed.

Lemma zsum_cons x l : zsum (x :: l) = x + zsum l.
Proof. reflexivity. Qed.

Lemma zsum_parts {A} (P : A -> bool) (f : A -> Z) l :
  Z.abs (zsum (map (fun a => if P a then f a else 0) l)) + Z.abs (zsum (map (fun a => if P a then 0 else f a) l)) <= zsum (map (fun a => Z.abs (f a)) l).
Proof.
  induction l as [|a l IH]; [cbn; lia|]. cbn [map]. rewrite !zsum_cons. destruct (P a); lia.
Qed.

Lemma zsum_test {A} (P : A -> bool) (g : A -> nat) Q T l :
  zsum (map (fun a => if P a then Z.of_nat (g a) * Q - T else 0) l) =
  Z.of_nat (list_sum (map (fun a => if P a then g a else 0%nat) l)) * Q - Z.of_nat (count P l) * T.
Proof.
  induction l as [|a l IH]; [cbn; lia|]. cbn [map]. rewrite zsum_cons, IH.
  change (list_sum (?x :: ?y)) with (x + list_sum y)%nat. unfold count. cbn [filter]. destruct (P a); cbn [length]; lia.
Qed.

Lemma advantage_distance test src M : (forall r, In r src -> length r = M) -> 2 * advantage test src M <= distance src M.
Proof.
  intros H. unfold advantage, distance. set (Q := 256 ^ Z.of_nat M). set (T := Z.of_nat (length src)).
  pose proof (zsum_parts test (fun r => Z.of_nat (occ src r) * Q - T) (all_strings M)) as K.
  match goal with |- _ <= ?d => change d with (zsum (map (fun r => Z.abs (Z.of_nat (occ src r) * Q - T)) (all_strings M))) end.
  cbv beta in K. rewrite (zsum_test test (occ src) Q T), <- (count_by_occ test src M H) in K.
  assert (E : zsum (map (fun a => if test a then 0 else Z.of_nat (occ src a) * Q - T) (all_strings M)) =
    Z.of_nat (count (fun r => negb (test r)) src) * Q - Z.of_nat (count (fun r => negb (test r)) (all_strings M)) * T).
  { rewrite (count_by_occ (fun r => negb (test r)) src M H), <- (zsum_test (fun r => negb (test r)) (occ src) Q T). f_equal. apply map_ext. intros r. destruct (test r); reflexivity. }
  rewrite E in K. pose proof (count_negb test src) as E1. pose proof (count_negb test (all_strings M)) as E2.
  assert (E3 : Z.of_nat (count (fun r => negb (test r)) (all_strings M)) = Q - Z.of_nat (count test (all_strings M))).
  { unfold Q. rewrite <- strings_Z. lia. }
  assert (E4 : Z.of_nat (count (fun r => negb (test r)) src) = T - Z.of_nat (count test src)) by (unfold T; lia).
  rewrite E3, E4 in K.
  replace ((T - Z.of_nat (count test src)) * Q - (Q - Z.of_nat (count test (all_strings M))) * T)
    with (- (Z.of_nat (count test src) * Q - Z.of_nat (count test (all_strings M)) * T)) in K by ring.
  rewrite Z.abs_opp in K. lia.
Qed.

Lemma gap_distance X Y (src : source) M : (forall r, In r src -> length r = M) -> count X (all_strings M) = count Y (all_strings M) ->
  gap X Y src * 256 ^ Z.of_nat M <= distance src M.
Proof.
  intros H E. pose proof (gap_equal X Y src M E). pose proof (advantage_distance X src M H). pose proof (advantage_distance Y src M H). lia.
Qed.

Lemma advantage_ideal test M : advantage test (all_strings M) M = 0.
Proof. unfold advantage. rewrite strings_Z. lia. Qed.

(** ** guessing *)
Lemma count_at_most test src M K : (forall r, In r src -> length r = M) -> at_most K src ->
  (count test src <= K * count test (all_strings M))%nat.
Proof.
  intros H HK. rewrite (count_by_occ test src M H). generalize (all_strings M) as L.
  induction L as [|r L IH]; [cbn; lia|]. cbn [map]. change (list_sum (?x :: ?y)) with (x + list_sum y)%nat.
  unfold count in *. cbn [filter]. pose proof (HK r) as Hr. fold (occ src r) in Hr. destruct (test r); cbn [length]; nia.
Qed.

(** exactly one of the strings is the guess, if it has the right length *)
Lemma one_guess g n : (list_sum (map (fun s => if list_eq_dec byte_eq_dec g s then 1 else 0)%nat (all_strings n)) <= 1)%nat.
Proof.
  generalize (all_strings_NoDup n). generalize (all_strings n) as L. induction L as [|s L IH]; intros ND; [cbn; lia|].
  inversion ND as [|? ? NI ND']; subst. specialize (IH ND'). cbn [map]. change (list_sum (?x :: ?y)) with (x + list_sum y)%nat.
  destruct (list_eq_dec byte_eq_dec g s) as [E|E]; [|lia]. subst s.
  assert (Z0 : list_sum (map (fun s => if list_eq_dec byte_eq_dec g s then 1 else 0)%nat L) = 0%nat); [|lia].
  clear IH ND ND'. induction L as [|s L IH]; [reflexivity|]. cbn [map]. change (list_sum (?x :: ?y)) with (x + list_sum y)%nat.
  rewrite IH by (intros K; apply NI; right; exact K). destruct (list_eq_dec byte_eq_dec g s) as [E|E]; [exfalso; apply NI; left; auto|reflexivity].
Qed.

Lemma count_as_sum {A} (P : A -> bool) l : count P l = list_sum (map (fun a => if P a then 1 else 0)%nat l).
Proof.
  induction l as [|a l IH]; [reflexivity|]. cbn [map]. change (list_sum (?x :: ?y)) with (x + list_sum y)%nat.
  rewrite <- IH. unfold count. cbn [filter]. destruct (P a); reflexivity.
Qed.

Lemma sum_swap {A B} (f : A -> B -> nat) la lb :
  list_sum (map (fun a => list_sum (map (fun b => f a b) lb)) la) = list_sum (map (fun b => list_sum (map (fun a => f a b) la)) lb).
Proof.
  induction la as [|a la IH].
  - cbn [map]. rewrite list_sum_const. unfold list_sum at 1. cbn. lia.
  - cbn [map]. change (list_sum (?x :: ?y)) with (x + list_sum y)%nat at 1. rewrite IH, <- list_sum_add. reflexivity.
Qed.

Lemma sum_le {A} (f g : A -> nat) l : (forall a, In a l -> (f a <= g a)%nat) -> (list_sum (map f l) <= list_sum (map g l))%nat.
Proof.
  induction l as [|a l IH]; intros H; [cbn; lia|]. cbn [map]. change (list_sum (?x :: ?y)) with (x + list_sum y)%nat.
  change (list_sum (g a :: map g l)) with (g a + list_sum (map g l))%nat.
  specialize (H a (or_introl eq_refl)) as Ha. specialize (IH (fun b Hb => H b (or_intror Hb))). lia.
Qed.

(** the guesses of someone whose view has the same distribution for all secrets *)
Lemma guesses (g : list byte -> list byte -> list byte) n M K (src : source) :
  (forall r, In r src -> length r = M) -> at_most K src ->
  (forall s s' (dec : list byte -> bool), length s = n -> length s' = n ->
     count (fun r => dec (g s r)) (all_strings M) = count (fun r => dec (g s' r)) (all_strings M)) ->
  (list_sum (map (fun s => count (fun r => if list_eq_dec byte_eq_dec (g s r) s then true else false) src) (all_strings n)) <= K * 256 ^ M)%nat.
Proof.
  intros H HK Same. set (s0 := repeat x00 n).
  assert (A : forall s, In s (all_strings n) ->
    (count (fun r => if list_eq_dec byte_eq_dec (g s r) s then true else false) src <=
     K * list_sum (map (fun r => if list_eq_dec byte_eq_dec (g s0 r) s then 1 else 0)%nat (all_strings M)))%nat).
  { intros s Hs. apply all_strings_in in Hs. etransitivity; [apply (count_at_most _ _ M K H HK)|].
    apply Nat.mul_le_mono_l. rewrite (Same s s0 (fun x => if list_eq_dec byte_eq_dec x s then true else false)) by (try exact Hs; unfold s0; apply repeat_length).
    rewrite count_as_sum. apply sum_le. intros r _. destruct (list_eq_dec byte_eq_dec (g s0 r) s); lia. }
  etransitivity; [apply (sum_le _ _ _ A)|].
  assert (F : forall (f : list byte -> nat) l, list_sum (map (fun s => (K * f s)%nat) l) = (K * list_sum (map f l))%nat).
  { intros f l. induction l as [|s l IH]; [cbn; lia|]. cbn [map]. change (list_sum (?x :: ?y)) with (x + list_sum y)%nat.
    change (list_sum (f s :: map f l)) with (f s + list_sum (map f l))%nat. rewrite IH. lia. }
  rewrite F. apply Nat.mul_le_mono_l. rewrite sum_swap, <- all_strings_length.
  etransitivity; [apply (sum_le _ (fun _ => 1%nat)); intros r _; apply one_guess|]. rewrite list_sum_const. lia.
Qed.
