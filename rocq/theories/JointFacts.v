(** Joint secrecy of many splits (C67). *)
From Coq Require Import List NArith ZArith Lia Arith Bool Permutation.
From Coq.Init Require Import Byte.
From Verif Require Import GoSem Bytes Spec Vector Pool Polynomial Shamir SplitP GoFacts GF PolyFacts PolynomialFacts SplitFacts Secrecy CountFacts SplitPFacts SplitPMore SplitPTop Derived Pf1 SpecJoint.
Import ListNotations.

(** counting strings by their first part *)
Lemma count_app {A} (P : A -> bool) l l' : count P (l ++ l') = count P l + count P l'.
Proof. unfold count. rewrite filter_app, app_length. reflexivity. Qed.
Lemma count_flat_map {A B} (P : B -> bool) (f : A -> list B) l : count P (flat_map f l) = list_sum (map (fun a => count P (f a)) l).
Proof. induction l as [|a l IH]; [reflexivity|]. cbn [flat_map map list_sum fold_right]. rewrite count_app, IH. reflexivity. Qed.
Lemma list_sum_flat_map {A} (f : A -> list nat) l : list_sum (flat_map f l) = list_sum (map (fun a => list_sum (f a)) l).
Proof. induction l as [|a l IH]; [reflexivity|]. cbn [flat_map map list_sum fold_right]. rewrite list_sum_app, IH. reflexivity. Qed.
Lemma flat_map_maps {A B C} (g : B -> C) (f : A -> list B) l : map g (flat_map f l) = flat_map (fun a => map g (f a)) l.
Proof. induction l as [|a l IH]; [reflexivity|]. cbn [flat_map]. rewrite map_app, IH. reflexivity. Qed.

Lemma count_strings a b : forall P, count P (all_strings (a + b)) = list_sum (map (fun r1 => count (fun r2 => P (r1 ++ r2)) (all_strings b)) (all_strings a)).
Proof.
  induction a as [|a IH]; intros P.
  - cbn [Nat.add all_strings map list_sum fold_right app]. rewrite Nat.add_0_r. apply count_ext. intros; reflexivity.
  - cbn [Nat.add all_strings]. rewrite count_flat_map, flat_map_maps, list_sum_flat_map. f_equal. apply map_ext. intros x.
    rewrite count_map, IH, map_map. reflexivity.
Qed.

Lemma list_sum_perm l l' : Permutation l l' -> list_sum l = list_sum l'.
Proof. intros P. induction P; cbn [list_sum fold_right] in *; unfold list_sum in *; lia. Qed.

(** maps that take every value equally often *)
Lemma count_occ_map {A B} (dec : forall x y : B, {x = y} + {x <> y}) (f : A -> B) l v :
  count_occ dec (map f l) v = count (fun a => if dec (f a) v then true else false) l.
Proof. induction l as [|a l IH]; [reflexivity|]. cbn [map count_occ]. unfold count in *. cbn [filter]. destruct (dec (f a) v); cbn [length]; rewrite IH; reflexivity. Qed.

Lemma equal_sums {A B} (dec : forall x y : B, {x = y} + {x <> y}) (f g : A -> B) l (F : B -> nat) :
  (forall test : B -> bool, count (fun a => test (f a)) l = count (fun a => test (g a)) l) -> list_sum (map (fun a => F (f a)) l) = list_sum (map (fun a => F (g a)) l).
Proof.
  intros H. assert (P : Permutation (map f l) (map g l)).
  { apply (Permutation_count_occ dec). intros v. rewrite !count_occ_map. apply (H (fun x => if dec x v then true else false)). }
  apply (Permutation_map F) in P. rewrite !map_map in P. apply list_sum_perm, P.
Qed.

Lemma count_negb {A} (P : A -> bool) l : count P l + count (fun a => negb (P a)) l = length l.
Proof. unfold count. induction l as [|a l IH]; [reflexivity|]. cbn [filter]. destruct (P a); cbn [negb length]; lia. Qed.

(** ** one request *)
Definition empty : pools := {| s_pol := []; s_tr := []; s_ev := fun _ => [] |}.

Lemma take_stream_ext s1 s2 n : (forall i, i < n -> s1 i = s2 i) -> take_stream s1 n = take_stream s2 n.
Proof. intros H. apply map_ext_in. intros i Hi. apply in_seq in Hi. apply H. lia. Qed.

Lemma polysP_ext secret D s1 s2 order n : (forall i, i < b2i D * n -> s1 i = s2 i) -> Permutation order (seq 0 (N.to_nat (secretLen secret))) -> N.to_nat (secretLen secret) <= n ->
  polysP secret D s1 order = polysP secret D s2 order.
Proof.
  intros H P L. unfold polysP. apply map_ext_in. intros p _. unfold polyP. destruct (Nat.ltb_spec p (N.to_nat (secretLen secret))) as [Lp|]; [|reflexivity].
  f_equal. apply take_stream_ext. intros m Lm. apply H.
  assert (Q : nth_error order (posIn p order) = Some p) by (apply posIn_spec, (Permutation_in p (Permutation_sym P)), in_seq; lia).
  assert (posIn p order < length order) by (apply nth_error_Some; rewrite Q; discriminate). rewrite (Permutation_length P), seq_length in H0. nia.
Qed.

(** the answer depends on the stream only as far as the call reads it, and not on the pools *)
Lemma answer_reads left ar growcap b1 b2 s1 s2 q : grow_ok growcap -> fair q -> (forall i, i < reads q -> s1 i = s2 i) ->
  answer left ar growcap b1 s1 q = answer left ar growcap b2 s2 q.
Proof.
  intros G (P & V & HL & C & HP) H. unfold answer. set (secret := if left then q_left q else q_right q).
  assert (Ls : length secret = length (q_left q)) by (unfold secret; destruct left; congruence).
  assert (V' : checkArgs secret (q_parts q) (q_threshold q) = None).
  { apply valid_checkArgs. destruct V as (V1 & V2). split; [|exact V2]. intros Q. apply V1. apply length_zero_iff_nil. rewrite <- Ls, Q. reflexivity. }
  pose proof V' as V2. apply checkArgs_None in V2 as (T2 & T3 & _).
  destruct (perm_coords _ P) as (ND & NF & L255). rewrite map_length in L255.
  unfold reads in H. destruct (q_api q) as [| |sched].
  - rewrite !(Split_ok ar growcap) by (assumption || lia). rewrite (take_stream_ext s1 s2) by (rewrite Ls; exact H). reflexivity.
  - rewrite !SplitGeneric_ok by (assumption || lia). rewrite (take_stream_ext s1 s2) by (rewrite Ls; exact H). reflexivity.
  - assert (SL : N.to_nat (secretLen secret) = length (q_left q)) by (unfold secretLen, u32; rewrite Ls, N.mod_small; lia).
    assert (SB : (secretLen secret <= 4294967296 - 1024)%N) by lia.
    assert (DD : b2i (z2b (q_threshold q - 1)) = Z.to_nat (q_threshold q) - 1) by (destruct (valid_deg _ _ _ V) as (D1 & D2); lia).
    assert (M : forall s, match SplitPRun (q_perm q) s secret (q_parts q) (q_threshold q) sched with Some (Ret _) => True | _ => False end ->
       SplitPRun (q_perm q) s1 secret (q_parts q) (q_threshold q) sched = SplitPRun (q_perm q) s2 secret (q_parts q) (q_threshold q) sched).
    { intros s. destruct (SplitPRun (q_perm q) s secret (q_parts q) (q_threshold q) sched) as [[sh|e|p| |]|] eqn:E; try (intros []; fail). intros _.
      destruct (SplitPRun_order _ _ _ _ _ _ _ P SB E) as (order & Po & Ho). rewrite !Ho by reflexivity. do 3 f_equal. f_equal.
      apply (polysP_ext secret _ s1 s2 order (length (q_left q))); [rewrite DD; exact H|exact Po|lia]. }
    pose proof (M s1) as M1. pose proof (M s2) as M2.
    destruct (SplitPRun (q_perm q) s1 secret (q_parts q) (q_threshold q) sched) as [[sh1|e1|p1| |]|] eqn:E1;
      [rewrite <- (M1 I); reflexivity| | | | |];
      (destruct (SplitPRun (q_perm q) s2 secret (q_parts q) (q_threshold q) sched) as [[sh2|e2|p2| |]|]; [discriminate (M2 I)|..]; reflexivity).
Qed.

Lemma answer_test ar growcap q (test : list (list byte) -> bool) : grow_ok growcap -> fair q ->
  count (fun r => match answer true ar growcap empty (stream_of r) q with Some v => test v | None => false end) (all_strings (reads q)) =
  count (fun r => match answer false ar growcap empty (stream_of r) q with Some v => test v | None => false end) (all_strings (reads q)).
Proof.
  intros G (P & V & HL & [C|EQ] & HP); [|unfold answer; rewrite EQ; reflexivity]. unfold answer, reads. destruct (q_api q) as [| |sched].
  - pose proof (Split_secrecy_test ar growcap (q_perm q) [] [] (fun _ => []) _ _ _ _ _ test G P V HL C) as E.
    refine (eq_trans _ (eq_trans E _)); apply count_ext; intros r _; destruct (Split _ _ _ _ _ _ _ _ _ _); reflexivity.
  - destruct (V) as (Hs & H2 & H3 & H4). destruct C as (C1 & C2 & C3).
    assert (V' : valid_args (q_right q) (q_parts q) (q_threshold q)) by (split; [intros Q; rewrite Q in HL; apply Hs, length_zero_iff_nil, HL|auto]).
    destruct (perm_coords (q_perm q) P) as (ND & NF & L255).
    destruct (pick_tags_facts (Z.to_nat (q_parts q)) (map i2b (q_perm q)) (q_show q)) as (N1 & N2); try assumption; [lia|].
    set (xs := pick x00 (tagsOf (Z.to_nat (q_parts q)) (map i2b (q_perm q))) (q_show q)) in *. set (t := Z.to_nat (q_threshold q)) in *.
    rewrite (count_ext _ (fun r => test (map (share_at (polysGen t (q_left q) r)) xs))).
    2:{ intros r Hr. apply all_strings_in in Hr. refine (eq_trans _ (SplitGeneric_test (q_perm q) (q_left q) (q_parts q) (q_threshold q) (q_show q) test P V C2 r Hr)). destruct (SplitGeneric _ _ _ _ _); reflexivity. }
    rewrite (count_ext (fun r => match _ with Some v => test v | None => false end) (fun r => test (map (share_at (polysGen t (q_right q) r)) xs))).
    2:{ intros r Hr. apply all_strings_in in Hr. rewrite HL in Hr. refine (eq_trans _ (SplitGeneric_test (q_perm q) (q_right q) (q_parts q) (q_threshold q) (q_show q) test P V' C2 r Hr)). destruct (SplitGeneric _ _ _ _ _); reflexivity. }
    apply (secrecy_count (polysGen t) _ (length (q_left q)) t xs (q_left q) (q_right q) test); try assumption; try reflexivity; try (symmetry; exact HL).
    + apply shiftable_polysGen. lia.
    + unfold xs, pick. rewrite map_length. exact C3.
  - pose proof (SplitP_secrecy_test (q_perm q) _ _ _ _ sched _ test P V HL HP C) as E.
    refine (eq_trans _ (eq_trans E _)); apply count_ext; intros r _; destruct (SplitPRun _ _ _ _ _ _) as [[sh|e|p| |]|]; reflexivity.
Qed.
Lemma answer_any ar growcap q (test : option (list (list byte)) -> bool) : grow_ok growcap -> fair q ->
  count (fun r => test (answer true ar growcap empty (stream_of r) q)) (all_strings (reads q)) =
  count (fun r => test (answer false ar growcap empty (stream_of r) q)) (all_strings (reads q)).
Proof.
  intros G F. destruct (test None) eqn:T.
  - pose proof (count_negb (fun r => test (answer true ar growcap empty (stream_of r) q)) (all_strings (reads q))) as N1.
    pose proof (count_negb (fun r => test (answer false ar growcap empty (stream_of r) q)) (all_strings (reads q))) as N2.
    pose proof (answer_test ar growcap q (fun v => negb (test (Some v))) G F) as E.
    rewrite (count_ext (fun r => negb (test (answer true ar growcap empty (stream_of r) q))) (fun r => match answer true ar growcap empty (stream_of r) q with Some v => negb (test (Some v)) | None => false end)) in N1
      by (intros r _; destruct (answer true _ _ _ _ _); [reflexivity|rewrite T; reflexivity]).
    rewrite (count_ext (fun r => negb (test (answer false ar growcap empty (stream_of r) q))) (fun r => match answer false ar growcap empty (stream_of r) q with Some v => negb (test (Some v)) | None => false end)) in N2
      by (intros r _; destruct (answer false _ _ _ _ _); [reflexivity|rewrite T; reflexivity]).
    cbv beta in E. lia.
  - pose proof (answer_test ar growcap q (fun v => test (Some v)) G F) as E.
    refine (eq_trans _ (eq_trans E _)); apply count_ext; intros r _; destruct (answer _ _ _ _ _ _); (reflexivity || (rewrite T; reflexivity) || (symmetry; exact T)).
Qed.

(** ** many requests *)
Lemma play_ext left ar growcap att : grow_ok growcap -> (forall h, fair (att h)) -> forall n b1 b2 s1 s2 B h, (forall h, reads (att h) <= B) -> (forall i, i < n * B -> s1 i = s2 i) ->
  play left ar growcap att b1 n s1 h = play left ar growcap att b2 n s2 h.
Proof.
  intros G F. induction n as [|n IH]; intros b1 b2 s1 s2 B h HB H; [reflexivity|]. cbn [play]. cbv zeta. pose proof (HB h) as Hh.
  rewrite (answer_reads left ar growcap (b1 n) (b2 n) s1 s2) by (try apply F; try assumption; intros i Hi; apply H; nia).
  apply (IH b1 b2 _ _ B); [exact HB|]. intros i Hi. apply H. nia.
Qed.

Definition view_dec : forall x y : option (list (list byte)), {x = y} + {x <> y}.
Proof. decide equality. apply list_eq_dec. apply list_eq_dec. apply byte_eq_dec. Defined.

Lemma play_secrecy ar growcap att guess B : grow_ok growcap -> (forall h, fair (att h)) -> (forall h, reads (att h) <= B) -> forall n M h, n * B <= M ->
  count (fun r => guess (play true ar growcap att (fun _ => empty) n (stream_of r) h)) (all_strings M) =
  count (fun r => guess (play false ar growcap att (fun _ => empty) n (stream_of r) h)) (all_strings M).
Proof.
  intros G F HB. induction n as [|n IH]; intros M h HM; [reflexivity|]. cbn [play]. cbv zeta. set (q := att h). pose proof (HB h) as Hq. fold q in Hq.
  replace M with (reads q + (M - reads q)) by nia. rewrite !count_strings.
  assert (E : forall left r1, In r1 (all_strings (reads q)) ->
    count (fun r2 => guess (play left ar growcap att (fun _ => empty) n (fun i => stream_of (r1 ++ r2) (reads q + i)) (answer left ar growcap empty (stream_of (r1 ++ r2)) q :: h))) (all_strings (M - reads q)) =
    count (fun r2 => guess (play left ar growcap att (fun _ => empty) n (stream_of r2) (answer left ar growcap empty (stream_of r1) q :: h))) (all_strings (M - reads q))).
  { intros left r1 H1. apply all_strings_in in H1. apply count_ext. intros r2 _. f_equal.
    rewrite (answer_reads left ar growcap empty empty (stream_of (r1 ++ r2)) (stream_of r1)) by (try apply F; try assumption; intros i Hi; unfold stream_of; apply app_nth1; lia).
    apply (play_ext left ar growcap att G F n _ _ _ _ B); [exact HB|]. intros i _. unfold stream_of. rewrite app_nth2 by lia. f_equal. lia. }
  rewrite (map_ext_in _ _ _ (E true)), (map_ext_in _ _ _ (E false)). clear E.
  set (Fc := fun a => count (fun r2 => guess (play true ar growcap att (fun _ => empty) n (stream_of r2) (a :: h))) (all_strings (M - reads q))).
  transitivity (list_sum (map (fun r1 => Fc (answer false ar growcap empty (stream_of r1) q)) (all_strings (reads q)))).
  - apply (equal_sums view_dec (fun r1 => answer true ar growcap empty (stream_of r1) q) (fun r1 => answer false ar growcap empty (stream_of r1) q) (all_strings (reads q)) Fc).
    intros test. apply answer_any; [exact G|apply F].
  - f_equal. apply map_ext. intros r1. unfold Fc. apply IH. nia.
Qed.
