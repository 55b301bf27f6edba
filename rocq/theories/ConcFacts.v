(** Facts about the machine of Concurrency.v. *)
From Coq Require Import List NArith ZArith Lia Arith Bool Permutation Wellfounded.
From Coq.Init Require Import Byte.
From Verif Require Import GoSem Bytes GoFacts Pool Concurrency SpecConc.
Import ListNotations.

Lemma setNth_length {A} (l : list A) i v : length (setNth l i v) = length l.
Proof.
  unfold setNth. destruct (Nat.ltb_spec i (length l)); [|reflexivity]. rewrite app_length. cbn [length]. rewrite firstn_length, skipn_length. lia.
Qed.

Lemma nth_setNth {A} (l : list A) i j v d : nth j (setNth l i v) d = if (j =? i) && (i <? length l) then v else nth j l d.
Proof.
  unfold setNth. destruct (Nat.ltb_spec i (length l)) as [H|H]; [|rewrite andb_false_r; reflexivity]. rewrite andb_true_r.
  assert (L : length (firstn i l) = i) by (rewrite firstn_length; lia).
  destruct (Nat.eqb_spec j i) as [->|N].
  - rewrite app_nth2 by lia. rewrite L, Nat.sub_diag. reflexivity.
  - destruct (Nat.lt_ge_cases j i).
    + rewrite app_nth1 by lia. apply nth_firstn. exact H0.
    + rewrite app_nth2 by lia. rewrite L. replace (j - i) with (S (j - i - 1)) by lia. cbn [nth]. rewrite nth_skipn. f_equal. lia.
Qed.

Lemma nth_error_setNth {A} (l : list A) i j v : nth_error (setNth l i v) j = if (j =? i) && (i <? length l) then Some v else nth_error l j.
Proof.
  destruct (Nat.lt_ge_cases j (length l)) as [H|H].
  - rewrite (nth_error_nth' _ v) by (rewrite setNth_length; exact H). rewrite nth_setNth.
    destruct ((j =? i) && (i <? length l)); [reflexivity|]. symmetry. apply nth_error_nth'. exact H.
  - assert (E : nth_error (setNth l i v) j = None) by (apply nth_error_None; rewrite setNth_length; exact H). rewrite E.
    destruct (Nat.eqb_spec j i) as [->|]; cbn [andb]; [|symmetry; apply nth_error_None; exact H].
    destruct (Nat.ltb_spec i (length l)); [lia|]. symmetry. apply nth_error_None; exact H.
Qed.

Lemma setNth_split {A} (l : list A) i v d : i < length l -> l = firstn i l ++ nth i l d :: skipn (S i) l /\ setNth l i v = firstn i l ++ v :: skipn (S i) l.
Proof.
  intros H. split; [|unfold setNth; destruct (Nat.ltb_spec i (length l)); [reflexivity|lia]].
  rewrite <- (firstn_skipn i l) at 1. f_equal. clear v. revert i H. induction l as [|a l IH]; intros [|i] H; cbn [length] in H; try lia; [reflexivity|].
  cbn [skipn nth]. apply IH. lia.
Qed.

(** ** events and histories *)
Lemma heldBy_snoc tr t ev th : heldBy (tr ++ [(t, ev)]) th =
  if t =? th then match ev with EvHit _ b | EvMiss _ b => b :: heldBy tr th | EvPut _ b | EvDrop _ b => remove Nat.eq_dec b (heldBy tr th) | EvLocal => heldBy tr th end
  else heldBy tr th.
Proof. unfold heldBy. rewrite fold_left_app. reflexivity. Qed.

Lemma heldBy_other tr t ev th : t <> th -> heldBy (tr ++ [(t, ev)]) th = heldBy tr th.
Proof. intros H. rewrite heldBy_snoc. destruct (Nat.eqb_spec t th); [congruence|reflexivity]. Qed.

Lemma heldBy_self tr ev th : heldBy (tr ++ [(th, ev)]) th =
  match ev with EvHit _ b | EvMiss _ b => b :: heldBy tr th | EvPut _ b | EvDrop _ b => remove Nat.eq_dec b (heldBy tr th) | EvLocal => heldBy tr th end.
Proof. rewrite heldBy_snoc, Nat.eqb_refl. reflexivity. Qed.

Lemma stored_snoc pl tr t ev : stored pl (tr ++ [(t, ev)]) = stored pl tr ++ match ev with EvPut p b => if p =? pl then [b] else [] | _ => [] end.
Proof. unfold stored. rewrite flat_map_app. cbn [flat_map]. rewrite app_nil_r. reflexivity. Qed.
Lemma taken_snoc pl tr t ev : taken pl (tr ++ [(t, ev)]) = taken pl tr ++ match ev with EvHit p b => if p =? pl then [b] else [] | _ => [] end.
Proof. unfold taken. rewrite flat_map_app. cbn [flat_map]. rewrite app_nil_r. reflexivity. Qed.

(** the effect of a step, by cases *)
Inductive effect {A} (size : nat) (s : gstate A) (th : nat) : prog A -> gstate A -> event -> Prop :=
  | Eff_hit pl k b ch : nth pl (g_pools s) [] = b :: ch ->
      effect size s th (PGet pl k) {| g_bufs := g_bufs s; g_pools := setNth (g_pools s) pl ch; g_threads := setNth (g_threads s) th (k b) |} (EvHit pl b)
  | Eff_miss pl k : nth pl (g_pools s) [] = [] ->
      effect size s th (PGet pl k) {| g_bufs := g_bufs s ++ [[]]; g_pools := g_pools s; g_threads := setNth (g_threads s) th (k (length (g_bufs s))) |} (EvMiss pl (length (g_bufs s)))
  | Eff_put pl b k : length (nth pl (g_pools s) []) < size ->
      effect size s th (PPut pl b k) {| g_bufs := g_bufs s; g_pools := setNth (g_pools s) pl (nth pl (g_pools s) [] ++ [b]); g_threads := setNth (g_threads s) th k |} (EvPut pl b)
  | Eff_drop pl b k : size <= length (nth pl (g_pools s) []) ->
      effect size s th (PPut pl b k) {| g_bufs := g_bufs s; g_pools := setNth (g_pools s) pl (nth pl (g_pools s) []); g_threads := setNth (g_threads s) th k |} (EvDrop pl b)
  | Eff_cap b k : effect size s th (PCap b k) {| g_bufs := g_bufs s; g_pools := g_pools s; g_threads := setNth (g_threads s) th (k (length (nth b (g_bufs s) []))) |} EvLocal
  | Eff_alloc b n k : effect size s th (PAlloc b n k) {| g_bufs := setNth (g_bufs s) b (zeros n); g_pools := g_pools s; g_threads := setNth (g_threads s) th k |} EvLocal
  | Eff_load b i k v : nth_error (nth b (g_bufs s) []) i = Some v ->
      effect size s th (PLoad b i k) {| g_bufs := g_bufs s; g_pools := g_pools s; g_threads := setNth (g_threads s) th (k v) |} EvLocal
  | Eff_load_panic b i k : nth_error (nth b (g_bufs s) []) i = None ->
      effect size s th (PLoad b i k) {| g_bufs := g_bufs s; g_pools := g_pools s; g_threads := setNth (g_threads s) th (PDone (Panic PIndex)) |} EvLocal
  | Eff_store b i v k : i < length (nth b (g_bufs s) []) ->
      effect size s th (PStore b i v k) {| g_bufs := setNth (g_bufs s) b (setNth (nth b (g_bufs s) []) i v); g_pools := g_pools s; g_threads := setNth (g_threads s) th k |} EvLocal
  | Eff_store_panic b i v k : length (nth b (g_bufs s) []) <= i ->
      effect size s th (PStore b i v k) {| g_bufs := g_bufs s; g_pools := g_pools s; g_threads := setNth (g_threads s) th (PDone (Panic PIndex)) |} EvLocal.

Lemma gstep_effect {A} size (s s' : gstate A) th ev : gstep size s th = Some (s', ev) -> exists p, nth_error (g_threads s) th = Some p /\ effect size s th p s' ev.
Proof.
  unfold gstep. destruct (nth_error (g_threads s) th) as [p|] eqn:P; [|discriminate]. intros H. exists p. split; [reflexivity|].
  destruct p as [o|pl k|pl b k|b k|b n k|b i k|b i v k]; cbn beta iota zeta in H.
  - discriminate.
  - destruct (nth pl (g_pools s) []) as [|b ch] eqn:E; injection H as <- <-; [apply Eff_miss; exact E|apply Eff_hit; exact E].
  - unfold poolPut in H. destruct (Nat.ltb_spec (length (nth pl (g_pools s) [])) size); injection H as <- <-; constructor; assumption.
  - injection H as <- <-. constructor.
  - injection H as <- <-. constructor.
  - destruct (nth_error (nth b (g_bufs s) []) i) as [v|] eqn:E; injection H as <- <-; constructor; exact E.
  - destruct (Nat.ltb_spec i (length (nth b (g_bufs s) []))); injection H as <- <-; constructor; assumption.
Qed.

(** A goroutine that has not finished can always take a step: no operation blocks. *)
Lemma gstep_progress {A} size (s : gstate A) th p : nth_error (g_threads s) th = Some p -> (forall o, p <> PDone o) -> exists s' ev, gstep size s th = Some (s', ev).
Proof.
  intros P N. unfold gstep. rewrite P. destruct p as [o|pl k|pl b k|b k|b n k|b i k|b i v k].
  - exfalso. apply (N o). reflexivity.
  - destruct (nth pl (g_pools s) []); repeat eexists.
  - repeat eexists.
  - repeat eexists.
  - repeat eexists.
  - destruct (nth_error (nth b (g_bufs s) []) i); repeat eexists.
  - destruct (i <? length (nth b (g_bufs s) [])); repeat eexists.
Qed.

Lemma gstep_threads {A} size (s s' : gstate A) th ev : gstep size s th = Some (s', ev) -> length (g_threads s') = length (g_threads s) /\ length (g_pools s') = length (g_pools s).
Proof. intros H. destruct (gstep_effect _ _ _ _ _ H) as (p & _ & E). inversion E; subst; cbn [g_threads g_pools]; rewrite ?setNth_length; split; reflexivity. Qed.

Lemma gexec_threads {A} size (s s' : gstate A) tr : gexec size s tr s' -> length (g_threads s') = length (g_threads s) /\ length (g_pools s') = length (g_pools s).
Proof. induction 1; [split; reflexivity|]. destruct (gstep_threads _ _ _ _ _ H0). destruct IHgexec. split; congruence. Qed.

(** ** the pools are bounded FIFO queues *)
Lemma pool_bounded {A} size (threads : list (prog A)) np tr s : gexec size (ginit np threads) tr s -> forall pl, length (nth pl (g_pools s) []) <= size.
Proof.
  intros H. remember (ginit np threads) as s0 eqn:E0. induction H as [s|s tr s1 th ev s2 H IH St]; intros pl; subst.
  - cbn [ginit g_pools]. rewrite nth_repeat. cbn. lia.
  - specialize (IH eq_refl). destruct (gstep_effect _ _ _ _ _ St) as (p & _ & E). inversion E; subst; cbn [g_pools]; try apply IH.
    + rewrite nth_setNth. destruct ((pl =? pl0) && (pl0 <? length (g_pools s1))); [|apply IH]. specialize (IH pl0). rewrite H0 in IH. cbn in IH. lia.
    + rewrite nth_setNth. destruct ((pl =? pl0) && (pl0 <? length (g_pools s1))); [|apply IH]. rewrite app_length. cbn. lia.
    + rewrite nth_setNth. destruct ((pl =? pl0) && (pl0 <? length (g_pools s1))); apply IH.
Qed.

Lemma pool_fifo {A} size (threads : list (prog A)) np tr s : gexec size (ginit np threads) tr s -> forall pl, pl < np -> stored pl tr = taken pl tr ++ nth pl (g_pools s) [].
Proof.
  intros H. remember (ginit np threads) as s0 eqn:E0. induction H as [s|s tr s1 th ev s2 H IH St]; intros pl Hpl; subst.
  - cbn [ginit g_pools]. rewrite nth_repeat. reflexivity.
  - specialize (IH eq_refl pl Hpl). assert (Lp : length (g_pools s1) = np) by (destruct (gexec_threads _ _ _ _ H) as (_ & L); rewrite L; apply repeat_length).
    rewrite stored_snoc, taken_snoc. destruct (gstep_effect _ _ _ _ _ St) as (p & _ & E). inversion E; subst; cbn [g_pools]; rewrite ?app_nil_r; try exact IH.
    + rewrite nth_setNth. rewrite (Nat.eqb_sym pl). destruct (Nat.eqb_spec pl0 pl) as [->|]; cbn [andb]; [|rewrite app_nil_r; exact IH].
      rewrite (proj2 (Nat.ltb_lt _ _) Hpl), <- app_assoc. cbn [app]. rewrite <- H0. exact IH.
    + rewrite nth_setNth. rewrite (Nat.eqb_sym pl). destruct (Nat.eqb_spec pl0 pl) as [->|]; cbn [andb]; [|rewrite app_nil_r; exact IH].
      rewrite (proj2 (Nat.ltb_lt _ _) Hpl), app_assoc, <- IH. reflexivity.
    + rewrite nth_setNth. destruct (Nat.eqb_spec pl pl0) as [->|]; cbn [andb]; [|exact IH]. destruct (pl0 <? _); exact IH.
Qed.

(** ** exclusivity *)
Lemma NoDup_remove_one (l : list nat) b : NoDup l -> NoDup (remove Nat.eq_dec b l).
Proof.
  induction 1 as [|a l Ha Hl IH]; [constructor|]. cbn [remove]. destruct (Nat.eq_dec b a); [exact IH|]. constructor; [|exact IH].
  intros C. apply in_remove in C. tauto.
Qed.

Lemma perm_concat_set (pools : list (list nat)) pl ch b : pl < length pools -> nth pl pools [] = b :: ch ->
  Permutation (concat pools) (b :: concat (setNth pools pl ch)).
Proof.
  intros H E. destruct (setNth_split pools pl ch [] H) as (S1 & S2). rewrite S2. rewrite S1 at 1. rewrite E.
  rewrite !concat_app. cbn [concat]. cbn [app]. symmetry. apply Permutation_middle.
Qed.

Lemma perm_concat_put (pools : list (list nat)) pl b : pl < length pools ->
  Permutation (concat (setNth pools pl (nth pl pools [] ++ [b]))) (b :: concat pools).
Proof.
  intros H. destruct (setNth_split pools pl (nth pl pools [] ++ [b]) [] H) as (S1 & S2). rewrite S2. rewrite S1 at 4.
  rewrite !concat_app. cbn [concat]. rewrite <- app_assoc. cbn [app]. rewrite Permutation_middle. apply Permutation_app_head. symmetry. apply Permutation_middle.
Qed.

Lemma setNth_same {A} (l : list A) i d : setNth l i (nth i l d) = l.
Proof.
  destruct (Nat.lt_ge_cases i (length l)) as [H|H].
  - destruct (setNth_split l i (nth i l d) d H) as (S1 & S2). rewrite S2. symmetry. exact S1.
  - unfold setNth. destruct (Nat.ltb_spec i (length l)); [lia|reflexivity].
Qed.

Lemma setNth_big {A} (l : list A) i v : length l <= i -> setNth l i v = l.
Proof. intros H. unfold setNth. destruct (Nat.ltb_spec i (length l)); [lia|reflexivity]. Qed.

Definition behaves {A} (tr : history) (s : gstate A) : Prop :=
  forall th p, nth_error (g_threads s) th = Some p -> well_behaved (heldBy tr th) p.
Definition known {A} (tr : history) (s : gstate A) : Prop :=
  (forall b, In b (concat (g_pools s)) -> b < length (g_bufs s)) /\ (forall th b, In b (heldBy tr th) -> b < length (g_bufs s)).

Lemma pool_nth_in (pools : list (list nat)) pl b ch : nth pl pools [] = b :: ch -> pl < length pools /\ In b (concat pools).
Proof.
  intros E. assert (H : pl < length pools) by (destruct (Nat.lt_ge_cases pl (length pools)); [assumption|rewrite nth_overflow in E by assumption; discriminate]).
  split; [exact H|]. apply in_concat. exists (nth pl pools []). split; [apply nth_In, H|]. rewrite E. left. reflexivity.
Qed.

Lemma exclusive_step {A} size (s s' : gstate A) th ev tr : gstep size s th = Some (s', ev) ->
  exclusive tr s -> behaves tr s -> known tr s ->
  exclusive (tr ++ [(th, ev)]) s' /\ behaves (tr ++ [(th, ev)]) s' /\ known (tr ++ [(th, ev)]) s'.
Proof.
  intros St (X1 & X0 & X2 & X3) B (K1 & K2). destruct (gstep_effect _ _ _ _ _ St) as (p & P & E).
  assert (TH : th < length (g_threads s)) by (apply nth_error_Some; rewrite P; discriminate).
  assert (WB : well_behaved (heldBy tr th) p) by (apply B, P).
  assert (BB : forall p' held', heldBy (tr ++ [(th, ev)]) th = held' -> well_behaved held' p' -> g_threads s' = setNth (g_threads s) th p' -> behaves (tr ++ [(th, ev)]) s').
  { intros p' held' Hh W T th2 q Q. rewrite T, nth_error_setNth in Q. rewrite (proj2 (Nat.ltb_lt _ _) TH), andb_true_r in Q.
    destruct (Nat.eqb_spec th2 th) as [->|N]; [injection Q as <-; rewrite Hh; exact W|]. rewrite heldBy_other by congruence. apply B, Q. }
  (* steps that leave pools and holdings alone *)
  assert (LOCAL : ev = EvLocal -> g_pools s' = g_pools s -> length (g_bufs s) <= length (g_bufs s') ->
     exclusive (tr ++ [(th, ev)]) s' /\ known (tr ++ [(th, ev)]) s').
  { intros -> Pe Le. assert (HE : forall t, heldBy (tr ++ [(th, EvLocal)]) t = heldBy tr t) by (intros t; rewrite heldBy_snoc; destruct (th =? t); reflexivity).
    split; [unfold exclusive; rewrite Pe; split; [exact X1|split; [|split]]; [intros t; rewrite HE; apply X0|intros t b; rewrite HE; apply X2|intros t t' b; rewrite !HE; apply X3]|].
    split; [intros b; rewrite Pe; intros Hb; specialize (K1 b Hb); lia|intros t b; rewrite HE; intros Hb; specialize (K2 t b Hb); lia]. }
  inversion E; subst; cbn [g_bufs g_pools g_threads] in *.
  - (* hit *)
    destruct (pool_nth_in _ _ _ _ H) as (Hpl & Hb). pose proof (perm_concat_set _ _ _ _ Hpl H) as PC.
    assert (NB : ~ In b (heldBy tr th)) by (intros C; apply (X2 th b C Hb)).
    assert (ND : NoDup (b :: concat (setNth (g_pools s) pl ch))) by (eapply Permutation_NoDup; [exact PC|exact X1]).
    assert (INC : forall x, In x (concat (setNth (g_pools s) pl ch)) -> In x (concat (g_pools s))) by (intros x Hx; eapply Permutation_in; [symmetry; exact PC|right; exact Hx]).
    apply NoDup_cons_iff in ND as (ND1 & ND2).
    assert (HT : forall t x, In x (heldBy (tr ++ [(th, EvHit pl b)]) t) -> (t = th /\ x = b) \/ In x (heldBy tr t)).
    { intros t x Hx. destruct (Nat.eq_dec t th) as [->|N]; [rewrite heldBy_self in Hx; destruct Hx as [->|Hx]; [left; split; reflexivity|right; exact Hx]|].
      rewrite heldBy_other in Hx by congruence. right. exact Hx. }
    split; [|split].
    + split; [exact ND2|]. split; [|split].
      * intros t. destruct (Nat.eq_dec t th) as [->|N]; [rewrite heldBy_self; constructor; [exact NB|apply X0]|rewrite heldBy_other by congruence; apply X0].
      * intros t x Hx C. cbn [g_pools] in C. apply HT in Hx as [(-> & ->)|Hx]; [exact (ND1 C)|apply (X2 t x Hx), INC, C].
      * intros t t' x Hx Hx'. apply HT in Hx, Hx'. destruct Hx as [(Et & Ex)|Hx], Hx' as [(Et' & Ex')|Hx']; [congruence| | |eapply X3; eassumption]; subst x.
        -- exfalso. exact (X2 t' b Hx' Hb).
        -- exfalso. exact (X2 t b Hx Hb).
    + eapply (BB (k b)); [rewrite heldBy_self; reflexivity|cbn [well_behaved] in WB; apply WB, NB|reflexivity].
    + split; [intros x Hx; apply K1, INC, Hx|intros t x Hx; apply HT in Hx as [(_ & ->)|Hx]; [apply K1, Hb|eapply K2, Hx]].
  - (* miss *)
    set (b := length (g_bufs s)) in *. assert (NBp : ~ In b (concat (g_pools s))) by (intros C; apply K1 in C; unfold b in C; lia).
    assert (NB : forall t, ~ In b (heldBy tr t)) by (intros t C; apply K2 in C; unfold b in C; lia).
    assert (HT : forall t x, In x (heldBy (tr ++ [(th, EvMiss pl b)]) t) -> (t = th /\ x = b) \/ In x (heldBy tr t)).
    { intros t x Hx. destruct (Nat.eq_dec t th) as [->|N]; [rewrite heldBy_self in Hx; destruct Hx as [->|Hx]; [left; split; reflexivity|right; exact Hx]|].
      rewrite heldBy_other in Hx by congruence. right. exact Hx. }
    split; [|split].
    + split; [exact X1|]. split; [|split].
      * intros t. destruct (Nat.eq_dec t th) as [->|N]; [rewrite heldBy_self; constructor; [apply NB|apply X0]|rewrite heldBy_other by congruence; apply X0].
      * intros t x Hx C. cbn [g_pools] in C. apply HT in Hx as [(-> & ->)|Hx]; [exact (NBp C)|exact (X2 t x Hx C)].
      * intros t t' x Hx Hx'. apply HT in Hx, Hx'. destruct Hx as [(Et & Ex)|Hx], Hx' as [(Et' & Ex')|Hx']; [congruence| | |eapply X3; eassumption]; subst x.
        -- exfalso. exact (NB _ Hx').
        -- exfalso. exact (NB _ Hx).
    + eapply (BB (k b)); [rewrite heldBy_self; reflexivity|cbn [well_behaved] in WB; apply WB, NB|reflexivity].
    + split; cbn [g_bufs g_pools]; [intros x Hx|intros t x Hx]; rewrite app_length; cbn [length]; [specialize (K1 x Hx); lia|].
      apply HT in Hx as [(_ & ->)|Hx]; [unfold b; lia|specialize (K2 t x Hx); lia].
  - (* put *)
    cbn [well_behaved] in WB. destruct WB as (Hin & WB).
    assert (HT : forall t x, In x (heldBy (tr ++ [(th, EvPut pl b)]) t) -> In x (heldBy tr t) /\ ~ (t = th /\ x = b)).
    { intros t x Hx. destruct (Nat.eq_dec t th) as [->|N]; [rewrite heldBy_self in Hx; apply in_remove in Hx; tauto|].
      rewrite heldBy_other in Hx by congruence. split; [exact Hx|tauto]. }
    assert (HN : forall t, NoDup (heldBy (tr ++ [(th, EvPut pl b)]) t)).
    { intros t. destruct (Nat.eq_dec t th) as [->|N]; [rewrite heldBy_self; apply NoDup_remove_one, X0|rewrite heldBy_other by congruence; apply X0]. }
    assert (PB : NoDup (concat (setNth (g_pools s) pl (nth pl (g_pools s) [] ++ [b]))) /\
      forall x, In x (concat (setNth (g_pools s) pl (nth pl (g_pools s) [] ++ [b]))) -> x = b \/ In x (concat (g_pools s))).
    { destruct (Nat.lt_ge_cases pl (length (g_pools s))) as [Hpl|Hpl]; [|rewrite setNth_big by exact Hpl; split; [exact X1|intros; right; assumption]].
      pose proof (perm_concat_put (g_pools s) pl b Hpl) as PC. split.
      - eapply Permutation_NoDup; [symmetry; exact PC|]. constructor; [apply (X2 th b Hin)|exact X1].
      - intros x Hx. eapply Permutation_in in Hx; [|exact PC]. destruct Hx as [->|Hx]; [left; reflexivity|right; exact Hx]. }
    destruct PB as (PB1 & PB2). split; [|split].
    + split; [exact PB1|]. split; [exact HN|]. split.
      * intros t x Hx C. apply HT in Hx as (Hx & Ne). apply PB2 in C as [->|C]; [|exact (X2 t x Hx C)]. apply Ne. split; [|reflexivity]. eapply X3; eassumption.
      * intros t t' x Hx Hx'. apply HT in Hx, Hx'. eapply X3; [apply Hx|apply Hx'].
    + eapply (BB k); [rewrite heldBy_self; reflexivity|exact WB|reflexivity].
    + split; [intros x Hx; apply PB2 in Hx as [->|Hx]; [eapply K2, Hin|apply K1, Hx]|intros t x Hx; apply HT in Hx; eapply K2, Hx].
  - (* drop *)
    cbn [well_behaved] in WB. destruct WB as (Hin & WB).
    assert (HT : forall t x, In x (heldBy (tr ++ [(th, EvDrop pl b)]) t) -> In x (heldBy tr t)).
    { intros t x Hx. destruct (Nat.eq_dec t th) as [->|N]; [rewrite heldBy_self in Hx; apply in_remove in Hx; tauto|].
      rewrite heldBy_other in Hx by congruence. exact Hx. }
    assert (HN : forall t, NoDup (heldBy (tr ++ [(th, EvDrop pl b)]) t)).
    { intros t. destruct (Nat.eq_dec t th) as [->|N]; [rewrite heldBy_self; apply NoDup_remove_one, X0|rewrite heldBy_other by congruence; apply X0]. }
    split; [|split].
    + unfold exclusive. cbn [g_pools]. rewrite setNth_same. split; [exact X1|]. split; [exact HN|]. split.
      * intros t x Hx C. exact (X2 t x (HT _ _ Hx) C).
      * intros t t' x Hx Hx'. eapply X3; eapply HT; eassumption.
    + eapply (BB k); [rewrite heldBy_self; reflexivity|exact WB|reflexivity].
    + split; cbn [g_pools g_bufs]; rewrite ?setNth_same; [exact K1|intros t x Hx; eapply K2, HT, Hx].
  - destruct (LOCAL eq_refl eq_refl (le_n _)) as (L1 & L2). split; [exact L1|split; [|exact L2]].
    cbn [well_behaved] in WB. eapply BB; [rewrite heldBy_self; reflexivity|apply WB|reflexivity].
  - destruct (LOCAL eq_refl eq_refl) as (L1 & L2); [rewrite setNth_length; lia|]. split; [exact L1|split; [|exact L2]].
    cbn [well_behaved] in WB. eapply BB; [rewrite heldBy_self; reflexivity|apply WB|reflexivity].
  - destruct (LOCAL eq_refl eq_refl (le_n _)) as (L1 & L2). split; [exact L1|split; [|exact L2]].
    cbn [well_behaved] in WB. eapply BB; [rewrite heldBy_self; reflexivity|apply WB|reflexivity].
  - destruct (LOCAL eq_refl eq_refl (le_n _)) as (L1 & L2). split; [exact L1|split; [|exact L2]].
    eapply (BB (PDone (Panic PIndex))); [rewrite heldBy_self; reflexivity|exact I|reflexivity].
  - destruct (LOCAL eq_refl eq_refl) as (L1 & L2); [rewrite setNth_length; lia|]. split; [exact L1|split; [|exact L2]].
    cbn [well_behaved] in WB. eapply BB; [rewrite heldBy_self; reflexivity|apply WB|reflexivity].
  - destruct (LOCAL eq_refl eq_refl (le_n _)) as (L1 & L2). split; [exact L1|split; [|exact L2]].
    eapply (BB (PDone (Panic PIndex))); [rewrite heldBy_self; reflexivity|exact I|reflexivity].
Qed.

Lemma concat_repeat_nil {A} n : concat (repeat (@nil A) n) = [].
Proof. induction n; [reflexivity|]. cbn. exact IHn. Qed.

Lemma exclusive_exec {A} size (threads : list (prog A)) np tr s : Forall (well_behaved []) threads -> gexec size (ginit np threads) tr s ->
  exclusive tr s /\ behaves tr s /\ known tr s.
Proof.
  intros W H. remember (ginit np threads) as s0 eqn:E0. induction H as [s|s tr s1 th ev s2 H IH St]; subst.
  - unfold exclusive, known. cbn [ginit g_pools g_bufs]. rewrite concat_repeat_nil. split; [|split].
    + split; [constructor|]. split; [intros; constructor|split; intros; cbn in *; contradiction].
    + intros th p P. cbn [ginit g_threads] in P. rewrite Forall_forall in W. apply W. eapply nth_error_In, P.
    + split; intros; cbn in *; contradiction.
  - destruct (IH eq_refl) as (X & B & K). eapply exclusive_step; eassumption.
Qed.

(** ** isolation *)
Definition views {A} (tr : history) (s : gstate A) (th : nat) (h : nat -> list byte) : Prop :=
  forall b, In b (heldBy tr th) -> h b = nth b (g_bufs s) [].

Lemma touched_held {A} held (p : prog A) b : well_behaved held p -> touches p = Some b -> In b held.
Proof. destruct p; cbn; intros W T; try discriminate; injection T as <-; tauto. Qed.

(** a step of [th] changes no buffer held by another goroutine *)
Lemma other_bufs {A} size (s s' : gstate A) th ev tr : gstep size s th = Some (s', ev) -> exclusive tr s -> behaves tr s -> known tr s ->
  forall t b, t <> th -> In b (heldBy tr t) -> nth b (g_bufs s') [] = nth b (g_bufs s) [].
Proof.
  intros St (X1 & X0 & X2 & X3) B (K1 & K2) t b Nt Hb. destruct (gstep_effect _ _ _ _ _ St) as (p & P & E).
  assert (WB : well_behaved (heldBy tr th) p) by (apply B, P). pose proof (K2 t b Hb) as Lb.
  inversion E; subst; cbn [g_bufs] in *; try reflexivity.
  - rewrite app_nth1 by exact Lb. reflexivity.
  - rewrite nth_setNth. destruct (Nat.eqb_spec b b0) as [->|]; [|reflexivity]. exfalso. apply Nt. cbn in WB. eapply X3; [exact Hb|apply WB].
  - rewrite nth_setNth. destruct (Nat.eqb_spec b b0) as [->|]; [|reflexivity]. exfalso. apply Nt. cbn in WB. eapply X3; [exact Hb|apply WB].
Qed.

Lemma isolation_step {A} size (s s' : gstate A) th ev tr (R : list nat -> (nat -> list byte) -> outcome A -> Prop) t : gstep size s th = Some (s', ev) ->
  exclusive tr s -> behaves tr s -> known tr s ->
  (exists p h, nth_error (g_threads s) t = Some p /\ views tr s t h /\ forall own' h' o, alone (heldBy tr t) h p own' h' o -> R own' h' o) ->
  exists p h, nth_error (g_threads s') t = Some p /\ views (tr ++ [(th, ev)]) s' t h /\ forall own' h' o, alone (heldBy (tr ++ [(th, ev)]) t) h p own' h' o -> R own' h' o.
Proof.
  intros St X B K (p & h & P & V & Q). pose proof (other_bufs _ _ _ _ _ _ St X B K) as OB.
  destruct (gstep_effect _ _ _ _ _ St) as (p0 & P0 & E).
  assert (TH : th < length (g_threads s)) by (apply nth_error_Some; rewrite P0; discriminate).
  destruct (Nat.eq_dec t th) as [->|Nt].
  2:{ exists p, h. rewrite heldBy_other by congruence. split; [|split; [|exact Q]].
      - inversion E; subst; cbn [g_threads]; rewrite nth_error_setNth; destruct (Nat.eqb_spec t th); try congruence; exact P.
      - intros b Hb. rewrite heldBy_other in Hb by congruence. rewrite (OB t b Nt Hb). apply V, Hb. }
  clear OB. rewrite P in P0. injection P0 as <-. pose proof (B th p P) as WB. destruct X as (X1 & X0 & X2 & X3). destruct K as (K1 & K2).
  assert (NT : forall q, nth_error (setNth (g_threads s) th q) th = Some q) by (intros q; rewrite nth_error_setNth, Nat.eqb_refl, (proj2 (Nat.ltb_lt _ _) TH); reflexivity).
  inversion E; subst; cbn [g_bufs g_pools g_threads] in *; cbn [well_behaved] in WB.
  - destruct (pool_nth_in _ _ _ _ H) as (Hpl & Hb). assert (NB : ~ In b (heldBy tr th)) by (intros C; apply (X2 th b C Hb)).
    exists (k b), (setBuf h b (nth b (g_bufs s) [])). split; [apply NT|]. split.
    + intros x Hx. rewrite heldBy_self in Hx. cbn [g_bufs]. unfold setBuf. destruct (Nat.eqb_spec x b) as [->|N]; [reflexivity|]. destruct Hx as [Hx|Hx]; [congruence|apply V, Hx].
    + intros own' h' o Ho. rewrite heldBy_self in Ho. apply Q. eapply A_get; eassumption.
  - set (b := length (g_bufs s)) in *. assert (NB : ~ In b (heldBy tr th)) by (intros C; apply K2 in C; unfold b in C; lia).
    exists (k b), (setBuf h b []). split; [apply NT|]. split.
    + intros x Hx. rewrite heldBy_self in Hx. cbn [g_bufs]. unfold setBuf. destruct (Nat.eqb_spec x b) as [->|N].
      * rewrite app_nth2, Nat.sub_diag by (unfold b; lia). reflexivity.
      * destruct Hx as [Hx|Hx]; [congruence|]. rewrite app_nth1 by (eapply K2, Hx). apply V, Hx.
    + intros own' h' o Ho. rewrite heldBy_self in Ho. apply Q. eapply A_get; eassumption.
  - exists k, h. split; [apply NT|]. split.
    + intros x Hx. rewrite heldBy_self in Hx. apply in_remove in Hx as (Hx & _). apply V, Hx.
    + intros own' h' o Ho. rewrite heldBy_self in Ho. apply Q. constructor. exact Ho.
  - exists k, h. split; [apply NT|]. split.
    + intros x Hx. rewrite heldBy_self in Hx. apply in_remove in Hx as (Hx & _). apply V, Hx.
    + intros own' h' o Ho. rewrite heldBy_self in Ho. apply Q. constructor. exact Ho.
  - exists (k (length (nth b (g_bufs s) []))), h. split; [apply NT|]. split.
    + intros x Hx. rewrite heldBy_self in Hx. apply V, Hx.
    + intros own' h' o Ho. rewrite heldBy_self in Ho. apply Q. constructor. rewrite (V b) by apply WB. exact Ho.
  - exists k, (setBuf h b (zeros n)). split; [apply NT|]. split.
    + intros x Hx. rewrite heldBy_self in Hx. cbn [g_bufs]. unfold setBuf. rewrite nth_setNth. rewrite (proj2 (Nat.ltb_lt b (length (g_bufs s)))) by (eapply K2, WB). rewrite andb_true_r.
      destruct (x =? b); [reflexivity|]. apply V, Hx.
    + intros own' h' o Ho. rewrite heldBy_self in Ho. apply Q. constructor. exact Ho.
  - exists (k v), h. split; [apply NT|]. split.
    + intros x Hx. rewrite heldBy_self in Hx. apply V, Hx.
    + intros own' h' o Ho. rewrite heldBy_self in Ho. apply Q. econstructor; [|exact Ho]. rewrite (V b) by apply WB. exact H.
  - exists (PDone (Panic PIndex)), h. split; [apply NT|]. split.
    + intros x Hx. rewrite heldBy_self in Hx. apply V, Hx.
    + intros own' h' o Ho. rewrite heldBy_self in Ho. apply Q. inversion Ho; subst. apply A_load_panic. rewrite (V b) by apply WB. exact H.
  - exists k, (setBuf h b (setNth (h b) i v)). split; [apply NT|]. assert (Vb : h b = nth b (g_bufs s) []) by (apply V; apply WB). split.
    + intros x Hx. rewrite heldBy_self in Hx. cbn [g_bufs]. unfold setBuf. rewrite nth_setNth. rewrite (proj2 (Nat.ltb_lt b (length (g_bufs s)))) by (eapply K2, WB). rewrite andb_true_r.
      destruct (x =? b); [rewrite Vb; reflexivity|]. apply V, Hx.
    + intros own' h' o Ho. rewrite heldBy_self in Ho. apply Q. constructor; [rewrite Vb; exact H|exact Ho].
  - exists (PDone (Panic PIndex)), h. split; [apply NT|]. split.
    + intros x Hx. rewrite heldBy_self in Hx. apply V, Hx.
    + intros own' h' o Ho. rewrite heldBy_self in Ho. apply Q. inversion Ho; subst. apply A_store_panic. rewrite (V b) by apply WB. exact H.
Qed.

Lemma isolation {A} size (threads : list (prog A)) np tr s : Forall (well_behaved []) threads -> gexec size (ginit np threads) tr s ->
  forall th p0 o, nth_error threads th = Some p0 -> nth_error (g_threads s) th = Some (PDone o) -> returns_alone p0 o.
Proof.
  intros W H th p0 o P0 D.
  assert (I : exists p h, nth_error (g_threads s) th = Some p /\ views tr s th h /\ forall own' h' o, alone (heldBy tr th) h p own' h' o -> returns_alone p0 o).
  { clear D. remember (ginit np threads) as s0 eqn:E0. induction H as [s|s tr s1 th1 ev s2 H IH St]; subst.
    - exists p0, (fun _ => []). split; [exact P0|]. split; [intros b Hb; cbn in Hb; contradiction|]. intros own' h' o' Ho. exists own', h'. exact Ho.
    - destruct (exclusive_exec _ _ _ _ _ W H) as (X & B & K). specialize (IH eq_refl).
      eapply (isolation_step _ _ _ _ _ _ (fun own' h' o => returns_alone p0 o)); eassumption. }
  destruct I as (p & h & P & _ & Q). rewrite D in P. injection P as <-. eapply Q. constructor.
Qed.

(** ** termination: every execution is finite *)
Inductive child {A} : prog A -> prog A -> Prop :=
  | ch_get pl k b : child (k b) (PGet pl k)
  | ch_put pl b k : child k (PPut pl b k)
  | ch_cap b k n : child (k n) (PCap b k)
  | ch_alloc b n k : child k (PAlloc b n k)
  | ch_load b i k v : child (k v) (PLoad b i k)
  | ch_load_panic b i k : child (PDone (Panic PIndex)) (PLoad b i k)
  | ch_store b i v k : child k (PStore b i v k)
  | ch_store_panic b i v k : child (PDone (Panic PIndex)) (PStore b i v k).

Lemma child_wf {A} (p : prog A) : Acc child p.
Proof.
  assert (D : forall o, Acc child (@PDone A o)) by (intros o; constructor; intros q Hq; inversion Hq).
  induction p; constructor; intros q Hq; inversion Hq; subst; auto.
Qed.

(** one thread of the list replaced by a child *)
Inductive lchild {A} : list (prog A) -> list (prog A) -> Prop :=
  | lc_here p q l : child q p -> lchild (q :: l) (p :: l)
  | lc_there p l m : lchild m l -> lchild (p :: m) (p :: l).

Lemma lchild_wf {A} (l : list (prog A)) : Acc lchild l.
Proof.
  induction l as [|p l IH]; [constructor; intros m Hm; inversion Hm|].
  revert p. induction IH as [l _ IHl]. intros p. induction (child_wf p) as [p _ IHp].
  constructor. intros m Hm. inversion Hm; subst; [apply IHp; assumption|apply IHl; assumption].
Qed.

Lemma gstep_lchild {A} size (s s' : gstate A) th ev : gstep size s th = Some (s', ev) -> lchild (g_threads s') (g_threads s).
Proof.
  intros H. destruct (gstep_effect _ _ _ _ _ H) as (p & P & E).
  assert (Q : forall q, child q p -> lchild (setNth (g_threads s) th q) (g_threads s)).
  { intros q C. clear - P C. revert th P. generalize (g_threads s) as l. induction l as [|x l IH]; intros [|th] P; cbn in P; try discriminate.
    - injection P as ->. unfold setNth. cbn. constructor. exact C.
    - specialize (IH th P). assert (L : setNth (x :: l) (S th) q = x :: setNth l th q).
      { unfold setNth. cbn [length]. destruct (Nat.ltb_spec th (length l)), (Nat.ltb_spec (S th) (S (length l))); try lia; reflexivity. }
      rewrite L. constructor. exact IH. }
  inversion E; subst; cbn [g_threads]; apply Q; constructor.
Qed.

(** there is no infinite execution *)
Definition gnext {A} size (s' s : gstate A) : Prop := exists th ev, gstep size s th = Some (s', ev).
Lemma gnext_wf {A} size (s : gstate A) : Acc (gnext size) s.
Proof.
  remember (g_threads s) as l eqn:E. revert s E. induction (lchild_wf l) as [l _ IH]. intros s ->. constructor. intros s' (th & ev & St).
  eapply IH; [|reflexivity]. eapply gstep_lchild, St.
Qed.
