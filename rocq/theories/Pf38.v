(** Proofs about the secrecy of splits and regenerated shares against an attacker who collects shares over time (C83). *)
From Coq Require Import List NArith ZArith Lia Arith Bool Permutation.
From Coq.Init Require Import Byte.
From Verif Require Import GoSem Bytes Spec Vector Pool Polynomial Shamir SplitP GoFacts GF PolyFacts PolynomialFacts SplitFacts CombineFacts RegenFacts Secrecy CountFacts
  Derived VectorFacts VectorFacts Pf1 SpecHist SpecJoint JointFacts SpecAdaptive AdaptiveFacts.
Import ListNotations.

(*PROPS
From Coq Require Import List NArith ZArith Lia Arith Bool Permutation.
From Coq.Init Require Import Byte.
From Verif Require Import GoSem Bytes Spec Vector Pool Polynomial Shamir SplitP SpecHist SpecJoint SpecAdaptive ExData Pf38.
Import ListNotations.
*)

Definition strip (g : sharing) : splitting * nat * list byte := (g_split g, g_from g, g_shown g).
Definition api_dec : forall a b : api, {a = b} + {a <> b}.
Proof. decide equality. apply list_eq_dec, Nat.eq_dec. Defined.
Definition splitting_dec : forall a b : splitting, {a = b} + {a <> b}.
Proof. decide equality; try apply Z.eq_dec; try apply list_eq_dec; try apply byte_eq_dec; try apply Nat.eq_dec; apply api_dec. Defined.
Definition err_dec : forall a b : err, {a = b} + {a <> b}.
Proof. decide equality. Defined.
Definition panic_dec : forall a b : panic, {a = b} + {a <> b}.
Proof. decide equality. Defined.
Definition reply_dec : forall a b : reply, {a = b} + {a <> b}.
Proof. decide equality; try apply list_eq_dec; try apply byte_eq_dec; [apply err_dec|apply panic_dec]. Defined.
Definition full_view : Type := (list reply * list (splitting * nat * list byte))%type.
Definition full_view_dec : forall a b : full_view, {a = b} + {a <> b}.
Proof.
  decide equality; apply list_eq_dec; [|apply reply_dec]. decide equality; [apply list_eq_dec, byte_eq_dec|]. decide equality; [apply Nat.eq_dec|apply splitting_dec].
Defined.

(** what has been shown of a sharing is little *)
Definition little (p : splitting) (shown : list byte) : Prop :=
  p_left p = p_right p \/ (~ In x00 shown /\ length (nodup byte_eq_dec shown) < Z.to_nat (p_threshold p)).
Fixpoint ledger_ok (from : nat) (st : list (splitting * nat * list byte)) (pos : nat) : Prop :=
  match st with
  | [] => from <= pos
  | (p, f, shown) :: rest => proper p /\ little p shown /\ from <= f /\ ledger_ok (f + bytes_of p) rest pos
  end.

Lemma ledger_le st : forall from pos pos', ledger_ok from st pos -> pos <= pos' -> ledger_ok from st pos'.
Proof. induction st as [|((p, f), sh) st IH]; intros from pos pos' H L; cbn in *; [lia|]. destruct H as (H1 & H2 & H3 & H4). eauto 6. Qed.
Lemma ledger_snoc st p : forall from pos, ledger_ok from st pos -> proper p -> ledger_ok from (st ++ [(p, pos, [])]) (pos + bytes_of p).
Proof.
  induction st as [|((q, f), sh) st IH]; intros from pos H Pr; cbn in *.
  - split; [exact Pr|]. split; [right; split; [intros []|]|split; [exact H|lia]]. cbn. destruct (tagsP_facts p Pr) as (_ & _ & T & _). lia.
  - destruct H as (H1 & H2 & H3 & H4). auto.
Qed.
Lemma ledger_replace st : forall from pos k p f sh sh', ledger_ok from st pos -> nth_error st k = Some (p, f, sh) -> little p sh' ->
  ledger_ok from (replace st k (p, f, sh')) pos.
Proof.
  unfold replace. induction st as [|((q, f0), s0) st IH]; intros from pos [|k] p f sh sh' H Hk Hl; try discriminate; cbn [nth_error] in Hk.
  - injection Hk as -> -> ->. cbn in *. destruct H as (H1 & H2 & H3 & H4). auto.
  - cbn [firstn]. change (skipn (S (S k)) ((q, f0, s0) :: st)) with (skipn (S k) st). cbn in *. destruct H as (H1 & H2 & H3 & H4).
    split; [exact H1|]. split; [exact H2|]. split; [exact H3|]. eapply IH; eassumption.
Qed.
Lemma map_replace {A B} (f : A -> B) l k v : map f (replace l k v) = replace (map f l) k (f v).
Proof. unfold replace. rewrite map_app. cbn [map]. rewrite firstn_map, skipn_map. reflexivity. Qed.
Lemma replace_id {A} (l : list A) : forall k v, nth_error l k = Some v -> replace l k v = l.
Proof.
  unfold replace. induction l as [|a l IH]; intros [|k] v H; try discriminate; cbn [nth_error] in H.
  - injection H as ->. reflexivity.
  - cbn [firstn]. change (skipn (S (S k)) (a :: l)) with (skipn (S k) l). cbn [app]. rewrite IH by exact H. reflexivity.
Qed.

Lemma serve_ledger left ar growcap b random st pos q a w : ledger_ok 0 (map strip st) pos -> match q with QSplit p => proper p | _ => True end ->
  serve left ar growcap b random (st, pos) q = (a, w) -> ledger_ok 0 (map strip (fst w)) (snd w).
Proof.
  intros L Pr E. destruct q as [p|i c|i j]; cbn [serve] in E.
  - destruct (splitOf left ar growcap b (fun x => random (pos + x)) p) as [[sh|e|pn| |]|]; injection E as <- <-; cbn [fst snd];
      try (eapply ledger_le; [exact L|lia]). rewrite map_app. apply ledger_snoc; assumption.
  - destruct (nth_error st i) as [h|] eqn:Hi; [|injection E as <- <-; exact L]. destruct (_ <=? _); [|injection E as <- <-; exact L].
    destruct (Regenerate _ _ _ _ _) as [new|e|pn| |]; injection E as <- <-; cbn [fst snd]; try exact L.
    rewrite map_replace. rewrite replace_id; [exact L|]. rewrite nth_error_map, Hi. reflexivity.
  - destruct (nth_error st i) as [h|] eqn:Hi; [|injection E as <- <-; exact L]. destruct (nth_error (g_issued h) j) as [s|]; [|injection E as <- <-; exact L].
    destruct (may_show h s) eqn:M; injection E as <- <-; cbn [fst snd]; try exact L.
    rewrite map_replace. assert (Hs : nth_error (map strip st) i = Some (g_split h, g_from h, g_shown h)) by (rewrite nth_error_map, Hi; reflexivity).
    unfold strip at 2. cbn [g_split g_from g_shown]. eapply ledger_replace; [exact L|exact Hs|].
    assert (Lh : little (g_split h) (g_shown h)).
    { revert L Hs. generalize (map strip st) 0. clear. intros l. revert i. induction l as [|((q, f), s) l IH]; intros [|i] from H K; try discriminate; cbn in *; destruct H as (H1 & H2 & H3 & H4).
      - congruence.
      - eapply IH; eassumption. }
    unfold may_show in M. destruct (list_eq_dec byte_eq_dec (p_left (g_split h)) (p_right (g_split h))) as [Q|Q]; [left; exact Q|]. cbn [orb] in M.
    apply andb_prop in M as (M1 & M2). right. apply Nat.ltb_lt in M2. split; [|exact M2].
    destruct Lh as [Lh|(L0 & _)]; [contradiction|]. intros [K|K]; [|exact (L0 K)]. rewrite K in M1. discriminate.
Qed.

Lemma play_ledger left ar growcap att B b random : proper_requests att B -> forall n w h, ledger_ok 0 (map strip (fst w)) (snd w) ->
  let w' := snd (playOn left ar growcap att b n random w h) in ledger_ok 0 (map strip (fst w')) (snd w') /\ snd w' <= snd w + n * B.
Proof.
  intros HA. induction n as [|n IH]; intros w h L; cbn [playOn]; cbv zeta; [split; [exact L|cbn; lia]|].
  destruct (serve left ar growcap (b n) random w (att h)) as (a, w1) eqn:E. pose proof (HA h) as Hh. destruct w as (st, pos).
  pose proof (serve_pos ar growcap _ _ _ _ _ _ _ _ E) as P1.
  assert (L1 : ledger_ok 0 (map strip (fst w1)) (snd w1)).
  { eapply (serve_ledger left ar growcap (b n) random st pos (att h)); [exact L| |exact E]. destruct (att h); [apply Hh|exact I|exact I]. }
  destruct (IH w1 (a :: h) L1) as (L2 & P2). cbv zeta in L2, P2. split; [exact L2|]. cbn [snd] in *. destruct (att h); [destruct Hh; nia|nia|nia].
Qed.

(** ** the string that exchanges the two worlds *)
Lemma xor_zeros s : xor_bytes s (repeat x00 (length s)) = s.
Proof. induction s as [|a s IH]; [reflexivity|]. cbn [length repeat xor_bytes]. rewrite IH, gadd_0_r. reflexivity. Qed.

Definition swaps ar growcap (p : splitting) (shown : list byte) (d : list byte) : Prop :=
  length d = bytes_of p /\ forall s x, length s = bytes_of p -> In x shown -> full ar growcap true p s x = full ar growcap false p (xor_bytes s d) x.

Lemma swap_one ar growcap p shown : grow_ok growcap -> proper p -> little p shown -> exists d, swaps ar growcap p shown d.
Proof.
  intros G Pr [Q|(H0 & Hn)].
  - exists (repeat x00 (bytes_of p)). split; [apply repeat_length|]. intros s x Ls _. rewrite <- Ls, xor_zeros.
    unfold full, sharesSeg, splitOf, secret_of. rewrite Q. reflexivity.
  - destruct (split_full ar growcap G p Pr) as [(P & S & Sp & Fu)|N].
    + destruct (shift_core P _ _ _ (nodup byte_eq_dec shown) (p_left p) (p_right p) (fun _ => []) S) as (d & Ld & E); try assumption; try reflexivity.
      * apply NoDup_nodup.
      * intros K. apply nodup_In in K. exact (H0 K).
      * destruct Pr as (_ & _ & Pr & _). symmetry. exact Pr.
      * exists d. split; [exact Ld|]. intros s x Ls Hx.
        assert (Lx : length (xor_bytes s d) = bytes_of p) by (rewrite xor_bytes_length; lia).
        destruct (Fu true s Ls) as ((F1 & _) & F2). destruct (Fu false _ Lx) as ((F1' & _) & F2'). rewrite F2, F2'. cbn [secret_of] in *.
        apply (share_at_ext (length (p_left p))); [exact F1|exact F1'|]. intros i Hi.
        apply (nodup_In byte_eq_dec) in Hx. apply In_nth with (d := x00) in Hx as (j & Hj & <-). rewrite E by assumption. destruct j; cbn [nth]; rewrite gadd_0_r; reflexivity.
    + exists (repeat x00 (bytes_of p)). split; [apply repeat_length|]. intros s x Ls _. unfold full, sharesSeg.
      assert (K : forall left s, match splitOf left ar growcap empty (stream_of s) p with Some (Ret sh) => sh | _ => [] end = []).
      { intros left0 s0. destruct (splitOf left0 ar growcap empty (stream_of s0) p) as [[sh|e|pn| |]|] eqn:F; try reflexivity. exfalso. exact (N _ _ _ _ F). }
      rewrite !K. reflexivity.
Qed.

Lemma seg_app1 a b from n : from + n <= length a -> seg (a ++ b) from n = seg a from n.
Proof. intros H. unfold seg. rewrite skipn_app, firstn_app, skipn_length. replace (n - (length a - from)) with 0 by lia. cbn [firstn]. apply app_nil_r. Qed.
Lemma seg_app2 a b from n : length a <= from -> seg (a ++ b) from n = seg b (from - length a) n.
Proof. intros H. unfold seg. rewrite skipn_app, skipn_all2 by exact H. reflexivity. Qed.

Lemma swap_all ar growcap : grow_ok growcap -> forall st from pos, ledger_ok from st pos ->
  exists delta, from <= pos /\ length delta = pos - from /\
    forall p f shown, In (p, f, shown) st -> from <= f /\ f + bytes_of p <= pos /\ swaps ar growcap p shown (seg delta (f - from) (bytes_of p)).
Proof.
  intros G. induction st as [|((q, f0), s0) st IH]; intros from pos H; cbn [ledger_ok] in H.
  - exists (repeat x00 (pos - from)). split; [exact H|]. split; [apply repeat_length|]. intros p f sh [].
  - destruct H as (H1 & H2 & H3 & H4). destruct (IH _ _ H4) as (delta & D1 & D2 & D3). destruct (swap_one ar growcap q s0 G H1 H2) as (d & Sd).
    pose proof (proj1 Sd) as Ld.
    exists (repeat x00 (f0 - from) ++ d ++ delta). split; [lia|]. split; [rewrite !app_length, repeat_length; lia|].
    intros p f sh [K|K].
    + injection K as <- <- <-. split; [exact H3|]. split; [lia|]. rewrite seg_app2 by (rewrite repeat_length; lia). rewrite repeat_length, Nat.sub_diag.
      rewrite seg_app1 by lia. unfold seg. cbn [skipn]. rewrite <- Ld, firstn_all. exact Sd.
    + destruct (D3 p f sh K) as (E1 & E2 & E3). split; [lia|]. split; [exact E2|].
      rewrite seg_app2 by (rewrite repeat_length; lia). rewrite seg_app2 by (rewrite repeat_length; lia). rewrite repeat_length, Ld.
      replace (f - from - (f0 - from) - bytes_of q) with (f - (f0 + bytes_of q)) by lia. exact E3.
Qed.

(** ** counting *)
Lemma count_views {A B} (dec : forall x y : B, {x = y} + {x <> y}) (f g : A -> B) l :
  (forall v, count (fun a => if dec (f a) v then true else false) l = count (fun a => if dec (g a) v then true else false) l) ->
  forall test : B -> bool, count (fun a => test (f a)) l = count (fun a => test (g a)) l.
Proof.
  intros H test. rewrite <- (count_map f test), <- (count_map g test). apply Permutation_length. apply filter_permutation.
  apply (Permutation_count_occ dec). intros v. rewrite !count_occ_map. apply H.
Qed.

Definition viewOf (left : bool) ar growcap att (b : nat -> pools) n (r : list byte) : full_view :=
  (fst (playOn left ar growcap att b n (stream_of r) ([], 0) []), map strip (fst (snd (playOn left ar growcap att b n (stream_of r) ([], 0) [])))).

Lemma rel_strip left left' ar growcap r r' st st' : Forall2 (rel ar growcap left left' r r') st st' -> map strip st = map strip st'.
Proof.
  induction 1 as [|g g' st st' (R1 & R2 & R3 & _) _ IH]; [reflexivity|]. cbn [map]. rewrite IH. unfold strip. rewrite R1, R2, R3. reflexivity.
Qed.

Lemma view_sim ar growcap att B n left b b' r r' : grow_ok growcap -> proper_requests att B -> length r = length r' -> n * B <= length r ->
  (forall p f shown x, In (p, f, shown) (snd (viewOf left ar growcap att b n r)) -> In x shown ->
     full ar growcap left p (seg r f (bytes_of p)) x = full ar growcap (negb left) p (seg r' f (bytes_of p)) x) ->
  viewOf (negb left) ar growcap att b' n r' = viewOf left ar growcap att b n r.
Proof.
  intros G HA Lr Hn Ag. unfold viewOf.
  assert (A : forall g, In g (fst (snd (playOn left ar growcap att b n (stream_of r) ([], 0) []))) -> agree ar growcap left (negb left) r r' g).
  { intros g Hg x Hx. unfold fullAt. apply (Ag (g_split g) (g_from g) (g_shown g) x); [|exact Hx]. unfold viewOf. cbn [snd]. apply (in_map strip) in Hg. exact Hg. }
  destruct (sim ar growcap G left (negb left) r r' att B b b' HA Lr n [] [] 0 [] Hn (Forall2_nil _) A) as (S1 & S2).
  rewrite <- S1. f_equal. symmetry. exact (rel_strip _ _ _ _ _ _ _ _ S2).
Qed.

Lemma view_ledger left ar growcap att B b n r M : proper_requests att B -> n * B <= M -> ledger_ok 0 (snd (viewOf left ar growcap att b n r)) M.
Proof.
  intros HA Hn. destruct (play_ledger left ar growcap att B b (stream_of r) HA n ([], 0) []) as (L & P); [cbn; lia|]. cbv zeta in L, P. cbn [snd] in P.
  unfold viewOf. cbn [snd]. eapply ledger_le; [exact L|lia].
Qed.

Lemma same_views ar growcap att bl br n B M v : grow_ok growcap -> proper_requests att B -> n * B <= M ->
  count (fun r => if full_view_dec (viewOf true ar growcap att (bl r) n r) v then true else false) (all_strings M) =
  count (fun r => if full_view_dec (viewOf false ar growcap att (br r) n r) v then true else false) (all_strings M).
Proof.
  intros G HA Hn.
  assert (K : ledger_ok 0 (snd v) M -> exists delta, length delta = M /\ forall p f shown, In (p, f, shown) (snd v) -> f + bytes_of p <= M /\ swaps ar growcap p shown (seg delta f (bytes_of p))).
  { intros L. destruct (swap_all ar growcap G _ _ _ L) as (delta & _ & D2 & D3). exists delta. split; [lia|]. intros p f sh Hi.
    destruct (D3 p f sh Hi) as (_ & E2 & E3). rewrite Nat.sub_0_r in E3. auto. }
  assert (Main : ledger_ok 0 (snd v) M ->
    count (fun r => if full_view_dec (viewOf true ar growcap att (bl r) n r) v then true else false) (all_strings M) =
    count (fun r => if full_view_dec (viewOf false ar growcap att (br r) n r) v then true else false) (all_strings M)).
  { intros L. destruct (K L) as (delta & Ld & D). apply (xor_count M _ _ delta Ld). intros r Lr.
    assert (Lx : length (xor_bytes r delta) = M) by (rewrite xor_bytes_length; lia).
    assert (Q : viewOf true ar growcap att (bl r) n r = v <-> viewOf false ar growcap att (br (xor_bytes r delta)) n (xor_bytes r delta) = v).
    { split; intros Hv.
      - rewrite <- Hv. apply (view_sim ar growcap att B n true); try assumption; try lia. intros p f sh x Hi Hx. rewrite Hv in Hi. destruct (D p f sh Hi) as (D1 & D2 & D3).
        cbn [negb]. rewrite seg_xor. apply D3; [apply seg_length; lia|exact Hx].
      - rewrite <- Hv. apply (view_sim ar growcap att B n false); try assumption; try lia. intros p f sh x Hi Hx. rewrite Hv in Hi. destruct (D p f sh Hi) as (D1 & D2 & D3).
        cbn [negb]. rewrite seg_xor. symmetry. apply D3; [apply seg_length; lia|exact Hx]. }
    destruct (full_view_dec (viewOf true _ _ _ _ _ _) v) as [H1|H1]; destruct (full_view_dec (viewOf false _ _ _ _ _ _) v) as [H2|H2]; try reflexivity; exfalso; tauto. }
  assert (Z : forall left (b : list byte -> nat -> pools), ~ ledger_ok 0 (snd v) M -> count (fun r => if full_view_dec (viewOf left ar growcap att (b r) n r) v then true else false) (all_strings M) = 0).
  { clear Main. intros left b NL. rewrite (count_ext _ (fun _ => false)); [unfold count; induction (all_strings M) as [|u l IHl]; [reflexivity|cbn [filter]; exact IHl]|].
    intros r _. destruct (full_view_dec (viewOf left ar growcap att (b r) n r) v) as [H|H]; [|reflexivity]. exfalso. apply NL. rewrite <- H. eapply view_ledger; eassumption. }
  match goal with |- ?x = ?y => destruct (Nat.eq_dec x y) as [E|E]; [exact E|] end.
  exfalso. assert (NL : ~ ledger_ok 0 (snd v) M) by (intros L; exact (E (Main L))).
  apply E. rewrite (Z true bl NL), (Z false br NL). reflexivity.
Qed.

(** C83: An attacker asks [n] times, each time choosing from all replies so far: split one of two secrets of equal length with one of three split
    functions (it chooses the permutation and the schedule), call Regenerate on at least threshold shares of an earlier sharing (it chooses
    which, and the bytes drawn, and is told the new tags or how the call ended), or show one share, original or regenerated. A
    share is shown unless its tag is 0 or it is the threshold-th different share shown of its sharing (the tags may repeat); where
    the two secrets are equal, everything is shown. Whatever the attacker concludes, it concludes for equally many random strings when the left
    secrets are split and when the right ones are. *)
Lemma C83_adaptive_pf : forall ar growcap att poolsLeft poolsRight conclude n B M,
  grow_ok growcap -> proper_requests att B -> n * B <= M ->
  count (fun r => conclude (seen true ar growcap att (poolsLeft r) n r)) (all_strings M) =
  count (fun r => conclude (seen false ar growcap att (poolsRight r) n r)) (all_strings M).
Proof.
  intros ar growcap att bl br conclude n B M G HA Hn.
  apply (count_views full_view_dec (fun r => viewOf true ar growcap att (bl r) n r) (fun r => viewOf false ar growcap att (br r) n r) (all_strings M)
    (fun v => same_views ar growcap att bl br n B M v G HA Hn) (fun v => conclude (fst v))).
Qed.

(*COPY
(** An attacker that has "hi" or "yo" split (threshold 3, 4 parts) with Split, looks at share 1, has a fifth share with tag 9 and a sixth with tag 0 made
    from shares 0, 2 and 3, looks at the fifth, asks for the one with tag 0 and for a third one (both refused), then looks at share 1 again; and
    depending on the first byte seen has "A" or "A" split with SplitGeneric and looks at all of it. The replies in the two worlds are different for
    one random string; everything is counted. *)
Definition ex_split : splitting := {| p_api := ASplit; p_perm := ex_perm; p_left := [x68; x69]; p_right := [x79; x6f]; p_parts := 4; p_threshold := 3 |}.
Definition ex_same : splitting := {| p_api := AGeneric; p_perm := ex_perm; p_left := [x41]; p_right := [x41]; p_parts := 2; p_threshold := 2 |}.
Definition ex_regen : regen_call := RegenCall [0; 2; 3] 2 5 (fun i => if i =? 0 then x09 else x00) (fun _ => x07).
Definition ex_att (h : list reply) : request :=
  match length h with
  | 0 => QSplit ex_split
  | 1 => QShow 0 1
  | 2 => QRegenerate 0 ex_regen
  | 3 => QShow 0 4
  | 4 => QShow 0 5
  | 5 => QShow 0 0
  | 6 => QShow 0 1
  | 7 => QRegenerate 0 (RegenCall [0; 2] 2 5 (fun _ => x09) (fun _ => x07))
  | 8 => match nth 6 h RHangs with RShare (x00 :: _) => QShow 0 0 | _ => QSplit ex_same end
  | 9 => QShow 1 0
  | _ => QShow 1 1
  end.
Example C83_case : grow_ok growcap117 /\ proper_requests ex_att 6 /\
  let left := seen true ex_ar growcap117 ex_att (fun _ => {| s_pol := ex_stale; s_tr := ex_stale; s_ev := ex_ev |}) 11 (repeat x07 66) in
  let right := seen false ex_ar growcap117 ex_att (fun _ => {| s_pol := []; s_tr := ex_stale; s_ev := ex_ev |}) 11 (repeat x07 66) in
  exists s1 s2 s3 s4, left = [RShare s4; RShare s3; RTags [x01; x02]; RRefused; RShare s1; RRefused; RRefused; RShare s2; RTags [x09; x00]; RShare s1; RTags [x01; x02; x03; x04]] /\
    length s2 = 3 /\ tag s2 = x09 /\ left <> right.
Proof.
  split; [exact ex_grow|]. split.
  { assert (P1 : proper ex_split /\ bytes_of ex_split <= 6).
    { split; [|vm_compute; lia]. split; [exact ex_perm_ok|]. split; [split; [discriminate|cbn; lia]|]. split; [reflexivity|exact I]. }
    assert (P2 : proper ex_same /\ bytes_of ex_same <= 6).
    { split; [|vm_compute; lia]. split; [exact ex_perm_ok|]. split; [split; [discriminate|cbn; lia]|]. split; [reflexivity|exact I]. }
    intros h. unfold ex_att. destruct (length h) as [|[|[|[|[|[|[|[|[|[|k]]]]]]]]]]; try exact I; [exact P1|].
    destruct (nth 6 h RHangs) as [|[|[] s]| | | |]; try exact I; exact P2. }
  cbv zeta. eexists _, _, _, _. split; [vm_compute; reflexivity|]. split; [reflexivity|]. split; [reflexivity|]. vm_compute. discriminate.
Qed.
END*)
