(** Proofs that combining too few genuine shares with other parts gives every result equally often (C85). *)
From Coq Require Import List NArith ZArith Lia Arith Bool Permutation.
From Coq.Init Require Import Byte.
From Verif Require Import GoSem Bytes Spec Vector Pool Polynomial Shamir SplitP GoFacts GF PolyFacts PolynomialFacts SplitFacts CombineFacts RegenFacts Secrecy CountFacts
  Derived VectorFacts SplitPFacts SplitPMore SplitPTop Pf1 Pf12 SpecMix MixFacts.
Import ListNotations.

(*PROPS
From Coq Require Import List NArith ZArith Lia Arith Bool Permutation.
From Coq.Init Require Import Byte.
From Verif Require Import GoSem Bytes Spec Vector Pool Polynomial Shamir SplitP SpecMix ExData Pf40.
Import ListNotations.
*)

Lemma mix_tags perm n js hs : Permutation perm (seq 0 255) -> n <= 255 -> (forall i, In i (js ++ hs) -> i < n) -> NoDup (js ++ hs) ->
  let xs := pick x00 (tagsOf n (map i2b perm)) in
  map (tag_of_share perm) js = xs js /\ map (tag_of_share perm) hs = xs hs /\ xs (js ++ hs) = xs js ++ xs hs /\
  NoDup (xs js ++ xs hs) /\ ~ In x00 (xs js ++ xs hs) /\ length (xs js ++ xs hs) = length (js ++ hs).
Proof.
  intros P Hn Hi NDi xs. destruct (perm_coords perm P) as (ND & NF & L255).
  assert (Ex : forall is, (forall i, In i is -> i < n) -> map (tag_of_share perm) is = xs is).
  { intros is Hi'. unfold xs, pick, tag_of_share. apply map_ext_in. intros i Hin. specialize (Hi' i Hin). rewrite nth_tagsOf by lia. rewrite map_length in L255.
    rewrite (nth_map' i2b perm i x00 0) by lia. apply b2n_inj. unfold badd, i2b. rewrite !b2n_n2b. change (b2n x01) with 1%N.
    rewrite N.add_mod_idemp_l by discriminate. f_equal. lia. }
  assert (Ea : xs (js ++ hs) = xs js ++ xs hs) by (unfold xs, pick; apply map_app).
  destruct (pick_tags_facts n (map i2b perm) (js ++ hs)) as (N1 & N2); try assumption; [lia|].
  split; [apply Ex; intros i H; apply Hi, in_app_iff; left; exact H|]. split; [apply Ex; intros i H; apply Hi, in_app_iff; right; exact H|].
  split; [exact Ea|]. rewrite <- Ea. split; [exact N1|]. split; [exact N2|]. unfold xs. apply pick_length.
Qed.

(** the counts for a family of sharings *)
Lemma mix_counts P M N t perm n js hs w forged s v (o : list byte -> outcome (list (list byte))) :
  shiftable P M N t -> (t - 1) * N <= M -> Permutation perm (seq 0 255) -> n <= 255 -> coalition n t (js ++ hs) -> length s = N -> 1 <= N ->
  mixable N perm forged hs -> hs <> [] -> length v = N ->
  (forall r, length r = M -> o r = Ret (map (share_at (P s r)) (tagsOf n (map i2b perm)))) ->
  (is_view N (map (tag_of_share perm) js) w -> count (fun r => mixed_gives Combine js w forged hs v (o r)) (all_strings M) = 256 ^ (M - (length js + 1) * N)) /\
  (~ is_view N (map (tag_of_share perm) js) w -> count (fun r => mixed_gives Combine js w forged hs v (o r)) (all_strings M) = 0).
Proof.
  intros Sh HM Pm Hn (C1 & C2 & C3) Ls HN (F1 & F2 & F3 & F4) Ne Lv Ho.
  destruct (mix_tags perm n js hs Pm Hn C2 C1) as (Ej & Eh & _ & T1 & T2 & T3). set (xs := pick x00 (tagsOf n (map i2b perm))) in *.
  destruct (perm_coords perm Pm) as (_ & _ & L255).
  rewrite Eh in F3. rewrite Ej.
  assert (Lh : length (xs hs) = length hs) by apply pick_length. assert (Lj : length (xs js) = length js) by apply pick_length.
  assert (Eq : count (fun r => mixed_gives Combine js w forged hs v (o r)) (all_strings M)
    = count (fun r => shares_eqb (map (share_at (P s r)) (xs js)) w &&
        match Combine (forged ++ map (share_at (P s r)) (xs hs)) with Ret u => shares_eqb [u] [v] | _ => false end) (all_strings M)).
  { apply count_ext. intros r Hr. apply all_strings_in in Hr. rewrite Ho by exact Hr. unfold mixed_gives, xs.
    assert (Lt : length (tagsOf n (map i2b perm)) = n) by (apply tagsOf_length; lia).
    assert (Epk : forall is, (forall i, In i is -> i < n) -> pick [] (map (share_at (P s r)) (tagsOf n (map i2b perm))) is
       = map (share_at (P s r)) (pick x00 (tagsOf n (map i2b perm)) is)) by (intros is Hi; apply pick_map; rewrite Lt; exact Hi).
    rewrite !Epk; [reflexivity| |]; intros i Hi; apply C2, in_app_iff; [right|left]; exact Hi. }
  rewrite Eq. split; intros Hw.
  - rewrite (mix_exact P M N t (xs js) (xs hs) s w forged Sh T1 T2); try assumption; [rewrite Lj; reflexivity|lia|lia|destruct hs; [congruence|discriminate]].
  - apply (mix_none P M N t); assumption.
Qed.

(** C85: Split. An attacker who sees the shares [w] of too small a coalition, and chooses with this knowledge the parts [forged] that are combined with
    further genuine shares, still below the threshold together with those he sees, makes Combine return each string for equally many of the random
    strings Split can draw. *)
Lemma C85_split_pf : forall ar growcap perm polB trB evBufs s parts threshold js hs w forged v,
  grow_ok growcap -> Permutation perm (seq 0 255) -> valid_args s parts threshold ->
  coalition (Z.to_nat parts) (Z.to_nat threshold) (js ++ hs) -> hs <> [] -> mixable (length s) perm forged hs -> length v = length s ->
  let hits := count (fun r => mixed_gives Combine js w forged hs v (Split ar growcap perm (stream_of r) polB trB evBufs s parts threshold))
                    (all_strings (Z.to_nat threshold * length s)) in
  (is_view (length s) (map (tag_of_share perm) js) w -> hits = 256 ^ ((Z.to_nat threshold - length js - 1) * length s)) /\
  (~ is_view (length s) (map (tag_of_share perm) js) w -> hits = 0).
Proof.
  intros ar growcap perm polB trB evBufs s parts threshold js hs w forged v G P V C Ne Mx Lv hits.
  pose proof V as (Hs & H2 & H3 & H4). pose proof V as V'. apply valid_checkArgs in V'. assert (0 < length s) by (destruct s; [congruence|cbn; lia]).
  pose proof C as (_ & _ & C3). rewrite app_length in C3.
  destruct (mix_counts (polysOf (Z.to_nat threshold)) (Z.to_nat threshold * length s) (length s) (Z.to_nat threshold) perm (Z.to_nat parts) js hs w forged s v
    (fun r => Split ar growcap perm (stream_of r) polB trB evBufs s parts threshold)) as (K1 & K2); try assumption; try lia.
  - apply shiftable_polysOf. lia.
  - intros r Hr. destruct (perm_coords perm P) as (_ & _ & L255). rewrite map_length in L255.
    rewrite (Split_ok ar growcap perm _ polB trB evBufs s parts threshold G V') by lia.
    rewrite take_stream_of by exact Hr. reflexivity.
  - split; [|exact K2]. intros Hw. unfold hits. rewrite (K1 Hw). f_equal. rewrite <- Nat.mul_sub_distr_r. f_equal. lia.
Qed.

(** C85: SplitGeneric. *)
Lemma C85_generic_pf : forall perm s parts threshold js hs w forged v,
  Permutation perm (seq 0 255) -> valid_args s parts threshold ->
  coalition (Z.to_nat parts) (Z.to_nat threshold) (js ++ hs) -> hs <> [] -> mixable (length s) perm forged hs -> length v = length s ->
  let hits := count (fun r => mixed_gives Combine js w forged hs v (SplitGeneric perm (stream_of r) s parts threshold))
                    (all_strings ((Z.to_nat threshold - 1) * length s)) in
  (is_view (length s) (map (tag_of_share perm) js) w -> hits = 256 ^ ((Z.to_nat threshold - 1 - length js - 1) * length s)) /\
  (~ is_view (length s) (map (tag_of_share perm) js) w -> hits = 0).
Proof.
  intros perm s parts threshold js hs w forged v P V C Ne Mx Lv hits.
  pose proof V as (Hs & H2 & H3 & H4). pose proof V as V'. apply valid_checkArgs in V'. assert (0 < length s) by (destruct s; [congruence|cbn; lia]).
  pose proof C as (_ & _ & C3). rewrite app_length in C3.
  destruct (mix_counts (polysGen (Z.to_nat threshold)) ((Z.to_nat threshold - 1) * length s) (length s) (Z.to_nat threshold) perm (Z.to_nat parts) js hs w forged s v
    (fun r => SplitGeneric perm (stream_of r) s parts threshold)) as (K1 & K2); try assumption; try lia.
  - apply shiftable_polysGen. lia.
  - intros r Hr. destruct (perm_coords perm P) as (_ & _ & L255). rewrite map_length in L255.
    rewrite (SplitGeneric_ok perm _ s parts threshold V') by lia.
    rewrite take_stream_of by exact Hr. reflexivity.
  - split; [|exact K2]. intros Hw. unfold hits. rewrite (K1 Hw). f_equal. rewrite <- Nat.mul_sub_distr_r. f_equal. lia.
Qed.

(** C85: SplitP, in every schedule of its goroutines in which it returns. *)
Lemma C85_splitp_pf : forall perm s parts threshold sched js hs w forged v r0 shares0,
  Permutation perm (seq 0 255) -> valid_args s parts threshold -> (N.of_nat (length s) <= 4294967296 - 1024)%N ->
  coalition (Z.to_nat parts) (Z.to_nat threshold) (js ++ hs) -> hs <> [] -> mixable (length s) perm forged hs -> length v = length s ->
  SplitPRun perm (stream_of r0) s parts threshold sched = Some (Ret shares0) ->
  let hits := count (fun r => match SplitPRun perm (stream_of r) s parts threshold sched with Some o => mixed_gives Combine js w forged hs v o | None => false end)
                    (all_strings ((Z.to_nat threshold - 1) * length s)) in
  (is_view (length s) (map (tag_of_share perm) js) w -> hits = 256 ^ ((Z.to_nat threshold - 1 - length js - 1) * length s)) /\
  (~ is_view (length s) (map (tag_of_share perm) js) w -> hits = 0).
Proof.
  intros perm s parts threshold sched js hs w forged v r0 shares0 P V HL C Ne Mx Lv E0 hits.
  pose proof V as (Hs & H2 & H3 & H4). pose proof V as V'. apply valid_checkArgs in V'. assert (0 < length s) by (destruct s; [congruence|cbn; lia]).
  pose proof C as (_ & _ & C3). rewrite app_length in C3. destruct (valid_deg _ _ _ V) as (D1 & D2).
  assert (Hsl : secretLen s = N.of_nat (length s)) by (unfold secretLen, u32; apply N.mod_small; lia).
  destruct (SplitPRun_order perm _ s parts threshold sched shares0 P ltac:(lia) E0) as (order & Po & Ho). rewrite Hsl, Nat2N.id in Po.
  destruct (mix_counts (fun s r => polysP s (z2b (threshold - 1)) (stream_of r) order) ((Z.to_nat threshold - 1) * length s) (length s) (Z.to_nat threshold) perm (Z.to_nat parts) js hs w forged s v
    (fun r => match SplitPRun perm (stream_of r) s parts threshold sched with Some o => o | None => Diverge end)) as (K1 & K2); try assumption; try lia.
  - replace (Z.to_nat threshold) with (S (b2i (z2b (threshold - 1)))) by lia.
    replace (S (b2i (z2b (threshold - 1))) - 1) with (b2i (z2b (threshold - 1))) by lia. apply shiftable_polysP; [lia|exact Po].
  - intros r Hr. rewrite Ho by reflexivity. reflexivity.
  - assert (Eq : hits = count (fun r => mixed_gives Combine js w forged hs v (match SplitPRun perm (stream_of r) s parts threshold sched with Some o => o | None => Diverge end))
                   (all_strings ((Z.to_nat threshold - 1) * length s))).
    { apply count_ext. intros r Hr. destruct (SplitPRun perm (stream_of r) s parts threshold sched); reflexivity. }
    rewrite Eq. split; [|exact K2]. intros Hw. rewrite (K1 Hw). f_equal. rewrite <- Nat.mul_sub_distr_r. f_equal. lia.
Qed.

(** C85: mixing shares is not noticed and guesses no better than chance: among the random strings for which Split shows the attacker what he sees, the
    right secret (or any other string) comes out for exactly one in 256^length. *)
Lemma C85_chance_pf : forall ar growcap perm polB trB evBufs s parts threshold js hs forged w,
  grow_ok growcap -> Permutation perm (seq 0 255) -> valid_args s parts threshold ->
  coalition (Z.to_nat parts) (Z.to_nat threshold) (js ++ hs) -> hs <> [] -> mixable (length s) perm forged hs ->
  (forall stream, exists shares v, Split ar growcap perm stream polB trB evBufs s parts threshold = Ret shares /\
     Combine (forged ++ pick [] shares hs) = Ret v /\ length v = length s) /\
  let buffers := all_strings (Z.to_nat threshold * length s) in
  let split r := Split ar growcap perm (stream_of r) polB trB evBufs s parts threshold in
  256 ^ length s * count (fun r => mixed_gives Combine js w forged hs s (split r)) buffers = count (fun r => observes (split r) js w) buffers.
Proof.
  intros ar growcap perm polB trB evBufs s parts threshold js hs forged w G P V C Ne Mx.
  pose proof V as (Hs & H2 & H3 & H4). pose proof V as V'. apply valid_checkArgs in V'. assert (0 < length s) by (destruct s; [congruence|cbn; lia]).
  pose proof C as (C1 & C2 & C3). split.
  - intros stream. destruct (perm_coords perm P) as (_ & _ & L255). rewrite map_length in L255.
    rewrite (Split_ok ar growcap perm _ polB trB evBufs s parts threshold G V') by lia.
    eexists. destruct (mix_tags perm (Z.to_nat parts) js hs P ltac:(lia) C2 C1) as (Ej & Eh & _ & T1 & T2 & T3). destruct Mx as (F1 & F2 & F3 & F4).
    set (polys := polysOf (Z.to_nat threshold) s (take_stream stream (Z.to_nat threshold * length s))).
    assert (Lp : length polys = length s).
    { unfold polys. apply (proj1 (shiftable_polysOf (Z.to_nat threshold) (length s) ltac:(lia))); [reflexivity|apply take_stream_length]. }
    destruct (mix_combine (Z.to_nat threshold * length s) (length s) (Z.to_nat threshold) (pick x00 (tagsOf (Z.to_nat parts) (map i2b perm)) js)
      (pick x00 (tagsOf (Z.to_nat parts) (map i2b perm)) hs) s forged) with (polys := polys) as (u & Eu & Lu); try assumption; try nia; try reflexivity.
    + rewrite <- Eh. exact F3.
    + rewrite pick_length. exact F4.
    + exists u. split; [reflexivity|]. split; [|exact Lu]. fold polys. transitivity (Combine (forged ++ map (share_at polys) (pick x00 (tagsOf (Z.to_nat parts) (map i2b perm)) hs))); [|exact Eu]. do 2 f_equal. apply pick_map.
      intros i Hi. rewrite tagsOf_length by (rewrite map_length; lia). apply C2, in_app_iff. right. exact Hi.
  - cbv zeta. rewrite app_length in C3. assert (1 <= length hs) by (destruct hs; [congruence|cbn; lia]).
    destruct (C85_split_pf ar growcap perm polB trB evBufs s parts threshold js hs w forged s G P V C Ne Mx eq_refl) as (K1 & K2).
    destruct (C04_exact_pf ar growcap perm polB trB evBufs s parts threshold js w G P V) as (J1 & J2).
    { split; [apply NoDup_app_remove_r' with (l' := hs); exact C1|]. split; [intros i Hi; apply C2, in_app_iff; left; exact Hi|lia]. }
    assert (D : is_view (length s) (map (tag_of_share perm) js) w \/ ~ is_view (length s) (map (tag_of_share perm) js) w).
    { destruct (Nat.eq_dec (count (fun r => observes (Split ar growcap perm (stream_of r) polB trB evBufs s parts threshold) js w) (all_strings (Z.to_nat threshold * length s))) 0) as [E|E].
      - right. intros Hw. cbv zeta in J1. rewrite (J1 Hw) in E. revert E. apply Nat.pow_nonzero. lia.
      - unfold is_view. destruct (Nat.eq_dec (length w) (length (map (tag_of_share perm) js))) as [El|El]; [|right; intros (X & _); exact (El X)].
        destruct (Forall_Exists_dec (fun i => length (nth i w []) = length s + 1 /\ nth (length s) (nth i w []) x00 = nth i (map (tag_of_share perm) js) x00)) with (l := seq 0 (length w)) as [Y|Y].
        + intros i. destruct (Nat.eq_dec (length (nth i w [])) (length s + 1)) as [X|X]; [|right; intros (Z & _); exact (X Z)].
          destruct (byte_eq_dec (nth (length s) (nth i w []) x00) (nth i (map (tag_of_share perm) js) x00)) as [Z|Z]; [left; split; assumption|right; intros (_ & Q); exact (Z Q)].
        + left. split; [exact El|]. intros i Hi. rewrite Forall_forall in Y. apply Y, in_seq. lia.
        + right. intros (_ & Q). apply Exists_exists in Y as (i & Hi & Y). apply Y, Q. apply in_seq in Hi. lia. }
    destruct D as [D|D].
    + rewrite (K1 D). cbv zeta in J1. rewrite (J1 D). rewrite <- Nat.pow_add_r. f_equal. nia.
    + rewrite (K2 D). cbv zeta in J2. rewrite (J2 D). lia.
Qed.

(** C85: tags must not be zero: a part with tag zero decides the result alone. *)
Lemma C85_zero_tag_pf : forall parts p, acceptable parts -> In p parts -> tag p = x00 -> Combine parts = Ret (data p).
Proof.
  intros parts p (A1 & A2 & A3 & A4) Hp Hz. rewrite (Combine_accept parts (length (nth 0 parts []))) by assumption. f_equal.
  apply nth_ext with x00 x00; [rewrite interpAt_length, data_length, (A3 p Hp); reflexivity|]. intros j Hj. rewrite interpAt_length in Hj.
  rewrite nth_interpAt by exact Hj. rewrite nth_data by (rewrite (A3 p Hp); lia). rewrite <- (interp_at_part parts j p A4 Hp), Hz. reflexivity.
Qed.

(*COPY
(** the hypotheses are met: of a 5-out-of-3 sharing the attacker sees share 4 and mixes a share of his own with the genuine share 1, and the result is not the secret *)
Example C85_case : coalition 5 3 ([4] ++ [1]) /\ mixable 5 ex_perm [[x68; x65; x6c; x6c; x6f; xc8]] [1] /\ valid_args ex_secret 5 3 /\
  exists shares v, Split ex_ar growcap117 ex_perm ex_stream ex_stale ex_stale ex_ev ex_secret 5 3 = Ret shares /\
    is_view 5 (map (tag_of_share ex_perm) [4]) (pick [] shares [4]) /\
    Combine ([[x68; x65; x6c; x6c; x6f; xc8]] ++ pick [] shares [1]) = Ret v /\ length v = 5 /\ v <> ex_secret /\
    mixed_gives Combine [4] (pick [] shares [4]) [[x68; x65; x6c; x6c; x6f; xc8]] [1] v (Ret shares) = true.
Proof.
  split; [split; [repeat constructor; cbn; intuition lia|split; [cbn; intuition lia|cbn; lia]]|].
  split.
  { split; [intros p [<-|[]]; reflexivity|]. split; [vm_compute; intuition discriminate|]. split; [|cbn; lia].
    vm_compute. repeat constructor; cbn; intuition discriminate. }
  split; [exact ex_valid|]. eexists _, _. split; [vm_compute; reflexivity|].
  split; [split; [reflexivity|intros i Hi; destruct i; [split; vm_compute; reflexivity|cbn in Hi; lia]]|].
  split; [vm_compute; reflexivity|]. split; [reflexivity|]. split; [vm_compute; discriminate|vm_compute; reflexivity].
Qed.
END*)
