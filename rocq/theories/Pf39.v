(** Proofs about how often the random strings are good: exact counts for the randomizer splits and Regenerate (C84). *)
From Coq Require Import List NArith ZArith Lia Arith Bool Permutation.
From Coq.Init Require Import Byte.
From Verif Require Import GoSem Bytes Spec Galois GF PolyFacts GoFacts Vector Csprng Pool Polynomial PolynomialFacts Shamir SplitFacts
  CombineFacts RegenFacts Secrecy CsprngFacts CountFacts Derived RandomizerFacts Randomizer SplitP Pf1 Pf2 Pf3 Pf4 JointFacts SpecFrequency FrequencyFacts.
Import ListNotations.

(*PROPS
From Coq Require Import List NArith ZArith Lia Arith Bool Permutation.
From Coq.Init Require Import Byte.
From Verif Require Import GoSem Bytes Spec Vector Csprng Pool Polynomial Shamir SplitP SpecFrequency ExData Pf39.
Import ListNotations.
*)

Lemma picks_ext ks ks' n out : 0 < n -> (forall i, i < n -> ks i = ks' i) -> picks ks n out -> picks ks' n out.
Proof.
  intros Hn H (L & P). split; [exact L|]. intros i Hi. rewrite <- (H i Hi), <- (H 0 Hn). apply P, Hi.
Qed.

Definition goodStr (bad : byte -> bool) (n : nat) (r : list byte) : bool :=
  good (nth 0 (firstn n r) x00) bad [nth 0 (firstn n r) x00] (skipn 1 (firstn n r)).

Lemma goodStr_picks bad m r : S m <= length r ->
  goodStr bad (S m) r = true <-> exists out, picks (stream_of r) (S m) out /\ forall b, In b out -> bad b = false.
Proof.
  intros L. unfold goodStr. destruct r as [|x r]; [cbn in L; lia|]. cbn [firstn nth skipn]. cbn in L.
  assert (Lf : length (firstn m r) = m) by (rewrite firstn_length; lia).
  rewrite good_stream, Lf.
  assert (E : forall i, i < S m -> stream_of (x :: firstn m r) i = stream_of (x :: r) i).
  { intros [|i] Hi; [reflexivity|]. unfold stream_of. cbn [nth]. apply nth_firstn. lia. }
  split; intros (out & P & F); exists out; (split; [|exact F]); (eapply picks_ext; [lia| |exact P]); intros i Hi; [apply E, Hi|symmetry; apply E, Hi].
Qed.

Lemma goodStr_count bad m d K : count (fun r => good (nth 0 r x00) bad [nth 0 r x00] (skipn 1 r)) (all_strings (S m)) = N.to_nat K ->
  N.of_nat (count (goodStr bad (S m)) (all_strings (S m + d))) = (K * 256 ^ N.of_nat d)%N.
Proof.
  intros E. rewrite count_prefix.
  - rewrite (count_ext _ (fun r => good (nth 0 r x00) bad [nth 0 r x00] (skipn 1 r))).
    + rewrite E. rewrite Nat2N.inj_mul, N2Nat.id. f_equal. rewrite Nat2N.inj_pow. reflexivity.
    + intros r Hr. apply all_strings_in in Hr. unfold goodStr. rewrite <- Hr, firstn_all. reflexivity.
  - intros r _. unfold goodStr. rewrite firstn_firstn, Nat.min_id. reflexivity.
Qed.

Section Small.
Variables (ar : arch) (growcap : nat -> nat -> nat) (polB trB : bbuf) (evBufs : nat -> bbuf) (secret : list byte) (parts threshold : Z).
Hypothesis G : grow_ok growcap.
Hypothesis V : valid_args secret parts threshold.
Hypothesis Hp : (parts < 20)%Z.
Let call fuel r := SplitWithRandomizer fuel ar growcap (stream_of r) polB trB evBufs secret parts threshold.

Lemma call_returns fuel m r : 1 <= fuel -> Z.to_nat parts = S m -> S m <= length r -> returns (call fuel r) = goodStr nobad (S m) r.
Proof.
  intros Hf Hn L. destruct (C19_small_pf ar growcap (stream_of r) polB trB evBufs secret parts threshold G V Hp) as (A & B & C & _).
  rewrite Hn in *. destruct (goodStr nobad (S m) r) eqn:E.
  - apply goodStr_picks in E as (out & P & _); [|exact L]. destruct (proj2 A (ex_intro _ out P)) as (sh & R). unfold call. rewrite (R fuel Hf). reflexivity.
  - destruct C as [(out & P)|St].
    + exfalso. assert (T : goodStr nobad (S m) r = true) by (apply goodStr_picks; [exact L|]; exists out; split; [exact P|reflexivity]). congruence.
    + pose proof (proj2 B St fuel) as D. unfold call. rewrite D. reflexivity.
Qed.

Lemma call_hangs fuel m r : Z.to_nat parts = S m -> 1 <= fuel -> returns (call fuel r) = false -> forall fuel', call fuel' r = Diverge.
Proof.
  intros Hn Hf E. destruct (C19_small_pf ar growcap (stream_of r) polB trB evBufs secret parts threshold G V Hp) as (A & B & C & _).
  destruct C as [P|St]; [|exact (proj2 B St)]. destruct (proj2 A P) as (sh & R). unfold call in E. rewrite (R fuel Hf) in E. discriminate.
Qed.

Lemma call_no_zero fuel m r : 1 <= fuel -> Z.to_nat parts = S m -> S m <= length r -> no_zero_tag (call fuel r) = goodStr isff (S m) r.
Proof.
  intros Hf Hn L. pose proof (call_returns fuel m r Hf Hn L) as R0.
  destruct (call fuel r) as [sh|e|p| |] eqn:Ec; cbn [returns no_zero_tag] in *.
  2,3,4,5: symmetry; apply not_true_is_false; intros T; apply goodStr_picks in T as (out & P & _); [|exact L];
     assert (T : goodStr nobad (S m) r = true) by (apply goodStr_picks; [exact L|]; exists out; split; [exact P|reflexivity]); congruence.
  destruct (C18_randomizer_combine_pf fuel ar growcap (stream_of r) polB trB evBufs secret parts threshold sh G Ec) as (Ls & _).
  assert (Z : forall i, i < S m -> (tag (nth i sh []) = x00 <-> exists out, picks (stream_of r) (S m) out /\ nth i out x00 = xff)).
  { intros i Hi. rewrite <- Hn. apply (C20_zero_tag_small_pf fuel ar growcap (stream_of r) polB trB evBufs secret parts threshold sh i G Hp Ec). lia. }
  rewrite Hn in Ls. symmetry in R0. apply goodStr_picks in R0 as (out & P & _); [|exact L].
  destruct (in_dec byte_eq_dec x00 (map tag sh)) as [I|I].
  - symmetry. apply not_true_is_false. intros T. apply goodStr_picks in T as (out' & P' & F); [|exact L].
    apply in_map_iff in I as (s & Es & Is). apply (In_nth _ _ []) in Is as (i & Hi & <-). rewrite Ls in Hi.
    apply (proj1 (Z i Hi)) in Es as (o & Po & Eo). rewrite (picks_unique _ _ _ _ Po P') in Eo.
    assert (F' : isff (nth i out' x00) = false) by (apply F, nth_In; destruct P' as (-> & _); exact Hi). rewrite Eo in F'. discriminate.
  - symmetry. apply goodStr_picks; [exact L|]. exists out. split; [exact P|]. intros b Hb. apply beq_false. intros ->.
    apply (In_nth _ _ x00) in Hb as (i & Hi & Ei). assert (Hi' : i < S m) by (destruct P as (Lo & _); lia).
    apply I. rewrite <- (proj2 (Z i Hi') (ex_intro _ out (conj P Ei))). apply in_map, nth_In. lia.
Qed.
End Small.

(** C84: With fewer than 20 parts, exactly [returning_keys parts] of the strings that the first [parts] bytes of the key stream can be let SplitWithRandomizer
    return (counted over all strings of any sufficient length), exactly [usable_keys parts] let it return without a share of tag 0,
    and with all others it never returns. *)
Lemma C84_few_parts_pf : forall fuel ar growcap polB trB evBufs secret parts threshold M,
  grow_ok growcap -> valid_args secret parts threshold -> (parts < 20)%Z -> 1 <= fuel -> Z.to_nat parts <= M ->
  let n := Z.to_nat parts in
  let call fuel r := SplitWithRandomizer fuel ar growcap (stream_of r) polB trB evBufs secret parts threshold in
  N.of_nat (count (fun r => returns (call fuel r)) (all_strings M)) = (returning_keys n * 256 ^ N.of_nat (M - n))%N /\
  N.of_nat (count (fun r => no_zero_tag (call fuel r)) (all_strings M)) = (usable_keys n * 256 ^ N.of_nat (M - n))%N /\
  forall r, returns (call fuel r) = false -> forall fuel', call fuel' r = Diverge.
Proof.
  intros fuel ar growcap polB trB evBufs secret parts threshold M G V Hp Hf HM n call. pose proof V as (_ & H2 & H3 & _).
  destruct n as [|m] eqn:Hn; [unfold n in Hn; lia|]. unfold n in Hn. rewrite Hn in HM.
  replace M with (S m + (M - S m)) at 1 3 by lia. split; [|split].
  - rewrite (count_ext _ (goodStr nobad (S m))); [apply goodStr_count, all_returning|]. intros r Hr. apply all_strings_in in Hr.
    apply call_returns; try assumption. lia.
  - rewrite (count_ext _ (goodStr isff (S m))); [apply goodStr_count, all_usable|]. intros r Hr. apply all_strings_in in Hr.
    apply call_no_zero; try assumption. lia.
  - intros r. apply (call_hangs ar growcap polB trB evBufs secret parts threshold G V Hp fuel m r Hn Hf).
Qed.

Lemma count_first (P : list byte -> bool) b M : (forall r, In r (all_strings (S M)) -> P r = beq (nth 0 r x00) b) -> count P (all_strings (S M)) = 256 ^ M.
Proof.
  intros H. rewrite (count_ext _ _ _ H). cbn [all_strings]. rewrite count_flat_map.
  rewrite (sum_classes _ (fun c => beq c b) (fun _ => false) (fun _ => false) (256 ^ M) 0 0); try reflexivity.
  - rewrite (count_add1 (fun _ => false) _ b), count_none by reflexivity. lia.
  - intros c _. rewrite count_map. cbn [nth]. destruct (beq c b); [transitivity (count (fun _ : list byte => true) (all_strings M)); [reflexivity|rewrite count_all; apply all_strings_length]|apply count_0; reflexivity].
Qed.

(** C84: With 20 or more parts, SplitWithRandomizer panics for exactly one of 256 key streams, and so does SplitWithRandomizerOld with any number of
    parts; for all others they return shares without tag 0. *)
Lemma C84_many_parts_pf : forall fuel ar growcap polB trB evBufs secret parts threshold M,
  grow_ok growcap -> valid_args secret parts threshold ->
  let new r := SplitWithRandomizer fuel ar growcap (stream_of r) polB trB evBufs secret parts threshold in
  let old r := SplitWithRandomizerOld ar growcap (stream_of r) evBufs secret parts threshold in
  ((20 <= parts)%Z -> count (fun r => panics (new r)) (all_strings (S M)) = 256 ^ M /\
     forall r, panics (new r) = false -> no_zero_tag (new r) = true) /\
  count (fun r => panics (old r)) (all_strings (S M)) = 256 ^ M /\
  forall r, panics (old r) = false -> no_zero_tag (old r) = true.
Proof.
  intros fuel ar growcap polB trB evBufs secret parts threshold M G V new old.
  assert (E0 : forall r, stream_of r 0 = nth 0 r x00) by reflexivity. split.
  - intros Hp. assert (Q : forall r, (nth 0 r x00 = xfe -> panics (new r) = true) /\ (nth 0 r x00 <> xfe -> panics (new r) = false /\ no_zero_tag (new r) = true)).
    { intros r. destruct (C19_large_pf fuel ar growcap (stream_of r) polB trB evBufs secret parts threshold G V Hp) as (A & B). rewrite E0 in *. split; intros H.
      - unfold new. rewrite (A H). reflexivity.
      - destruct (B H) as (sh & E). unfold new. rewrite E. split; [reflexivity|]. cbn [no_zero_tag].
        destruct (in_dec byte_eq_dec x00 (map tag sh)) as [I|I]; [|reflexivity]. exfalso.
        exact (C20_no_zero_tag_large_pf fuel ar growcap (stream_of r) polB trB evBufs secret parts threshold sh G Hp E I). }
    split.
    + apply (count_first _ xfe). intros r _. destruct (Q r) as (A & B). destruct (byte_eq_dec (nth 0 r x00) xfe) as [H|H].
      * rewrite (A H), H. reflexivity.
      * rewrite (proj1 (B H)). symmetry. apply beq_false, H.
    + intros r H. destruct (Q r) as (A & B). apply B. intros F. rewrite (A F) in H. discriminate.
  - assert (Q : forall r, (nth 0 r x00 = xfe -> panics (old r) = true) /\ (nth 0 r x00 <> xfe -> panics (old r) = false /\ no_zero_tag (old r) = true)).
    { intros r. destruct (C19_old_pf ar growcap (stream_of r) evBufs secret parts threshold G V) as (A & B). rewrite E0 in *. split; intros H.
      - unfold old. rewrite (A H). reflexivity.
      - destruct (B H) as (sh & E). unfold old. rewrite E. split; [reflexivity|]. cbn [no_zero_tag].
        destruct (in_dec byte_eq_dec x00 (map tag sh)) as [I|I]; [|reflexivity]. exfalso.
        exact (C20_no_zero_tag_old_pf ar growcap (stream_of r) evBufs secret parts threshold sh G E I). }
    split.
    + apply (count_first _ xfe). intros r _. destruct (Q r) as (A & B). destruct (byte_eq_dec (nth 0 r x00) xfe) as [H|H].
      * rewrite (A H), H. reflexivity.
      * rewrite (proj1 (B H)). symmetry. apply beq_false, H.
    + intros r H. destruct (Q r) as (A & B). apply B. intros F. rewrite (A F) in H. discriminate.
Qed.

Lemma good_distinct bad : forall l T, good x00 bad T l = true <->
  (forall b, In b (T ++ l) -> bad b = false) /\ NoDup l /\ forall b, In b l -> ~ In b T.
Proof.
  induction l as [|b l IH]; intros T; cbn [good].
  - rewrite app_nil_r, forallb_forall. split.
    + intros H. split; [|split; [constructor|intros ? []]]. intros c Hc. apply H in Hc. destruct (bad c); [discriminate|reflexivity].
    + intros (H & _) c Hc. rewrite (H c Hc). reflexivity.
  - rewrite gadd_0_r. destruct (mem b T) eqn:E.
    + apply mem_In in E. split; [discriminate|]. intros (_ & _ & H). exfalso. exact (H b (or_introl eq_refl) E).
    + apply mem_false in E. rewrite IH, <- app_assoc. cbn [app]. split; intros (A & B & C); (split; [exact A|]).
      * split; [constructor; [|exact B]|].
        -- intros F. apply (C b F). apply in_or_app. right; left; reflexivity.
        -- intros c [<-|Hc]; [exact E|]. intros F. apply (C c Hc). apply in_or_app. left; exact F.
      * inversion B as [|? ? Nb Bl]; subst. split; [exact Bl|]. intros c Hc F. apply in_app_or in F as [F|[<-|[]]]; [|contradiction].
        apply (C c (or_intror Hc) F).
Qed.

Lemma dedup_fresh fuel u : forall l m, NoDup l -> (forall b, In b l -> ~ In b m) -> exists r, dedupLoop fuel u m l = Ret r.
Proof.
  unfold dedupLoop. generalize 0. intros k l. revert k. induction l as [|b l IH]; intros k m ND H; [eexists; reflexivity|].
  inversion ND as [|? ? Nb NDl]; subst. cbn [foreach].
  assert (E : redraw fuel u k b m = Ret (b, k)).
  { assert (M : mem b m = false) by (apply mem_false, H; left; reflexivity). destruct fuel; cbn [redraw]; rewrite M; reflexivity. }
  rewrite E. cbn [bind]. apply IH; [exact NDl|]. intros c Hc [<-|F]; [contradiction|]. exact (H c (or_intror Hc) F).
Qed.

Lemma distinct_NoDup l : distinct l = true <-> NoDup l.
Proof.
  induction l as [|x l IH]; cbn [distinct]; [split; [constructor|reflexivity]|]. destruct (in_dec byte_eq_dec x l) as [I|I].
  - split; [discriminate|]. intros N. inversion N; contradiction.
  - rewrite IH. split; [constructor; assumption|]. intros N. inversion N; assumption.
Qed.

Lemma taken_count L : count (fun b => mem b L) all_bytes = length (nodup byte_eq_dec L).
Proof.
  unfold count. apply Permutation_length. apply NoDup_Permutation.
  - apply NoDup_filter, all_bytes_NoDup.
  - apply NoDup_nodup.
  - intros b. rewrite filter_In, nodup_In, mem_In. split; [tauto|]. intros H. split; [apply all_bytes_in|exact H].
Qed.

Section Regen.
Variables (fuel : nat) (u : nat -> byte) (parts : list (list byte)).
Hypothesis A : acceptable parts.
Let call k r := Regenerate fuel (stream_of r) u parts (Z.of_nat k).

Lemma regen_or k r : length r = k -> call k r = Ret (map (regenShare parts (length (nth 0 parts []))) r) \/ call k r = Diverge.
Proof.
  intros Lr. pose proof A as (A1 & A2 & A3 & A4). unfold call.
  assert (Et : take_stream (stream_of r) (Z.to_nat (Z.of_nat k)) = r) by (rewrite Nat2Z.id; apply take_stream_of; exact Lr).
  destruct (dedupLoop_cases fuel u (map tag parts) r) as [D|(m & j & D & _)].
  - right. eapply Regenerate_diverge; [lia|exact A1|exact A2|exact A3|exact A4|]. rewrite Et. exact D.
  - left. rewrite <- Et at 2. eapply Regenerate_dedup; [lia|exact A1|exact A2|exact A3|exact A4|]. rewrite Et. exact D.
Qed.

Lemma regen_tags L r : map tag (map (regenShare parts L) r) = r.
Proof. rewrite map_map. rewrite <- (map_id r) at 2. apply map_ext. intros x. apply tag_regenShare. Qed.

Lemma regen_fresh k r : length r = k -> fresh_shares parts (call k r) = good x00 (fun b => mem b (x00 :: map tag parts)) [] r.
Proof.
  intros Lr. pose proof A as (A1 & A2 & A3 & A4).
  set (bad := fun b => mem b (x00 :: map tag parts)).
  destruct (good x00 bad [] r) eqn:E.
  - apply good_distinct in E as (E1 & E2 & _). cbn [app] in E1.
    assert (Et : take_stream (stream_of r) (Z.to_nat (Z.of_nat k)) = r) by (rewrite Nat2Z.id; apply take_stream_of; exact Lr).
    destruct (dedup_fresh fuel u r (map tag parts) E2) as (q & Eq).
    { intros b Hb F. specialize (E1 b Hb). apply mem_false in E1. apply E1. right. exact F. }
    unfold call. rewrite (Regenerate_dedup fuel (stream_of r) u parts (Z.of_nat k) (length (nth 0 parts [])) q) by (try assumption; try lia; rewrite Et; exact Eq).
    rewrite Et. cbn [fresh_shares]. rewrite regen_tags. rewrite (proj2 (distinct_NoDup r) E2). cbn [andb].
    apply forallb_forall. intros s Hs. destruct (in_dec byte_eq_dec (tag s) (x00 :: map tag parts)) as [I|I]; [|reflexivity]. exfalso.
    apply (in_map tag) in Hs. rewrite regen_tags in Hs. specialize (E1 _ Hs). apply mem_false in E1. exact (E1 I).
  - destruct (regen_or k r Lr) as [R|D]; [|rewrite D; reflexivity]. rewrite R. cbn [fresh_shares]. rewrite regen_tags.
    destruct (distinct r) eqn:N; [|reflexivity]. apply distinct_NoDup in N. cbn [andb]. apply not_true_is_false. intros F. rewrite forallb_forall in F.
    assert (T : good x00 bad [] r = true); [|congruence]. apply good_distinct. split; [|split; [exact N|intros ? _ []]].
    cbn [app]. intros b Hb. apply mem_false. intros I. rewrite <- (regen_tags (length (nth 0 parts [])) r) in Hb. apply in_map_iff in Hb as (s & Es & Hs).
    specialize (F s Hs). rewrite Es in F. destruct (in_dec byte_eq_dec b (x00 :: map tag parts)) as [_|I']; [discriminate|exact (I' I)].
Qed.
End Regen.

(** C84: Regenerate on acceptable parts, asked for [k] shares: exactly (256 - d)(255 - d)...(257 - d - k) of the 256^k strings that it can draw give shares
    that can be handed out next to the parts, where [d] byte values are 0 or a tag of the parts. (This holds whatever the replacement bytes.) *)
Lemma C84_regenerate_pf : forall fuel u parts k, acceptable parts ->
  N.of_nat (count (fun r => fresh_shares parts (Regenerate fuel (stream_of r) u parts (Z.of_nat k))) (all_strings k)) =
  falling (256 - taken_tags parts) k.
Proof.
  intros fuel u parts k A. set (bad := fun b => mem b (x00 :: map tag parts)).
  rewrite (count_ext _ (good x00 bad [])).
  - rewrite (distinct_count bad k []) by (intros ? []). rewrite N2Nat.id. f_equal. unfold num, taken_tags. rewrite <- taken_count. fold bad.
    pose proof (count_negb bad all_bytes) as S. rewrite all_bytes_length in S.
    rewrite (count_ext (isN bad []) (fun b => negb (bad b))) by (intros b _; unfold isN; cbn [mem existsb negb]; apply andb_true_r). lia.
  - intros r Hr. apply all_strings_in in Hr. apply regen_fresh; assumption.
Qed.

Lemma uniform (P : list byte -> nat -> Prop) l : (forall r f f', P r f -> f <= f' -> P r f') -> (forall r, In r l -> exists f, P r f) -> exists F, forall r, In r l -> P r F.
Proof.
  intros Mono. induction l as [|a l IH]; intros H; [exists 0; intros ? []|]. destruct IH as (F & HF); [intros r Hr; apply H; right; exact Hr|].
  destruct (H a (or_introl eq_refl)) as (f & Hf). exists (f + F). intros r [<-|Hr]; [apply (Mono _ f); [exact Hf|lia]|apply (Mono _ F); [apply HF, Hr|lia]].
Qed.

(** C84: If there are enough byte values left, Regenerate returns for all strings, and exactly 256^k - 255^k of them give a share of tag 0, which holds
    the secret. *)
Lemma C84_regenerate_zero_pf : forall u parts k, acceptable parts -> length parts + k <= 256 -> recurring u ->
  exists F, forall fuel, F <= fuel ->
  let call r := Regenerate fuel (stream_of r) u parts (Z.of_nat k) in
  count (fun r => returns (call r)) (all_strings k) = 256 ^ k /\
  count (fun r => zero_tag (call r)) (all_strings k) + 255 ^ k = 256 ^ k.
Proof.
  intros u parts k A H Ru. pose proof A as (A1 & A2 & A3 & A4).
  destruct (uniform (fun r F => forall fuel, F <= fuel -> Regenerate fuel (stream_of r) u parts (Z.of_nat k) = Ret (map (regenShare parts (length (nth 0 parts []))) r)) (all_strings k)) as (F & HF).
  - intros r f f' P L fuel Hf. apply P. lia.
  - intros r Hr. apply all_strings_in in Hr. destruct (dedupLoop_terminates u (map tag parts) r Ru) as (f0 & F0); [rewrite map_length; lia|].
    assert (Et : take_stream (stream_of r) (Z.to_nat (Z.of_nat k)) = r) by (rewrite Nat2Z.id; apply take_stream_of; exact Hr).
    exists f0. intros fuel Hf. destruct (F0 fuel Hf) as (q & Eq). rewrite (Regenerate_dedup fuel (stream_of r) u parts (Z.of_nat k) (length (nth 0 parts [])) q) by (try assumption; try lia; rewrite Et; exact Eq).
    rewrite Et. reflexivity.
  - exists F. intros fuel Hf call. split.
    + transitivity (count (fun _ : list byte => true) (all_strings k)); [|rewrite count_all; apply all_strings_length]. apply count_ext. intros r Hr. unfold call. rewrite (HF r Hr fuel Hf). reflexivity.
    + rewrite (count_ext _ (fun r => mem x00 r)).
      * clear. induction k as [|k IH]; [reflexivity|]. cbn [all_strings]. rewrite count_flat_map.
        rewrite (sum_classes _ (fun b => beq b x00) (fun b => negb (beq b x00)) (fun _ => false) (256 ^ k) (count (fun r => mem x00 r) (all_strings k)) 0).
        -- pose proof (count_negb (fun b => beq b x00) all_bytes) as S. rewrite all_bytes_length in S.
           assert (E : count (fun b => beq b x00) all_bytes = 1) by (rewrite (count_add1 (fun _ => false) _ x00); [rewrite count_none; reflexivity|reflexivity|intros; reflexivity]).
           rewrite E in *. rewrite !Nat.pow_succ_r'. nia.
        -- intros b _. rewrite count_map. cbn [mem existsb]. destruct (beq b x00) eqn:E; cbn [negb].
           ++ apply beq_true in E. subst b. transitivity (count (fun _ : list byte => true) (all_strings k)); [reflexivity|rewrite count_all; apply all_strings_length].
           ++ apply count_ext. intros r _. assert (E2 : beq x00 b = false) by (apply beq_false; apply beq_false in E; congruence). rewrite E2. reflexivity.
        -- intros b _ E. rewrite E. reflexivity.
        -- reflexivity.
      * intros r Hr. unfold call. rewrite (HF r Hr fuel Hf). cbn [zero_tag]. rewrite regen_tags.
        destruct (in_dec byte_eq_dec x00 r) as [I|I]; symmetry; [apply mem_In|apply mem_false]; exact I.
Qed.


(** ** computing the numbers: states with their weights, equal states merged *)
Definition wstate : Type := (N * N * N)%type.
Definition ws_eq (s s' : wstate) : bool := (fst (fst s) =? fst (fst s'))%N && (snd (fst s) =? snd (fst s'))%N && (snd s =? snd s')%N.
Fixpoint put (s : wstate) (w : N) (l : list (wstate * N)) : list (wstate * N) :=
  match l with
  | [] => [(s, w)]
  | (s', w') :: l => if ws_eq s s' then (s', (w + w')%N) :: l else (s', w') :: put s w l
  end.
Definition put1 (s : wstate) (w : N) l := if (w =? 0)%N then l else put s w l.
Fixpoint waysTotal (m : nat) (l : list (wstate * N)) : N :=
  match l with [] => 0 | ((a, h, u), w) :: l => w * ways m a h u + waysTotal m l end%N.
Fixpoint wstep (l : list (wstate * N)) : list (wstate * N) :=
  match l with
  | [] => []
  | ((a, h, u), w) :: l => put1 (a - 2, h + 2, u)%N (w * a)%N (put1 (a, h - 2, u)%N (w * h)%N (put1 (a, h, u - 1)%N (w * u)%N (wstep l)))
  end.
Fixpoint wrun (m : nat) (l : list (wstate * N)) : N := match m with O => fold_right N.add 0%N (map snd l) | S m => wrun m (wstep l) end.

Lemma put_total m a h u w l : waysTotal m (put (a, h, u) w l) = (w * ways m a h u + waysTotal m l)%N.
Proof.
  induction l as [|(((a', h'), u'), w') l IH]; [reflexivity|]. cbn [put]. unfold ws_eq. cbn [fst snd].
  destruct (N.eqb_spec a a'); [|cbn [andb waysTotal]; rewrite IH; lia]. destruct (N.eqb_spec h h'); [|cbn [andb waysTotal]; rewrite IH; lia].
  destruct (N.eqb_spec u u'); [|cbn [andb waysTotal]; rewrite IH; lia]. subst. cbn [andb waysTotal]. lia.
Qed.
Lemma put1_total m a h u w l : waysTotal m (put1 (a, h, u) w l) = (w * ways m a h u + waysTotal m l)%N.
Proof. unfold put1. destruct (N.eqb_spec w 0); [subst; lia|]. apply put_total. Qed.
Lemma wstep_total m l : waysTotal m (wstep l) = waysTotal (S m) l.
Proof.
  induction l as [|(((a, h), u), w) l IH]; [reflexivity|]. cbn [wstep]. rewrite !put1_total, IH. cbn [waysTotal ways]. lia.
Qed.
Lemma wrun_total m : forall l, wrun m l = waysTotal m l.
Proof.
  induction m as [|m IH]; intros l; cbn [wrun].
  - induction l as [|(((a, h), u), w) l IHl]; [reflexivity|]. cbn [map fold_right waysTotal ways snd]. rewrite IHl. lia.
  - rewrite IH, wstep_total. reflexivity.
Qed.
Lemma ways_wrun m a h u : ways m a h u = wrun m [((a, h, u), 1)%N].
Proof. rewrite wrun_total. cbn [waysTotal]. lia. Qed.


(** C84: The numbers, in thousandths of a percent (rounded down): SplitWithRandomizer never returns for 75 of 100000 key streams with 5 parts and for 5472 with 19 parts (with 2
    parts, for one of 65536 key streams); it returns no shares or a share of tag 0 for 2021 and 12468 of 100000. Ten shares made by Regenerate for
    a sharing of 5 parts (tags not 0) are not all fresh for 34261 of 100000 strings. *)
Lemma C84_percent_pf :
  let lost a n := (100000 * (256 ^ n - a) / 256 ^ n)%N in
  (returning_keys 2 = 256 ^ 2 - 1)%N /\
  lost (returning_keys 5) 5%N = 75%N /\ lost (returning_keys 19) 19%N = 5472%N /\
  lost (usable_keys 5) 5%N = 2021%N /\ lost (usable_keys 19) 19%N = 12468%N /\
  lost (falling (256 - 6) 10) 10%N = 34261%N.
Proof.
  cbv zeta. unfold returning_keys, usable_keys. rewrite !ways_wrun. repeat (split; [vm_compute; reflexivity|]). vm_compute. reflexivity.
Qed.

(*COPY
(** The hypotheses are met: a split into 5 parts on pools with old contents, and Regenerate on two shares with tags 1 and 2. One key stream for each of
    the three outcomes with 5 parts. *)
Example C84_case : grow_ok growcap117 /\ valid_args ex_secret 5 3 /\ acceptable [[x05; x01]; [x06; x02]] /\ taken_tags [[x05; x01]; [x06; x02]] = 3%N /\
  let call r := SplitWithRandomizer 1 ex_ar growcap117 (stream_of r) ex_stale ex_stale ex_ev ex_secret 5 3 in
  hangs (call [x17; x17; x17; x04; x05]) = true /\ zero_tag (call [x17; x02; xff; x04; x05]) = true /\ no_zero_tag (call [x17; x02; x03; x03; x05]) = true /\
  fresh_shares [[x05; x01]; [x06; x02]] (Regenerate 3 (stream_of [x07; x09]) (fun _ => x07) [[x05; x01]; [x06; x02]] 2) = true /\
  fresh_shares [[x05; x01]; [x06; x02]] (Regenerate 3 (stream_of [x07; x02]) (fun _ => x08) [[x05; x01]; [x06; x02]] 2) = false.
Proof.
  split; [exact ex_grow|]. split; [split; [discriminate|cbn; lia]|]. split.
  { split; [cbn; lia|]. split; [cbn; lia|]. split; [intros p [<-|[<-|[]]]; reflexivity|]. cbn. repeat (constructor; [cbn; intuition discriminate|]). constructor. }
  repeat split; vm_compute; reflexivity.
Qed.
END*)
