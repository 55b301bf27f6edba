(** Facts about the split functions put together from the closed forms; used by the property files. *)
From Coq Require Import List NArith ZArith Lia Arith Bool Permutation.
From Coq.Init Require Import Byte.
From Verif Require Import GoSem Bytes Spec Galois GF PolyFacts Vector GoFacts VectorFacts Csprng Pool Polynomial PolynomialFacts Shamir SplitFacts CombineFacts RegenFacts Secrecy CsprngFacts.
Import ListNotations.

Lemma valid_checkArgs secret parts threshold : valid_args secret parts threshold <-> checkArgs secret parts threshold = None.
Proof. rewrite checkArgs_None. unfold valid_args. intuition lia. Qed.

Lemma checkArgs_Some secret parts threshold e : checkArgs secret parts threshold = Some e <-> arg_error secret parts threshold e.
Proof.
  unfold checkArgs, arg_error.
  destruct (Z.ltb_spec parts threshold).
  { split; [intros E; injection E as <-; left; auto|]. intros [[-> _]|[[_ ?]|[[_ ?]|[_ ?]]]]; try lia; reflexivity. }
  destruct (Z.ltb_spec 255 parts).
  { split; [intros E; injection E as <-; right; left; auto|]. intros [[_ ?]|[[-> _]|[[_ ?]|[_ ?]]]]; try lia; reflexivity. }
  destruct (Z.ltb_spec threshold 2).
  { split; [intros E; injection E as <-; right; right; left; auto|]. intros [[_ ?]|[[_ ?]|[[-> _]|[_ ?]]]]; try lia; reflexivity. }
  destruct (Z.ltb_spec 255 threshold); [lia|].
  destruct (Nat.eqb_spec (length secret) 0) as [E|E].
  - split; [intros G; injection G as <-; right; right; right; repeat split; try lia; destruct secret; [reflexivity|discriminate]|].
    intros [[_ ?]|[[_ ?]|[[_ ?]|[-> ?]]]]; try lia; reflexivity.
  - split; [discriminate|]. intros [[_ ?]|[[_ ?]|[[_ ?]|[-> (_ & _ & _ & ->)]]]]; try lia. exfalso. apply E. reflexivity.
Qed.

Lemma is_sharing_shares polys secret t tags : map (fun p => nth 0 p x00) polys = secret ->
  Forall (fun p => length p = t) polys -> NoDup tags -> is_sharing secret t polys tags (map (share_at polys) tags).
Proof. intros H1 H2 H3. repeat split; assumption. Qed.

(** ** tags drawn by rand.Perm(255) *)
Lemma badd_inj a b : badd a x01 = badd b x01 -> a = b.
Proof.
  intros H. apply b2n_inj. assert (E : b2n (badd a x01) = b2n (badd b x01)) by (rewrite H; reflexivity).
  unfold badd in E. rewrite !b2n_n2b in E. change (b2n x01) with 1%N in E. pose proof (b2n_lt a). pose proof (b2n_lt b).
  assert (C : forall u, (u < 256 -> (u + 1) mod 256 = if u =? 255 then 0 else u + 1)%N).
  { intros u Hu. destruct (N.eqb_spec u 255) as [->|Hne]; [reflexivity|]. apply N.mod_small. lia. }
  rewrite !C in E by assumption. destruct (N.eqb_spec (b2n a) 255), (N.eqb_spec (b2n b) 255); lia.
Qed.

Lemma badd_zero a : badd a x01 = x00 <-> a = xff.
Proof. split; [|intros ->; reflexivity]. intros H. apply badd_inj. rewrite H. reflexivity. Qed.

Lemma NoDup_firstn {A} n (l : list A) : NoDup l -> NoDup (firstn n l).
Proof. intros H. rewrite <- (firstn_skipn n l) in H. exact (NoDup_app_l _ _ H). Qed.

Lemma tagsOf_NoDup n xs : NoDup xs -> NoDup (tagsOf n xs).
Proof.
  intros H. unfold tagsOf. apply FinFun.Injective_map_NoDup; [intros a b; apply badd_inj|]. apply NoDup_firstn. exact H.
Qed.

Lemma tagsOf_nonzero n xs : ~ In xff xs -> ~ In x00 (tagsOf n xs).
Proof.
  intros H F. unfold tagsOf in F. apply in_map_iff in F as (x & E & Hx). apply badd_zero in E. subst x. apply H.
  rewrite <- (firstn_skipn n xs). apply in_or_app. left. exact Hx.
Qed.

Lemma perm_coords perm : Permutation perm (seq 0 255) -> NoDup (map i2b perm) /\ ~ In xff (map i2b perm) /\ length (map i2b perm) = 255.
Proof.
  intros P. assert (PI : Permutation (map i2b perm) (identity 255)) by (apply Permutation_map; exact P).
  split; [|split].
  - eapply Permutation_NoDup; [apply Permutation_sym; exact PI|]. apply identity_NoDup. lia.
  - intros F. apply (Permutation_in _ PI) in F. unfold identity in F. apply in_map_iff in F as (i & E & Hi). apply in_seq in Hi.
    assert (b2i (i2b i) = 255) by (rewrite E; reflexivity). rewrite b2i_i2b in H; lia.
  - rewrite (Permutation_length PI). reflexivity.
Qed.

(** ** Split *)
Lemma Split_sharing ar growcap perm stream polB trB evBufs secret parts threshold :
  grow_ok growcap -> Permutation perm (seq 0 255) -> valid_args secret parts threshold ->
  exists shares polys tags,
    Split ar growcap perm stream polB trB evBufs secret parts threshold = Ret shares /\
    is_sharing secret (Z.to_nat threshold) polys tags shares /\
    length shares = Z.to_nat parts /\ ~ In x00 tags /\ length tags = Z.to_nat parts /\
    (forall i, i < Z.to_nat parts -> b2i (nth i tags x00) = S (nth i perm 0)) /\
    (forall p c, p < length secret -> 1 <= c < Z.to_nat threshold ->
       nth c (nth p polys []) x00 = stream (Z.to_nat threshold * p + c)).
Proof.
  intros G P V. pose proof V as (Hs & H2 & H3 & H4). apply valid_checkArgs in V.
  destruct (perm_coords perm P) as (ND & NF & L255). rewrite map_length in L255.
  rewrite (Split_ok ar growcap perm stream polB trB evBufs secret parts threshold G V) by lia.
  set (t := Z.to_nat threshold). set (n := Z.to_nat parts). set (N := length secret).
  set (polys := polysOf t secret (take_stream stream (t * N))). set (tags := tagsOf n (map i2b perm)).
  assert (Lt : length tags = n) by (apply tagsOf_length; rewrite map_length; lia).
  exists (map (share_at polys) tags), polys, tags. split; [reflexivity|]. split.
  { apply is_sharing_shares.
    - apply polysOf_intercepts.
    - apply polysOf_row_length; [lia|apply take_stream_length].
    - apply tagsOf_NoDup, ND. }
  split; [rewrite map_length; exact Lt|]. split; [apply tagsOf_nonzero, NF|]. split; [exact Lt|]. split.
  - intros i Hi. unfold tags. rewrite nth_tagsOf by (rewrite ?map_length; lia).
    rewrite (nth_map' i2b perm i x00 0) by lia.
    assert (Hin : nth i perm 0 < 255).
    { assert (In (nth i perm 0) (seq 0 255)) by (eapply Permutation_in; [exact P|apply nth_In; lia]). apply in_seq in H. lia. }
    unfold badd. unfold b2i. rewrite b2n_n2b. change (b2n x01) with 1%N.
    assert (E : N.to_nat (b2n (i2b (nth i perm 0))) = nth i perm 0) by (apply b2i_i2b; lia).
    rewrite N.mod_small by lia. lia.
  - intros p c Hp Hc. unfold polys. rewrite nth_polysOf by exact Hp. unfold polyOf. destruct c as [|c]; [lia|]. cbn [nth].
    rewrite nth_skipn. rewrite nth_row by lia. rewrite nth_take_stream; [f_equal|]; fold N in Hp; nia.
Qed.

Lemma SplitGeneric_sharing perm stream secret parts threshold :
  Permutation perm (seq 0 255) -> valid_args secret parts threshold ->
  exists shares polys tags,
    SplitGeneric perm stream secret parts threshold = Ret shares /\
    is_sharing secret (Z.to_nat threshold) polys tags shares /\
    length shares = Z.to_nat parts /\ ~ In x00 tags /\ length tags = Z.to_nat parts /\
    tags = tagsOf (Z.to_nat parts) (map i2b perm) /\
    (forall p c, p < length secret -> 1 <= c < Z.to_nat threshold ->
       nth c (nth p polys []) x00 = stream ((Z.to_nat threshold - 1) * p + (c - 1))).
Proof.
  intros P V. pose proof V as (Hs & H2 & H3 & H4). apply valid_checkArgs in V.
  destruct (perm_coords perm P) as (ND & NF & L255). rewrite map_length in L255.
  rewrite (SplitGeneric_ok perm stream secret parts threshold V) by lia.
  set (t := Z.to_nat threshold). set (n := Z.to_nat parts). set (N := length secret).
  set (polys := polysGen t secret (take_stream stream ((t - 1) * N))). set (tags := tagsOf n (map i2b perm)).
  assert (Lt : length tags = n) by (apply tagsOf_length; rewrite map_length; lia).
  exists (map (share_at polys) tags), polys, tags. split; [reflexivity|]. split.
  { apply is_sharing_shares.
    - unfold polys, polysGen. rewrite map_map. cbn [nth]. symmetry. apply list_as_map.
    - apply (shiftable_polysGen t N); [lia|reflexivity|apply take_stream_length].
    - apply tagsOf_NoDup, ND. }
  split; [rewrite map_length; exact Lt|]. split; [apply tagsOf_nonzero, NF|]. split; [exact Lt|]. split; [reflexivity|].
  intros p c Hp Hc. unfold polys, polysGen. rewrite nth_map_seq by exact Hp. destruct c as [|c]; [lia|]. cbn [nth].
  rewrite nth_row by lia. replace (S c - 1) with c by lia. rewrite nth_take_stream; [reflexivity|]; fold N in Hp; nia.
Qed.

(** agreement of Split and SplitGeneric when they draw the same coefficients *)
Lemma polysOf_polysGen t secret buf rnd : 0 < t -> length buf = t * length secret -> length rnd = (t - 1) * length secret ->
  (forall p c, p < length secret -> 1 <= c < t -> nth (t * p + c) buf x00 = nth ((t - 1) * p + (c - 1)) rnd x00) ->
  polysOf t secret buf = polysGen t secret rnd.
Proof.
  intros Ht Lb Lr H. unfold polysOf, polysGen. apply map_ext_in. intros p Hp. apply in_seq in Hp. unfold polyOf. f_equal.
  apply nth_ext with x00 x00.
  - rewrite skipn_length, !row_length by nia. reflexivity.
  - intros c Hc. rewrite skipn_length, row_length in Hc by nia. rewrite nth_skipn. rewrite !nth_row by lia.
    rewrite H by lia. do 2 f_equal. lia.
Qed.

(** ** secrecy at the level of calls *)
Lemma pick_tags_facts n xs is : NoDup xs -> ~ In xff xs -> n <= length xs -> (forall i, In i is -> i < n) -> NoDup is ->
  NoDup (pick x00 (tagsOf n xs) is) /\ ~ In x00 (pick x00 (tagsOf n xs) is).
Proof.
  intros ND NF Ln Hi NI. pose proof (tagsOf_length n xs Ln) as Lt. split.
  - apply pick_NoDup; [apply tagsOf_NoDup, ND|exact NI|rewrite Lt; exact Hi].
  - intros F. apply in_map_iff in F as (i & E & Hin). apply (tagsOf_nonzero n xs NF). rewrite <- E. apply nth_In. rewrite Lt. apply Hi, Hin.
Qed.

Lemma Split_test ar growcap perm polB trB evBufs secret parts threshold is (test : list (list byte) -> bool) :
  grow_ok growcap -> Permutation perm (seq 0 255) -> valid_args secret parts threshold ->
  (forall i, In i is -> i < Z.to_nat parts) ->
  forall r, length r = Z.to_nat threshold * length secret ->
  match Split ar growcap perm (stream_of r) polB trB evBufs secret parts threshold with
  | Ret shares => test (pick [] shares is) | _ => false end
  = test (map (share_at (polysOf (Z.to_nat threshold) secret r)) (pick x00 (tagsOf (Z.to_nat parts) (map i2b perm)) is)).
Proof.
  intros G P V Hi r Hr. pose proof V as (Hs & H2 & H3 & H4). apply valid_checkArgs in V.
  destruct (perm_coords perm P) as (ND & NF & L255). rewrite map_length in L255.
  rewrite (Split_ok ar growcap perm _ polB trB evBufs secret parts threshold G V) by lia.
  rewrite take_stream_of by exact Hr. f_equal. apply pick_map. rewrite tagsOf_length by (rewrite map_length; lia). exact Hi.
Qed.

Lemma Split_secrecy_test ar growcap perm polB trB evBufs s s' parts threshold is (test : list (list byte) -> bool) :
  grow_ok growcap -> Permutation perm (seq 0 255) -> valid_args s parts threshold -> length s = length s' ->
  coalition (Z.to_nat parts) (Z.to_nat threshold) is ->
  count (fun r => match Split ar growcap perm (stream_of r) polB trB evBufs s parts threshold with
                  | Ret shares => test (pick [] shares is) | _ => false end) (all_strings (Z.to_nat threshold * length s))
  = count (fun r => match Split ar growcap perm (stream_of r) polB trB evBufs s' parts threshold with
                  | Ret shares => test (pick [] shares is) | _ => false end) (all_strings (Z.to_nat threshold * length s)).
Proof.
  intros G P V Hl (C1 & C2 & C3). destruct (V) as (Hs & H2 & H3 & H4).
  assert (V' : valid_args s' parts threshold).
  { split; [|auto]. intros ->. destruct s; [congruence|discriminate]. }
  destruct (perm_coords perm P) as (ND & NF & L255).
  destruct (pick_tags_facts (Z.to_nat parts) (map i2b perm) is) as (N1 & N2); try assumption; [lia|].
  rewrite (count_ext _ (fun r => test (map (share_at (polysOf (Z.to_nat threshold) s r)) (pick x00 (tagsOf (Z.to_nat parts) (map i2b perm)) is))))
    by (intros r Hr; apply all_strings_in in Hr; apply Split_test; assumption).
  symmetry.
  rewrite (count_ext _ (fun r => test (map (share_at (polysOf (Z.to_nat threshold) s' r)) (pick x00 (tagsOf (Z.to_nat parts) (map i2b perm)) is))))
    by (intros r Hr; apply all_strings_in in Hr; apply Split_test; try assumption; rewrite <- Hl; assumption).
  symmetry. apply (secrecy_count (polysOf (Z.to_nat threshold)) _ (length s) (Z.to_nat threshold)); try assumption; try lia.
  - apply shiftable_polysOf. lia.
  - rewrite pick_length. exact C3.
Qed.
