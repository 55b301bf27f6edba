(** Proofs about histories of Split and Regenerate (C59, C60). *)
From Coq Require Import List NArith ZArith Lia Arith Bool Permutation.
From Coq.Init Require Import Byte.
From Verif Require Import GoSem Bytes Spec Galois GF PolyFacts GoFacts Vector Csprng Pool Polynomial PolynomialFacts Shamir SplitFacts
  CombineFacts Secrecy CsprngFacts Derived CountFacts RegenFacts Pf1 Pf3 SpecHist.
Import ListNotations.

(*PROPS
From Coq Require Import List NArith ZArith Lia Arith Bool Permutation.
From Coq.Init Require Import Byte.
From Verif Require Import GoSem Bytes Spec Vector Pool Polynomial Shamir SpecHist ExData Pf13.
Import ListNotations.
*)

(** ** one call on shares of a sharing *)
Lemma okParts_shares polys zs : 1 <= length polys -> 2 <= length zs -> okParts (map (share_at polys) zs).
Proof.
  intros Hp Hz. destruct zs as [|z zs]; [cbn in Hz; lia|]. split; [rewrite map_length; exact Hz|]. cbn [map nth]. rewrite share_at_length.
  split; [lia|]. intros p Hin. change (In p (map (share_at polys) (z :: zs))) in Hin. apply in_map_iff in Hin as (y & <- & _). apply share_at_length.
Qed.

Lemma regen_step polys polys' xs t c : 2 <= t -> length polys = length polys' -> 1 <= length polys ->
  Forall (fun p => length p = t) polys -> Forall (fun p => length p = t) polys' -> t <= length (rc_from c) ->
  let R ps := Regenerate (rc_fuel c) (rc_tags c) (rc_redraws c) (pick [] (map (share_at ps) xs) (rc_from c)) (rc_num c) in
  (exists ys, R polys = Ret (map (share_at polys) ys) /\ R polys' = Ret (map (share_at polys') ys)) \/
  (exists e e', R polys = Fail e /\ R polys' = Fail e') \/
  (exists p, R polys = Panic p /\ R polys' = Panic p) \/
  (R polys = Diverge /\ R polys' = Diverge).
Proof.
  intros Ht Lp L1 F F' Hc R. subst R. cbv beta.
  destruct (forallb (fun i => i <? length xs) (rc_from c)) eqn:B.
  - rewrite forallb_forall in B.
    assert (Hi : forall i, In i (rc_from c) -> i < length xs) by (intros i Hi; apply Nat.ltb_lt, B, Hi).
    rewrite !(pick_map (share_at _) xs (rc_from c) [] x00) by exact Hi.
    set (zs := pick x00 xs (rc_from c)). assert (Lz : t <= length zs) by (unfold zs; rewrite pick_length; exact Hc).
    assert (K : okParts (map (share_at polys) zs)) by (apply okParts_shares; lia).
    assert (K' : okParts (map (share_at polys') zs)) by (apply okParts_shares; lia).
    assert (A : forall ps z, In z (map (share_at ps) zs) -> length z = length ps + 1).
    { intros ps z Hz. apply in_map_iff in Hz as (y & <- & _). apply share_at_length. }
    destruct (Z.lt_ge_cases (rc_num c) 0) as [Hn|Hn].
    + right. right. left. exists PMakeLen.
      apply checkParts_None in K, K'. unfold Regenerate. rewrite K, K'. cbv zeta. unfold make_len.
      apply Z.ltb_lt in Hn. rewrite Hn. split; reflexivity.
    + destruct (ListDec.NoDup_dec byte_eq_dec zs) as [ND|ND].
      * assert (NT : forall ps, NoDup (map tag (map (share_at ps) zs))) by (intros ps; rewrite map_tag_shares; exact ND).
        destruct (dedupLoop_cases (rc_fuel c) (rc_redraws c) zs (take_stream (rc_tags c) (Z.to_nat (rc_num c)))) as [D|(m & k & D & _)].
        -- right. right. right. split; eapply Regenerate_diverge; try exact (A _); try apply NT; rewrite ?map_length, ?map_tag_shares; try lia; exact D.
        -- left. exists (take_stream (rc_tags c) (Z.to_nat (rc_num c))).
           assert (G : forall ps, 1 <= length ps -> Forall (fun p => length p = t) ps ->
             Regenerate (rc_fuel c) (rc_tags c) (rc_redraws c) (map (share_at ps) zs) (rc_num c)
             = Ret (map (share_at ps) (take_stream (rc_tags c) (Z.to_nat (rc_num c))))).
           { intros ps Lps Fps. erewrite Regenerate_dedup with (L := length ps + 1); try exact (A _); try apply NT; rewrite ?map_length, ?map_tag_shares; try lia; [|exact D].
             f_equal. apply map_ext. intros x. apply (regenShare_sharing ps zs t); assumption. }
           split; apply G; try assumption; lia.
      * right. left. exists EDuplicatePart, EDuplicatePart.
        assert (G : forall ps, okParts (map (share_at ps) zs) ->
             Regenerate (rc_fuel c) (rc_tags c) (rc_redraws c) (map (share_at ps) zs) (rc_num c) = Fail EDuplicatePart).
        { intros ps Hk. pose proof Hk as Hk2. apply checkParts_None in Hk2. destruct Hk as (H1 & H2 & H3).
          unfold Regenerate. rewrite Hk2. cbv zeta. unfold make_len. destruct (Z.ltb_spec (rc_num c) 0); [lia|]. cbn [bind].
          rewrite collectTags_dup; [reflexivity|lia|exact H3|rewrite map_tag_shares; exact ND]. }
        split; apply G; assumption.
  - right. left.
    assert (N : exists i, In i (rc_from c) /\ length xs <= i).
    { clear - B. induction (rc_from c) as [|i l IH]; [discriminate|]. cbn [forallb] in B. destruct (Nat.ltb_spec i (length xs)).
      - destruct (IH B) as (j & Hj & Hl). exists j. split; [right; exact Hj|exact Hl].
      - exists i. split; [left; reflexivity|exact H]. }
    assert (G : forall ps, exists e, Regenerate (rc_fuel c) (rc_tags c) (rc_redraws c) (pick [] (map (share_at ps) xs) (rc_from c)) (rc_num c) = Fail e).
    { intros ps. destruct N as (i & Hi & Hl). unfold Regenerate.
      destruct (checkParts (pick [] (map (share_at ps) xs) (rc_from c))) as [e|] eqn:E; [exists e; reflexivity|].
      exfalso. apply checkParts_None in E as (_ & E2 & E3).
      assert (I : In [] (pick [] (map (share_at ps) xs) (rc_from c))).
      { apply in_map_iff. exists i. split; [|exact Hi]. apply nth_overflow. rewrite map_length. exact Hl. }
      apply E3 in I. cbn [length] in I. lia. }
    destruct (G polys) as (e & E), (G polys') as (e' & E'). exists e, e'. split; assumption.
Qed.

Lemma regen_history_step t calls : 2 <= t -> enough t calls -> forall polys polys' xs, length polys = length polys' -> 1 <= length polys ->
  Forall (fun p => length p = t) polys -> Forall (fun p => length p = t) polys' ->
  (exists ys, regen_history calls (map (share_at polys) xs) = Ret (map (share_at polys) (xs ++ ys)) /\
              regen_history calls (map (share_at polys') xs) = Ret (map (share_at polys') (xs ++ ys))) \/
  ((forall pool, regen_history calls (map (share_at polys) xs) <> Ret pool) /\
   (forall pool, regen_history calls (map (share_at polys') xs) <> Ret pool)).
Proof.
  intros Ht En. induction En as [|c calls Hc _ IH]; intros polys polys' xs Lp L1 F F'.
  - left. exists []. rewrite app_nil_r. split; reflexivity.
  - cbn [regen_history].
    destruct (regen_step polys polys' xs t c Ht Lp L1 F F' Hc) as [(ys & E & E')|[(e & e' & E & E')|[(p & E & E')|(E & E')]]]; rewrite E, E'.
    + rewrite <- !map_app. destruct (IH polys polys' (xs ++ ys) Lp L1 F F') as [(zs & H & H')|H]; [|right; exact H].
      left. exists (ys ++ zs). rewrite !app_assoc. split; assumption.
    + apply IH; assumption.
    + right. split; discriminate.
    + right. split; discriminate.
Qed.

Lemma split_history_polys ar growcap perm polB trB evBufs s s' parts threshold calls r r' :
  grow_ok growcap -> Permutation perm (seq 0 255) -> valid_args s parts threshold -> length s = length s' ->
  enough (Z.to_nat threshold) calls ->
  length r = Z.to_nat threshold * length s -> length r' = Z.to_nat threshold * length s ->
  (exists ys,
    split_history ar growcap perm (stream_of r) polB trB evBufs s parts threshold calls
      = Ret (map (share_at (polysOf (Z.to_nat threshold) s r)) (tagsOf (Z.to_nat parts) (map i2b perm) ++ ys)) /\
    split_history ar growcap perm (stream_of r') polB trB evBufs s' parts threshold calls
      = Ret (map (share_at (polysOf (Z.to_nat threshold) s' r')) (tagsOf (Z.to_nat parts) (map i2b perm) ++ ys))) \/
  ((forall pool, split_history ar growcap perm (stream_of r) polB trB evBufs s parts threshold calls <> Ret pool) /\
   (forall pool, split_history ar growcap perm (stream_of r') polB trB evBufs s' parts threshold calls <> Ret pool)).
Proof.
  intros G P V Hl En Hr Hr'. pose proof V as (Hs & H2 & H3 & H4).
  assert (V' : valid_args s' parts threshold).
  { split; [|auto]. intros ->. destruct s; [congruence|discriminate]. }
  apply valid_checkArgs in V, V'. destruct (perm_coords perm P) as (ND & NF & L255). rewrite map_length in L255.
  unfold split_history. rewrite !Split_ok by (assumption || lia).
  rewrite <- Hl, !take_stream_of by assumption.
  assert (Ls : 1 <= length s) by (destruct s; [congruence|cbn; lia]).
  apply (regen_history_step (Z.to_nat threshold)); try assumption; rewrite ?polysOf_length; try lia;
    apply polysOf_row_length; lia.
Qed.

(** C59: after Split and any history of Regenerate calls, each on at least [threshold] of the shares issued so far (failing calls
    included), all shares issued are shares of one sharing: the original shares come first, shares with equal tags are equal, and any [threshold]
    or more with pairwise distinct tags, in any order, combine to the secret. *)
Lemma C59_history_combines_pf : forall ar growcap perm stream polB trB evBufs secret parts threshold calls issued,
  grow_ok growcap -> Permutation perm (seq 0 255) -> enough (Z.to_nat threshold) calls ->
  split_history ar growcap perm stream polB trB evBufs secret parts threshold calls = Ret issued ->
  (exists shares, Split ar growcap perm stream polB trB evBufs secret parts threshold = Ret shares /\
     firstn (Z.to_nat parts) issued = shares) /\
  (forall s, In s issued -> length s = length secret + 1) /\
  (forall s o, In s issued -> In o issued -> tag s = tag o -> s = o) /\
  forall mix, (forall s, In s mix -> In s issued) -> NoDup (map tag mix) -> (threshold <= Z.of_nat (length mix))%Z -> Combine mix = Ret secret.
Proof.
  intros ar growcap perm stream polB trB evBufs secret parts threshold calls issued G P En E.
  assert (V : valid_args secret parts threshold).
  { apply valid_checkArgs. unfold split_history, Split, SplitBufs in E. destruct (checkArgs secret parts threshold); [discriminate|reflexivity]. }
  destruct (Split_sharing ar growcap perm stream polB trB evBufs secret parts threshold G P V) as (shares & polys & tags & Es & (S1 & S2 & S3 & S4) & L & _).
  destruct V as (Hs & H2 & H3 & H4).
  unfold split_history in E. rewrite Es in E. rewrite S4 in E.
  assert (Lp : length polys = length secret) by (rewrite <- S1, map_length; reflexivity).
  assert (Ls : 1 <= length secret) by (destruct secret; [congruence|cbn; lia]).
  destruct (regen_history_step (Z.to_nat threshold) calls ltac:(lia) En polys polys tags eq_refl ltac:(lia) S2 S2) as [(ys & H & _)|(H & _)]; [|congruence].
  rewrite H in E. injection E as <-.
  assert (Sh : forall s, In s (map (share_at polys) (tags ++ ys)) -> s = share_at polys (tag s)).
  { intros s Hin. apply in_map_iff in Hin as (x & <- & _). rewrite tag_share_at. reflexivity. }
  split; [|split; [|split]].
  - exists shares. split; [exact Es|]. rewrite S4, map_length in L. rewrite map_app, firstn_app, map_length, L, Nat.sub_diag. cbn [firstn].
    rewrite app_nil_r. rewrite firstn_all2 by (rewrite map_length; lia). symmetry. exact S4.
  - intros s Hin. apply in_map_iff in Hin as (x & <- & _). rewrite share_at_length. lia.
  - intros s o Hs1 Ho Et. rewrite (Sh s Hs1), (Sh o Ho), Et. reflexivity.
  - intros mix Hm NDm Lm.
    assert (Em : mix = map (share_at polys) (map tag mix)).
    { rewrite map_map. rewrite <- (map_id mix) at 1. apply map_ext_in. intros s Hin. apply Sh, Hm, Hin. }
    assert (Ep : pick [] mix (seq 0 (length mix)) = mix) by (transitivity (map (fun s => s) mix); [symmetry; exact (map_as_seq (fun s => s) mix [])|apply map_id]).
    rewrite <- Ep. apply (Combine_is_sharing secret (Z.to_nat threshold) polys (map tag mix)); [lia|exact Hs| |].
    + split; [exact S1|]. split; [exact S2|]. split; [exact NDm|exact Em].
    + split; [apply seq_NoDup|]. split; [intros i Hi; apply in_seq in Hi; lia|rewrite seq_length; lia].
Qed.

(** C59: which shares are issued (how many, with which tags), and whether the history ends, depends neither on the
    secret (only on its length) nor on the random coefficients. *)
Lemma C59_history_tags_pf : forall ar growcap perm polB trB evBufs s s' parts threshold calls r r' issued,
  grow_ok growcap -> Permutation perm (seq 0 255) -> valid_args s parts threshold -> length s = length s' ->
  enough (Z.to_nat threshold) calls ->
  length r = Z.to_nat threshold * length s -> length r' = Z.to_nat threshold * length s ->
  split_history ar growcap perm (stream_of r) polB trB evBufs s parts threshold calls = Ret issued ->
  exists issued', split_history ar growcap perm (stream_of r') polB trB evBufs s' parts threshold calls = Ret issued' /\
    map tag issued' = map tag issued.
Proof.
  intros ar growcap perm polB trB evBufs s s' parts threshold calls r r' issued G P V Hl En Hr Hr' E.
  destruct (split_history_polys ar growcap perm polB trB evBufs s s' parts threshold calls r r' G P V Hl En Hr Hr') as [(ys & H & H')|(H & _)]; [|congruence].
  rewrite H in E. injection E as <-. eexists. split; [exact H'|]. rewrite !map_tag_shares. reflexivity.
Qed.

(** looking up a share by its tag *)
Definition lookup_tag (v : list (list byte)) (x : byte) : list byte :=
  match find (fun s => if byte_eq_dec (tag s) x then true else false) v with Some s => s | None => [] end.

Lemma lookup_shares polys xs x : In x xs -> lookup_tag (map (share_at polys) xs) x = share_at polys x.
Proof.
  unfold lookup_tag. induction xs as [|y xs IH]; [intros []|]. intros H. cbn [map find]. rewrite tag_share_at.
  destruct (byte_eq_dec y x) as [->|Hne]; [reflexivity|]. apply IH. destruct H as [H|H]; [contradiction|exact H].
Qed.

(** C59: secrecy survives regeneration. Fewer than [threshold] of all the shares issued by Split and any history of Regenerate calls (each on
    at least [threshold] shares), none of them with tag 0, show any given view for exactly as many of the random
    coefficient buffers whatever the secret is. *)
Lemma C59_history_secrecy_pf : forall ar growcap perm polB trB evBufs s s' parts threshold calls r0 issued is view,
  grow_ok growcap -> Permutation perm (seq 0 255) -> valid_args s parts threshold -> length s = length s' ->
  enough (Z.to_nat threshold) calls ->
  length r0 = Z.to_nat threshold * length s ->
  split_history ar growcap perm (stream_of r0) polB trB evBufs s parts threshold calls = Ret issued ->
  (forall i, In i is -> i < length issued /\ tag (nth i issued []) <> x00) -> length is < Z.to_nat threshold ->
  count (fun r => observes (split_history ar growcap perm (stream_of r) polB trB evBufs s parts threshold calls) is view)
        (all_strings (Z.to_nat threshold * length s))
  = count (fun r => observes (split_history ar growcap perm (stream_of r) polB trB evBufs s' parts threshold calls) is view)
        (all_strings (Z.to_nat threshold * length s)).
Proof.
  intros ar growcap perm polB trB evBufs s s' parts threshold calls r0 issued is view G P V Hl En Hr0 E0 Hi Hlt.
  pose proof V as (Hs & H2 & H3 & H4).
  destruct (split_history_polys ar growcap perm polB trB evBufs s s parts threshold calls r0 r0 G P V eq_refl En Hr0 Hr0) as [(ys & H & _)|(H & _)]; [|congruence].
  rewrite E0 in H. injection H as Eis.
  set (xs := tagsOf (Z.to_nat parts) (map i2b perm) ++ ys) in *.
  assert (Lx : length issued = length xs) by (rewrite Eis, map_length; reflexivity).
  assert (Tx : forall i, In i is -> i < length xs /\ nth i xs x00 <> x00).
  { intros i Hin. destruct (Hi i Hin) as (Hb & Ht). split; [lia|]. rewrite Eis, (nth_map' _ _ i [] x00), tag_share_at in Ht by lia. exact Ht. }
  set (zs := pick x00 xs is).
  assert (H0 : ~ In x00 (nodup byte_eq_dec zs)).
  { rewrite nodup_In. intros F. unfold zs, pick in F. apply in_map_iff in F as (i & Ei & Hin). apply (Tx i Hin). exact Ei. }
  assert (Len : length (nodup byte_eq_dec zs) < Z.to_nat threshold).
  { apply Nat.le_lt_trans with (length zs); [|unfold zs; rewrite pick_length; exact Hlt].
    apply NoDup_incl_length; [apply NoDup_nodup|]. intros x. rewrite nodup_In. auto. }
  assert (View : forall s1, valid_args s1 parts threshold -> length s1 = length s -> forall r, length r = Z.to_nat threshold * length s ->
    observes (split_history ar growcap perm (stream_of r) polB trB evBufs s1 parts threshold calls) is view
    = (fun v => shares_eqb (map (lookup_tag v) zs) view) (map (share_at (polysOf (Z.to_nat threshold) s1 r)) (nodup byte_eq_dec zs))).
  { intros s1 V1 L1 r Hr.
    destruct (split_history_polys ar growcap perm polB trB evBufs s s1 parts threshold calls r0 r G P V (eq_sym L1) En Hr0 Hr)
      as [(ys' & A & A')|(A & _)]; [|congruence].
    rewrite E0 in A. injection A as A.
    assert (xs = tagsOf (Z.to_nat parts) (map i2b perm) ++ ys').
    { apply (f_equal (map tag)) in A. rewrite Eis, !map_tag_shares in A. exact A. }
    rewrite <- H in A'. rewrite A'. cbn [observes]. f_equal.
    rewrite (pick_map (share_at _) xs is [] x00) by (intros i Hin; apply Tx, Hin). fold zs. apply map_ext_in. intros x Hx.
    symmetry. apply lookup_shares. rewrite nodup_In. exact Hx. }
  assert (V' : valid_args s' parts threshold).
  { split; [|auto]. intros ->. destruct s; [congruence|discriminate]. }
  rewrite (count_ext _ (fun r => (fun v => shares_eqb (map (lookup_tag v) zs) view) (map (share_at (polysOf (Z.to_nat threshold) s r)) (nodup byte_eq_dec zs))))
    by (intros r Hr; apply all_strings_in in Hr; apply View; auto).
  symmetry.
  rewrite (count_ext _ (fun r => (fun v => shares_eqb (map (lookup_tag v) zs) view) (map (share_at (polysOf (Z.to_nat threshold) s' r)) (nodup byte_eq_dec zs))))
    by (intros r Hr; apply all_strings_in in Hr; apply View; auto).
  symmetry. apply (secrecy_count (polysOf (Z.to_nat threshold)) _ (length s) (Z.to_nat threshold) (nodup byte_eq_dec zs) s s'
    (fun v => shares_eqb (map (lookup_tag v) zs) view)); try assumption; try lia; try (apply NoDup_nodup).
  apply shiftable_polysOf. lia.
Qed.

(*COPY
(** a history: 3-of-5 split of "hello"; regenerate 2 shares from shares 4, 0, 2; a failing call (the same share twice); regenerate one
    share from the two new ones and share 1. Shares 5 and 7 (both new) are a coalition of the kind the theorem speaks about. *)
Definition ex_calls : list regen_call :=
  [RegenCall [4; 0; 2] 2 10 (stream_of [xe0; xe1]) (fun _ => x33);
   RegenCall [4; 0; 4] 2 10 (stream_of [xe2; xe3]) (fun _ => x33);
   RegenCall [5; 6; 1] 1 10 (stream_of [xe9]) (fun _ => x33)].
Example C59_run : enough 3 ex_calls /\ exists issued,
  split_history ex_ar growcap117 ex_perm ex_stream ex_stale ex_stale ex_ev ex_secret 5 3 ex_calls = Ret issued /\
  length issued = 8 /\ Combine (pick [] issued [7; 5; 3]) = Ret ex_secret /\
  (forall i, In i [5; 7] -> i < length issued /\ tag (nth i issued []) <> x00).
Proof.
  split; [repeat constructor; cbn; lia|]. eexists. split; [vm_compute; reflexivity|]. split; [reflexivity|]. split; [vm_compute; reflexivity|].
  intros i Hi. cbn in Hi. split; [cbn; lia|]. intuition subst; vm_compute; discriminate.
Qed.
END*)

(** ** regenerating from too few shares *)
Lemma peval3 f x : length f = 3 -> peval f x = gadd (nth 0 f x00) (gadd (gmul (nth 1 f x00) x) (gmul (nth 2 f x00) (gmul x x))).
Proof. intros H. destruct f as [|a [|b [|c [|d f]]]]; try discriminate. rewrite peval_heval. cbn [heval nth]. ring. Qed.

Lemma peval2 a b x : peval [a; b] x = gadd a (gmul b x).
Proof. rewrite peval_heval. cbn [heval]. ring. Qed.

Lemma redraw_fresh fuel u k nx m : ~ In nx m -> redraw fuel u k nx m = Ret (nx, k).
Proof.
  intros H. apply mem_false in H. destruct fuel; cbn [redraw]; rewrite H; reflexivity.
Qed.

Lemma regen_one fuel u h x1 x2 x : Forall (fun p => length p = 2) h -> 1 <= length h -> x1 <> x2 -> x <> x1 -> x <> x2 ->
  Regenerate fuel (stream_of [x]) u [share_at h x1; share_at h x2] 1 = Ret [share_at h x].
Proof.
  intros Fh Lh D12 N1 N2.
  assert (NDx : NoDup [x1; x2]) by (repeat constructor; cbn; intuition congruence).
  assert (T : take_stream (stream_of [x]) (Z.to_nat 1) = [x]) by reflexivity.
  pose proof (Regenerate_dedup fuel (stream_of [x]) u (map (share_at h) [x1; x2]) 1 (length h + 1)) as R.
  rewrite T, map_tag_shares in R. cbn [map] in R.
  rewrite R with (r := ([x; x1; x2], 0)).
  - do 2 f_equal. exact (regenShare_sharing h [x1; x2] 2 x NDx Fh (le_n 2)).
  - lia.
  - cbn [length]. lia.
  - lia.
  - intros p [<-|[<-|[]]]; apply share_at_length.
  - exact NDx.
  - unfold dedupLoop. cbn [foreach]. rewrite redraw_fresh by (cbn; intuition congruence). reflexivity.
Qed.

Lemma combine_two secret g x y : secret <> [] -> map (fun p => nth 0 p x00) g = secret -> Forall (fun p => length p = 2) g -> x <> y ->
  Combine [share_at g x; share_at g y] = Ret secret.
Proof.
  intros Hs Eg Fg D. apply (Combine_is_sharing secret 2 g [x; y] (map (share_at g) [x; y]) [0; 1]); [lia|exact Hs| |].
  - split; [exact Eg|]. split; [exact Fg|]. split; [repeat constructor; cbn; intuition congruence|reflexivity].
  - split; [repeat constructor; cbn; intuition lia|]. split; [cbn; intuition lia|cbn; lia].
Qed.

Lemma attack_tag x1 x2 x3 : x1 <> x00 -> x2 <> x00 -> x1 <> x3 -> x2 <> x3 -> x3 <> gadd x1 x2 ->
  exists x, x <> x00 /\ x <> x1 /\ x <> x2 /\ x <> x3 /\ gmul x (gadd (gadd x1 x2) x3) = gmul x1 x2.
Proof.
  intros N1 N2 D13 D23 Hne.
  assert (E : exists x, gmul x (gadd (gadd x1 x2) x3) = gmul x1 x2).
  { eexists. apply gdiv_mul. intros F. apply Hne. symmetry. apply (proj1 (gadd_eq_0 _ _)). exact F. }
  destruct E as (x & Hx). exists x.
  split; [|split; [|split; [|split; [|exact Hx]]]].
  - intros F. rewrite F, gmul_0_l in Hx. apply (gmul_neq_0 x1 x2); auto.
  - intros F. rewrite F in Hx. apply gmul_cancel_l in Hx; [|exact N1]. apply D13. apply (proj1 (gadd_eq_0 _ _)).
    transitivity (gadd (gadd (gadd x1 x2) x3) x2); [ring|]. rewrite Hx. apply gadd_self.
  - intros F. rewrite F, (gmul_comm x1 x2) in Hx. apply gmul_cancel_l in Hx; [|exact N2]. apply D23. apply (proj1 (gadd_eq_0 _ _)).
    transitivity (gadd (gadd (gadd x1 x2) x3) x1); [ring|]. rewrite Hx. apply gadd_self.
  - intros F. rewrite F in Hx. assert (Q : gmul (gadd x1 x3) (gadd x2 x3) = x00).
    { transitivity (gadd (gmul x1 x2) (gmul x3 (gadd (gadd x1 x2) x3))); [ring|]. rewrite Hx. apply gadd_self. }
    apply gmul_eq_0 in Q as [Q|Q]; apply (proj1 (gadd_eq_0 _ _)) in Q; contradiction.
Qed.

(** C60: why Regenerate must not be called with too few shares. In a sharing with threshold 3, let x1, x2, x3 be the (non-zero, distinct) tags of
    three shares with x3 <> x1 XOR x2. Then there is a non-zero tag, different from the three, with which a share regenerated from the first
    two shares alone, together with the third share, combines to the secret: two shares are enough. *)
Lemma C60_underfull_pf : forall fuel u secret polys tags shares s1 s2 s3,
  secret <> [] -> is_sharing secret 3 polys tags shares ->
  In s1 shares -> In s2 shares -> In s3 shares ->
  NoDup (map tag [s1; s2; s3]) -> ~ In x00 (map tag [s1; s2; s3]) -> tag s3 <> gadd (tag s1) (tag s2) ->
  exists x new, x <> x00 /\ ~ In x (map tag [s1; s2; s3]) /\
    Regenerate fuel (stream_of [x]) u [s1; s2] 1 = Ret [new] /\ tag new = x /\
    Combine [new; s3] = Ret secret.
Proof.
  intros fuel u secret polys tags shares s1 s2 s3 Hs (S1 & S2 & S3 & S4) I1 I2 I3 ND H0 Hne.
  rewrite S4 in I1, I2, I3. apply in_map_iff in I1 as (x1 & <- & _), I2 as (x2 & <- & _), I3 as (x3 & <- & _).
  cbn [map] in ND, H0 |- *. rewrite !tag_share_at in *.
  assert (N1 : x1 <> x00) by (intros ->; apply H0; cbn; auto). assert (N2 : x2 <> x00) by (intros ->; apply H0; cbn; auto).
  assert (N3 : x3 <> x00) by (intros ->; apply H0; cbn; auto).
  assert (D12 : x1 <> x2) by (intros ->; inversion ND as [|? ? F _]; apply F; cbn; auto).
  assert (D13 : x1 <> x3) by (intros ->; inversion ND as [|? ? F _]; apply F; cbn; auto).
  assert (D23 : x2 <> x3) by (intros ->; inversion ND as [|? ? _ ND']; inversion ND' as [|? ? F _]; apply F; cbn; auto).
  clear ND H0.
  destruct (attack_tag x1 x2 x3 N1 N2 D13 D23 Hne) as (x & Nx & Nx1 & Nx2 & Nx3 & Hx).
  assert (Lp : length polys = length secret) by (rewrite <- S1, map_length; reflexivity).
  assert (Ls : 1 <= length secret) by (destruct secret; [congruence|cbn; lia]).
  (* the line through the first two shares, and the line through the new share and the third *)
  set (h := map (fun f => [gadd (nth 0 f x00) (gmul (nth 2 f x00) (gmul x1 x2)); gadd (nth 1 f x00) (gmul (nth 2 f x00) (gadd x1 x2))]) polys).
  set (g := map (fun f => [nth 0 f x00; gadd (nth 1 f x00) (gmul (nth 2 f x00) x3)]) polys).
  assert (Fh : Forall (fun p => length p = 2) h) by (apply Forall_forall; intros p Hp; apply in_map_iff in Hp as (f & <- & _); reflexivity).
  assert (Fg : Forall (fun p => length p = 2) g) by (apply Forall_forall; intros p Hp; apply in_map_iff in Hp as (f & <- & _); reflexivity).
  rewrite Forall_forall in S2.
  assert (Eh : forall z, z = x1 \/ z = x2 -> share_at polys z = share_at h z).
  { intros z Hz. unfold share_at, h. f_equal. rewrite map_map. apply map_ext_in. intros f Hf. rewrite (peval3 f z) by (apply S2, Hf). rewrite peval2.
    destruct Hz as [-> | ->]; ring. }
  assert (Eg : share_at polys x3 = share_at g x3).
  { unfold share_at, g. f_equal. rewrite map_map. apply map_ext_in. intros f Hf. rewrite (peval3 f x3) by (apply S2, Hf). rewrite peval2. ring. }
  assert (Ehg : share_at h x = share_at g x).
  { unfold share_at, g, h. f_equal. rewrite !map_map. apply map_ext_in. intros f Hf. rewrite !peval2. rewrite <- Hx. ring. }
  exists x, (share_at h x). split; [exact Nx|]. split; [cbn; intuition congruence|]. rewrite tag_share_at.
  split; [|split; [reflexivity|]].
  - rewrite (Eh x1), (Eh x2) by auto. apply regen_one; try assumption. unfold h. rewrite map_length. lia.
  - rewrite Ehg, Eg. apply combine_two; try assumption. unfold g. rewrite map_map. exact S1.
Qed.

(*COPY
(** the attack on a 3-of-5 split of "hello": shares 0 and 1 are used to regenerate the share with tag x1*x2/(x1+x2+x3) *)
Example C60_run : exists shares x new, Split ex_ar growcap117 ex_perm ex_stream ex_stale ex_stale ex_ev ex_secret 5 3 = Ret shares /\
  tag (nth 3 shares []) <> gadd (tag (nth 0 shares [])) (tag (nth 1 shares [])) /\
  gmul x (gadd (gadd (tag (nth 0 shares [])) (tag (nth 1 shares []))) (tag (nth 3 shares []))) = gmul (tag (nth 0 shares [])) (tag (nth 1 shares [])) /\
  Regenerate 10 (stream_of [x]) (fun _ => x33) (pick [] shares [0; 1]) 1 = Ret [new] /\
  Combine [new; nth 3 shares []] = Ret ex_secret.
Proof.
  eexists _, x69, _. split; [vm_compute; reflexivity|]. split; [vm_compute; discriminate|]. split; [vm_compute; reflexivity|].
  split; vm_compute; reflexivity.
Qed.
END*)

(** ** the same for every threshold *)
Lemma nth_prodpoly_top rs : nth (length rs) (prodpoly rs) x00 = x01.
Proof.
  induction rs as [|r rs IH]; [reflexivity|]. cbn [prodpoly fold_right length]. fold (prodpoly rs). unfold pmulX.
  assert (P : forall p q i, nth i (padd p q) x00 = gadd (nth i p x00) (nth i q x00)).
  { clear. induction p as [|a p IH]; intros [|b q] [|i]; cbn [padd nth]; rewrite ?gadd_0_l, ?gadd_0_r; try reflexivity. apply IH. }
  rewrite P. cbn [nth]. rewrite IH, nth_overflow by (rewrite pscale_length, prodpoly_length; lia). apply gadd_0_l.
Qed.

(** a list whose last coefficient vanishes *)
Lemma drop_top p n : length p = S n -> nth n p x00 = x00 -> forall x, heval (firstn n p) x = heval p x.
Proof.
  intros L H x. assert (E : p = firstn n p ++ repeat x00 1).
  { rewrite <- (firstn_skipn n p) at 1. f_equal.
    assert (Ls : length (skipn n p) = 1) by (rewrite skipn_length; lia).
    destruct (skipn n p) as [|b [|c r]] eqn:K; try discriminate Ls. cbn. f_equal.
    transitivity (nth 0 (skipn n p) x00); [rewrite K; reflexivity|]. rewrite nth_skipn, Nat.add_0_r. exact H. }
  rewrite E at 2. rewrite heval_app_zeros. reflexivity.
Qed.

(** [f] minus its leading term times a monic polynomial *)
Lemma reduce_poly f m n : length f = S n -> length m = S n -> nth n m x00 = x01 ->
  exists h, length h = n /\ (forall x, heval h x = gadd (heval f x) (gmul (nth n f x00) (heval m x))) /\
    (0 < n -> nth 0 h x00 = gadd (nth 0 f x00) (gmul (nth n f x00) (nth 0 m x00))).
Proof.
  intros Lf Lm M. set (p := padd f (pscale (nth n f x00) m)).
  assert (Lp : length p = S n) by (unfold p; rewrite padd_length, pscale_length; lia).
  assert (P : forall p q i, nth i (padd p q) x00 = gadd (nth i p x00) (nth i q x00)).
  { clear. induction p as [|a p IH]; intros [|b q] [|i]; cbn [padd nth]; rewrite ?gadd_0_l, ?gadd_0_r; try reflexivity. apply IH. }
  assert (Sc : forall k i, nth i (pscale k m) x00 = gmul k (nth i m x00)).
  { intros k i. unfold pscale. rewrite <- (gmul_0_r k) at 1. apply map_nth. }
  exists (firstn n p). split; [rewrite firstn_length; lia|]. split.
  - intros x. rewrite drop_top; [|exact Lp|].
    + unfold p. rewrite heval_padd, heval_pscale. reflexivity.
    + unfold p. rewrite P, Sc, M, gmul_1_r. apply gadd_self.
  - intros Hn. rewrite nth_firstn by exact Hn. unfold p. rewrite P, Sc. reflexivity.
Qed.

Lemma reduce_polys polys (m : list byte) n : Forall (fun p => length p = S n) polys -> length m = S n -> nth n m x00 = x01 -> 0 < n ->
  exists h, Forall (fun p => length p = n) h /\ length h = length polys /\
    (forall x, map (fun p => peval p x) h = map (fun f => gadd (peval f x) (gmul (nth n f x00) (heval m x))) polys) /\
    map (fun p => nth 0 p x00) h = map (fun f => gadd (nth 0 f x00) (gmul (nth n f x00) (nth 0 m x00))) polys.
Proof.
  intros F Lm M Hn. induction F as [|f polys Lf F IH].
  - exists []. repeat split; constructor.
  - destruct IH as (h & Fh & Lh & Eh & Zh). destruct (reduce_poly f m n Lf Lm M) as (g & Lg & Eg & Zg). exists (g :: h).
    split; [constructor; assumption|]. split; [cbn; congruence|]. split.
    + intros x. cbn [map]. rewrite Eh, !peval_heval, Eg. reflexivity.
    + cbn [map]. rewrite Zh, (Zg Hn). reflexivity.
Qed.

Lemma regen_any fuel u h xs t x : Forall (fun p => length p = t) h -> 1 <= length h -> NoDup xs -> 2 <= length xs -> t <= length xs -> ~ In x xs ->
  Regenerate fuel (stream_of [x]) u (map (share_at h) xs) 1 = Ret [share_at h x].
Proof.
  intros Fh Lh ND L2 Lt Hx.
  assert (T : take_stream (stream_of [x]) (Z.to_nat 1) = [x]) by reflexivity.
  pose proof (Regenerate_dedup fuel (stream_of [x]) u (map (share_at h) xs) 1 (length h + 1)) as R.
  rewrite T, map_tag_shares in R.
  rewrite R with (r := (x :: xs, 0)).
  - cbn [map]. do 2 f_equal. exact (regenShare_sharing h xs t x ND Fh Lt).
  - lia.
  - rewrite map_length. exact L2.
  - lia.
  - intros p Hp. apply in_map_iff in Hp as (y & <- & _). apply share_at_length.
  - exact ND.
  - unfold dedupLoop. cbn [foreach]. rewrite redraw_fresh by exact Hx. reflexivity.
Qed.

(** C60 for every threshold. Let [s1], [s2], [s3] and [rest] be [threshold] shares with distinct non-zero tags. Regenerate, given only the threshold-1
    shares [s1], [s2], [rest] and drawing the tag x with x * (x1 + x2 + x3) = x1 * x2, returns a share with which [s3] and [rest], threshold-1 shares in all,
    combine to the secret (unless x happens to be the tag of a share in [rest]). *)
Lemma C60_any_threshold_pf : forall fuel u secret t polys tags shares s1 s2 s3 rest x,
  secret <> [] -> is_sharing secret t polys tags shares -> t = 3 + length rest ->
  (forall s, In s (s1 :: s2 :: s3 :: rest) -> In s shares) ->
  NoDup (map tag (s1 :: s2 :: s3 :: rest)) -> ~ In x00 (map tag (s1 :: s2 :: s3 :: rest)) ->
  gmul x (gadd (gadd (tag s1) (tag s2)) (tag s3)) = gmul (tag s1) (tag s2) -> ~ In x (map tag rest) ->
  x <> x00 /\ ~ In x (map tag [s1; s2; s3]) /\
  exists new, Regenerate fuel (stream_of [x]) u (s1 :: s2 :: rest) 1 = Ret [new] /\ tag new = x /\
    Combine (new :: s3 :: rest) = Ret secret.
Proof.
  intros fuel u secret t polys tags shares s1 s2 s3 rest x Hs (S1 & S2 & S3 & S4) Ht Hin ND H0 Hx Hr.
  assert (Hsh : forall s, In s (s1 :: s2 :: s3 :: rest) -> s = share_at polys (tag s)).
  { intros s Is. apply Hin in Is. rewrite S4 in Is. apply in_map_iff in Is as (y & <- & _). rewrite tag_share_at. reflexivity. }
  assert (E1 := Hsh s1 ltac:(cbn; auto)). assert (E2 := Hsh s2 ltac:(cbn; auto)). assert (E3 := Hsh s3 ltac:(cbn; auto)).
  assert (Er : rest = map (share_at polys) (map tag rest)).
  { rewrite map_map. rewrite <- (map_id rest) at 1. apply map_ext_in. intros s Is. apply Hsh. cbn. auto. }
  revert ND H0 Hx Hr E1 E2 E3 Er. cbn [map]. generalize (tag s1) as x1, (tag s2) as x2, (tag s3) as x3, (map tag rest) as xs.
  intros x1 x2 x3 xs ND H0 Hx Hr E1 E2 E3 Er.
  assert (N1 : x1 <> x00) by (intros F; apply H0; cbn; auto). assert (N2 : x2 <> x00) by (intros F; apply H0; cbn; auto).
  assert (N3 : x3 <> x00) by (intros F; apply H0; cbn; auto).
  pose proof ND as (A1 & ND1)%NoDup_cons_iff. pose proof ND1 as (A2 & ND2)%NoDup_cons_iff. pose proof ND2 as (A3 & ND3)%NoDup_cons_iff. cbn [In] in A1, A2.
  assert (D13 : x1 <> x3) by (intros F; apply A1; auto). assert (D23 : x2 <> x3) by (intros F; apply A2; auto).
  assert (Hne : x3 <> gadd x1 x2).
  { intros F. rewrite F, gadd_self, gmul_0_r in Hx. symmetry in Hx. revert Hx. apply gmul_neq_0; assumption. }
  assert (Nx : x <> x00 /\ x <> x1 /\ x <> x2 /\ x <> x3).
  { destruct (attack_tag x1 x2 x3 N1 N2 D13 D23 Hne) as (y & Y0 & Y1 & Y2 & Y3 & Hy).
    assert (E : x = y).
    { rewrite <- Hy, (gmul_comm x), (gmul_comm y) in Hx. apply gmul_cancel_l in Hx; [exact Hx|]. intros F. apply Hne. symmetry. apply (proj1 (gadd_eq_0 _ _)). exact F. }
    rewrite E. auto. }
  destruct Nx as (Nx & Nx1 & Nx2 & Nx3).
  split; [exact Nx|]. split; [cbn; intuition congruence|].
  assert (Lr : length rest = length xs) by (rewrite Er, map_length; reflexivity).
  set (n := 2 + length xs) in *.
  assert (S2' : Forall (fun p => length p = S n) polys).
  { eapply Forall_impl; [|exact S2]. cbv beta. intros p Hp. unfold n. lia. }
  assert (Lp : 1 <= length polys).
  { destruct polys; [exfalso; apply Hs; symmetry; exact S1|cbn; lia]. }
  destruct (reduce_polys polys (prodpoly (x1 :: x2 :: xs)) n S2') as (h & Fh & Lh & Eh & _).
  { rewrite prodpoly_length. reflexivity. } { exact (nth_prodpoly_top (x1 :: x2 :: xs)). } { unfold n. lia. }
  destruct (reduce_polys polys (x00 :: prodpoly (x3 :: xs)) n S2') as (g & Fg & Lg & Eg & Zg).
  { cbn [length]. rewrite prodpoly_length. reflexivity. } { exact (nth_prodpoly_top (x3 :: xs)). } { unfold n. lia. }
  assert (Same_h : forall z, In z (x1 :: x2 :: xs) -> share_at polys z = share_at h z).
  { intros z Hz. unfold share_at. f_equal. rewrite Eh. apply map_ext. intros f. rewrite heval_prodpoly.
    rewrite gprod_zero; [rewrite gmul_0_r, gadd_0_r; reflexivity|]. apply in_map_iff. exists z. split; [apply gadd_self|exact Hz]. }
  assert (Same_g : forall z, In z (x3 :: xs) -> share_at polys z = share_at g z).
  { intros z Hz. unfold share_at. f_equal. rewrite Eg. apply map_ext. intros f. cbn [heval]. rewrite heval_prodpoly.
    rewrite gprod_zero; [rewrite gmul_0_r, gadd_0_l, gmul_0_r, gadd_0_r; reflexivity|]. apply in_map_iff. exists z. split; [apply gadd_self|exact Hz]. }
  assert (Ehg : share_at h x = share_at g x).
  { unfold share_at. f_equal. rewrite Eh, Eg. apply map_ext. intros f. f_equal. f_equal. cbn [heval]. rewrite !heval_prodpoly. cbn [map].
    rewrite !gprod_cons, gadd_0_l. generalize (gprod (map (fun r => gadd x r) xs)). intros w.
    transitivity (gadd (gadd (gmul x (gmul (gadd x x3) w)) (gmul w (gmul x (gadd (gadd x1 x2) x3)))) (gmul w (gmul x1 x2))); [ring|].
    rewrite Hx. ring. }
  exists (share_at h x). rewrite tag_share_at. split; [|split; [reflexivity|]].
  - rewrite E1, E2, Er. rewrite (Same_h x1), (Same_h x2) by (cbn; auto).
    rewrite (map_ext_in (share_at polys) (share_at h) xs) by (intros z Hz; apply Same_h; cbn; auto).
    apply (regen_any fuel u h (x1 :: x2 :: xs) n x); try assumption; try lia; try (cbn [length]; unfold n; lia).
    + constructor; [|constructor; [|exact ND3]]; cbn [In].
      * intros [F|F]; apply A1; auto.
      * intros F. apply A2; auto.
    + cbn [In]. intros [F|[F|F]]; [congruence|congruence|contradiction].
  - rewrite Ehg, E3, Er. rewrite (Same_g x3) by (cbn; auto).
    rewrite (map_ext_in (share_at polys) (share_at g) xs) by (intros z Hz; apply Same_g; cbn; auto).
    change (share_at g x :: share_at g x3 :: map (share_at g) xs) with (map (share_at g) (x :: x3 :: xs)).
    rewrite (Combine_sharing g (x :: x3 :: xs) n).
    + f_equal. rewrite Zg, <- S1. apply map_ext. intros f. cbn [nth]. rewrite gmul_0_r. apply gadd_0_r.
    + constructor; [|exact ND2]. cbn [In]. intros [F|F]; [congruence|contradiction].
    + exact Fg.
    + cbn [length]. unfold n. lia.
    + cbn [length]. lia.
    + destruct g; [cbn in Lg; lia|discriminate].
Qed.

(*COPY
(** the attack on a 4-of-5 split: share 4 is in [rest] *)
Example C60_run4 : exists shares new, Split ex_ar growcap117 ex_perm ex_stream ex_stale ex_stale ex_ev ex_secret 5 4 = Ret shares /\
  Regenerate 10 (stream_of [x69]) (fun _ => x33) (pick [] shares [0; 1; 4]) 1 = Ret [new] /\
  Combine [new; nth 3 shares []; nth 4 shares []] = Ret ex_secret.
Proof.
  eexists _, _. split; [vm_compute; reflexivity|]. split; vm_compute; reflexivity.
Qed.
END*)
