(** Combine and Regenerate: contract, interpolation, order independence, linearity, round trip. *)
From Coq Require Import List NArith ZArith Lia Arith Bool Permutation.
From Coq.Init Require Import Byte.
From Verif Require Import GoSem Bytes Spec Galois GF PolyFacts Vector GoFacts VectorFacts Csprng Pool Polynomial PolynomialFacts Shamir SplitFacts.
Import ListNotations.

Lemma last_nth {A} (l : list A) d : last l d = nth (length l - 1) l d.
Proof.
  induction l as [|a l IH]; [reflexivity|]. destruct l as [|b l]; [reflexivity|].
  change (last (a :: b :: l) d) with (last (b :: l) d). rewrite IH. cbn [length].
  replace (S (S (length l)) - 1) with (S (S (length l) - 1)) by lia. reflexivity.
Qed.

Lemma mem_In x l : mem x l = true <-> In x l.
Proof.
  unfold mem. rewrite existsb_exists. split.
  - intros (y & Hy & E). apply beq_true in E. subst. exact Hy.
  - intros H. exists x. split; [exact H|]. apply beq_true. reflexivity.
Qed.

Lemma mem_false x l : mem x l = false <-> ~ In x l.
Proof. rewrite <- mem_In. destruct (mem x l); split; congruence. Qed.

(** ** the checks *)
Definition okParts (parts : list (list byte)) : Prop :=
  2 <= length parts /\ 2 <= length (nth 0 parts []) /\
  (forall p, In p parts -> length p = length (nth 0 parts [])).

Lemma checkParts_None parts : checkParts parts = None <-> okParts parts.
Proof.
  unfold checkParts, okParts.
  destruct (Nat.ltb_spec (length parts) 2); [split; [discriminate|lia]|].
  destruct (Nat.ltb_spec (length (nth 0 parts [])) 2); [split; [discriminate|lia]|].
  destruct parts as [|p0 parts]; [cbn in *; lia|]. cbn [skipn nth] in *.
  destruct (forallb _ parts) eqn:E.
  - split; [|reflexivity]. intros _. split; [lia|]. split; [lia|]. rewrite forallb_forall in E.
    intros p [<-|Hp]; [reflexivity|]. apply E in Hp. apply Nat.eqb_eq in Hp. exact Hp.
  - split; [discriminate|]. intros (_ & _ & A). exfalso.
    assert (forallb (fun p => length p =? length p0) parts = true); [|congruence].
    apply forallb_forall. intros p Hp. apply Nat.eqb_eq. apply A. right. exact Hp.
Qed.

Lemma collectTags_spec L parts : 0 < L -> (forall p, In p parts -> length p = L) -> forall seen,
  collectTags L seen parts =
  if (forallb (fun p => negb (mem (tag p) seen)) parts && (if ListDec.NoDup_dec byte_eq_dec (map tag parts) then true else false))%bool
  then Ret (map tag parts) else Fail EDuplicatePart.
Proof.
  intros HL. induction parts as [|p parts IH]; intros Hp seen.
  - cbn. destruct (ListDec.NoDup_dec byte_eq_dec []) as [_|F]; [reflexivity|]. exfalso. apply F. constructor.
  - cbn [collectTags]. rewrite (idx_ok p (L - 1) x00) by (rewrite Hp by (left; reflexivity); lia). cbn [bind].
    assert (Et : nth (L - 1) p x00 = tag p).
    { unfold tag. rewrite last_nth, Hp by (left; reflexivity). reflexivity. }
    rewrite Et. cbn [forallb map]. destruct (mem (tag p) seen) eqn:Em; [reflexivity|]. cbn [negb andb].
    rewrite IH by (intros q Hq; apply Hp; right; exact Hq).
    destruct (ListDec.NoDup_dec byte_eq_dec (tag p :: map tag parts)) as [ND|ND].
    + rewrite andb_true_r. inversion ND as [|? ? Hni ND']; subst.
      destruct (ListDec.NoDup_dec byte_eq_dec (map tag parts)) as [_|F]; [|contradiction]. rewrite andb_true_r.
      assert (E : forallb (fun q => negb (mem (tag q) (tag p :: seen))) parts = forallb (fun q => negb (mem (tag q) seen)) parts).
      { clear - Hni. induction parts as [|q parts IH]; [reflexivity|]. cbn [forallb map] in *.
        rewrite IH by (intros F; apply Hni; right; exact F). f_equal. f_equal. unfold mem. cbn [existsb].
        destruct (beq (tag q) (tag p)) eqn:E; [|reflexivity]. apply beq_true in E. exfalso. apply Hni. left. exact E. }
      rewrite E. clear E. destruct (forallb (fun q => negb (mem (tag q) seen)) parts); reflexivity.
    + rewrite andb_false_r.
      destruct (ListDec.NoDup_dec byte_eq_dec (map tag parts)) as [ND'|_]; [|rewrite andb_false_r; reflexivity].
      rewrite andb_true_r.
      destruct (forallb (fun q => negb (mem (tag q) (tag p :: seen))) parts) eqn:E; [|reflexivity]. exfalso. apply ND.
      constructor; [|exact ND']. intros F. apply in_map_iff in F as (q & Eq & Hq). rewrite forallb_forall in E.
      apply E in Hq. apply negb_true_iff, mem_false in Hq. apply Hq. left. symmetry. exact Eq.
Qed.

Lemma collectTags_ok L parts : 0 < L -> (forall p, In p parts -> length p = L) -> NoDup (map tag parts) ->
  collectTags L [] parts = Ret (map tag parts).
Proof.
  intros HL Hp ND. rewrite collectTags_spec by assumption.
  destruct (ListDec.NoDup_dec byte_eq_dec (map tag parts)) as [_|F]; [|contradiction].
  replace (forallb (fun p => negb (mem (tag p) [])) parts) with true; [reflexivity|].
  symmetry. apply forallb_forall. intros; reflexivity.
Qed.

Lemma collectTags_dup L parts : 0 < L -> (forall p, In p parts -> length p = L) -> ~ NoDup (map tag parts) ->
  collectTags L [] parts = Fail EDuplicatePart.
Proof.
  intros HL Hp ND. rewrite collectTags_spec by assumption.
  destruct (ListDec.NoDup_dec byte_eq_dec (map tag parts)) as [F|_]; [contradiction|]. rewrite andb_false_r. reflexivity.
Qed.

Definition ycol (parts : list (list byte)) (j : nat) : list byte := map (fun p => nth j p x00) parts.

Lemma column_ok parts L j : (forall p, In p parts -> length p = L) -> j < L -> column j parts = Ret (ycol parts j).
Proof.
  intros Hp Hj. induction parts as [|p parts IH]; [reflexivity|]. cbn [column].
  rewrite (idx_ok p j x00) by (rewrite Hp by (left; reflexivity); exact Hj). cbn [bind].
  rewrite IH by (intros q Hq; apply Hp; right; exact Hq). reflexivity.
Qed.

Definition interpAt (parts : list (list byte)) (n : nat) (x : byte) : list byte :=
  map (fun j => lagrange (map tag parts) (ycol parts j) x) (seq 0 n).

Lemma interpolateAll_ok parts L x out : (forall p, In p parts -> length p = L) -> NoDup (map tag parts) -> 0 < L ->
  L - 1 <= length out ->
  exists o, interpolateAll (L - 1) parts (map tag parts) x out = Ret o /\ length o = length out /\
    (forall j, j < L - 1 -> nth j o x00 = lagrange (map tag parts) (ycol parts j) x) /\
    (forall j, L - 1 <= j -> nth j o x00 = nth j out x00).
Proof.
  intros Hp ND HL Ho. unfold interpolateAll.
  destruct (foreach_upd x00 (fun j out => do ys <- column j parts; do v <- interpolatePolynomial (map tag parts) ys x; upd out j v)
     (fun j _ => lagrange (map tag parts) (ycol parts j) x) 0 (L - 1) out) as (o & E & Lo & V); [lia| |].
  - intros j o Hj Hol. rewrite (column_ok parts L) by (assumption || lia). cbn [bind].
    rewrite interpolate_lagrange; [|exact ND|unfold ycol; rewrite !map_length; reflexivity]. cbn [bind].
    apply upd_ok. lia.
  - exists o. split; [exact E|]. split; [exact Lo|]. split; intros j Hj; rewrite V.
    + destruct (Nat.leb_spec 0 j); destruct (Nat.ltb_spec j (0 + (L - 1))); try lia. reflexivity.
    + destruct (Nat.leb_spec 0 j); destruct (Nat.ltb_spec j (0 + (L - 1))); try lia; reflexivity.
Qed.

Lemma Combine_accept parts L : 2 <= length parts -> 2 <= L -> (forall p, In p parts -> length p = L) ->
  NoDup (map tag parts) -> Combine parts = Ret (interpAt parts (L - 1) x00).
Proof.
  intros Hk HL Hp ND. unfold Combine.
  assert (H0 : length (nth 0 parts []) = L) by (apply Hp, nth_In; lia).
  replace (checkParts parts) with (@None err).
  2:{ symmetry. apply checkParts_None. repeat split; try lia. intros p Hin. rewrite H0. apply Hp, Hin. }
  rewrite H0. cbv zeta. rewrite collectTags_ok by (assumption || lia). cbn [bind].
  destruct (interpolateAll_ok parts L x00 (zeros (L - 1))) as (o & E & Lo & V & _); try assumption; try lia.
  { rewrite zeros_length. lia. }
  rewrite E. f_equal. apply nth_ext with x00 x00.
  { rewrite Lo, zeros_length. unfold interpAt. rewrite map_length, seq_length. reflexivity. }
  intros j Hj. rewrite Lo, zeros_length in Hj. rewrite V by exact Hj. unfold interpAt. rewrite nth_map_seq by exact Hj. reflexivity.
Qed.

Lemma interpAt_length parts n x : length (interpAt parts n x) = n.
Proof. unfold interpAt. rewrite map_length, seq_length. reflexivity. Qed.

Lemma nth_interpAt parts n x j : j < n -> nth j (interpAt parts n x) x00 = lagrange (map tag parts) (ycol parts j) x.
Proof. intros H. unfold interpAt. rewrite nth_map_seq by exact H. reflexivity. Qed.

(** the full case analysis of Combine *)
Lemma Combine_cases parts :
  (length parts < 2 /\ Combine parts = Fail ETooFewParts) \/
  (2 <= length parts /\ length (nth 0 parts []) < 2 /\ Combine parts = Fail EPartsTooShort) \/
  (2 <= length parts /\ 2 <= length (nth 0 parts []) /\ (exists p, In p parts /\ length p <> length (nth 0 parts [])) /\
     Combine parts = Fail EPartsLength) \/
  (okParts parts /\ ~ NoDup (map tag parts) /\ Combine parts = Fail EDuplicatePart) \/
  (okParts parts /\ NoDup (map tag parts) /\ Combine parts = Ret (interpAt parts (length (nth 0 parts []) - 1) x00)).
Proof.
  destruct (Nat.lt_ge_cases (length parts) 2) as [H1|H1].
  { left. split; [exact H1|]. unfold Combine, checkParts. apply Nat.ltb_lt in H1. rewrite H1. reflexivity. }
  destruct (Nat.lt_ge_cases (length (nth 0 parts [])) 2) as [H2|H2].
  { right; left. split; [exact H1|]. split; [exact H2|]. unfold Combine, checkParts.
    destruct (Nat.ltb_spec (length parts) 2); [lia|]. apply Nat.ltb_lt in H2. rewrite H2. reflexivity. }
  right; right.
  destruct (checkParts parts) eqn:Eck.
  - left. split; [exact H1|]. split; [exact H2|]. unfold checkParts in Eck.
    destruct (Nat.ltb_spec (length parts) 2); [lia|].
    destruct (Nat.ltb_spec (length (nth 0 parts [])) 2); [lia|].
    destruct (forallb (fun p => length p =? length (nth 0 parts [])) (skipn 1 parts)) eqn:E; [discriminate|]. split.
    + clear Eck. assert (S : exists p, In p (skipn 1 parts) /\ length p <> length (nth 0 parts [])).
      { clear - E. induction (skipn 1 parts) as [|p l IH]; [discriminate|]. cbn in E.
        destruct (Nat.eqb_spec (length p) (length (nth 0 parts []))).
        - destruct (IH E) as (q & Hq & Hn). exists q. split; [right; exact Hq|exact Hn].
        - exists p. split; [left; reflexivity|assumption]. }
      destruct S as (p & Hp & Hn). exists p. split; [|exact Hn]. destruct parts; [destruct Hp|]. right. exact Hp.
    + unfold Combine, checkParts.
      destruct (Nat.ltb_spec (length parts) 2); [lia|].
      destruct (Nat.ltb_spec (length (nth 0 parts [])) 2); [lia|]. rewrite E. reflexivity.
  - right. pose proof Eck as Hok. apply checkParts_None in Hok. destruct (Hok) as (_ & _ & Hall).
    destruct (ListDec.NoDup_dec byte_eq_dec (map tag parts)) as [ND|ND]; [right|left]; (split; [exact Hok|]; split; [exact ND|]).
    + apply Combine_accept; assumption.
    + unfold Combine. rewrite Eck. cbv zeta. rewrite collectTags_dup by (assumption || lia). reflexivity.
Qed.

(** ** order independence *)
Lemma interp_at_part parts j p : NoDup (map tag parts) -> In p parts ->
  lagrange (map tag parts) (ycol parts j) (tag p) = nth j p x00.
Proof.
  intros ND Hp. apply In_nth with (d := []) in Hp as (i & Hi & <-).
  replace (tag (nth i parts [])) with (nth i (map tag parts) x00) by (apply nth_map'; exact Hi).
  rewrite lagrange_at by (try rewrite map_length; assumption). unfold ycol. apply (nth_map' (fun p => nth j p x00)). exact Hi.
Qed.

Lemma lagrange_perm parts parts' j x : Permutation parts parts' -> NoDup (map tag parts) ->
  lagrange (map tag parts) (ycol parts j) x = lagrange (map tag parts') (ycol parts' j) x.
Proof.
  intros P ND. assert (ND' : NoDup (map tag parts')) by (eapply Permutation_NoDup; [apply Permutation_map; exact P|exact ND]).
  assert (Lp : length (map tag parts') = length (map tag parts)) by (rewrite !map_length; symmetry; apply Permutation_length, P).
  apply (polyfun_unique (length (map tag parts)) (lagrange (map tag parts) (ycol parts j)) (lagrange (map tag parts') (ycol parts' j)) (map tag parts)).
  - apply lagrange_polyfun.
  - rewrite <- Lp. apply lagrange_polyfun.
  - exact ND.
  - lia.
  - intros r Hr. apply in_map_iff in Hr as (p & <- & Hp).
    rewrite interp_at_part by assumption. rewrite interp_at_part; [reflexivity|exact ND'|]. eapply Permutation_in; eassumption.
Qed.

Lemma Combine_perm parts parts' r : Permutation parts parts' -> Combine parts = Ret r -> Combine parts' = Ret r.
Proof.
  intros P H.
  destruct (Combine_cases parts) as [(_ & E)|[(_ & _ & E)|[(_ & _ & _ & E)|[(_ & _ & E)|((H1 & H2 & H3) & ND & E)]]]]; try congruence.
  rewrite E in H. injection H as <-. set (L := length (nth 0 parts [])) in *.
  rewrite (Combine_accept parts' L).
  - f_equal. unfold interpAt. apply map_ext. intros j. symmetry. apply lagrange_perm; assumption.
  - rewrite <- (Permutation_length P). exact H1.
  - exact H2.
  - intros p Hp. apply H3. eapply Permutation_in; [apply Permutation_sym; exact P|exact Hp].
  - eapply Permutation_NoDup; [apply Permutation_map; exact P|exact ND].
Qed.

(** ** sharings *)
Lemma tag_share_at polys x : tag (share_at polys x) = x.
Proof. unfold tag, share_at. apply last_last. Qed.

Lemma data_share_at polys x : data (share_at polys x) = map (fun p => peval p x) polys.
Proof. unfold data, share_at. apply removelast_last. Qed.

Lemma share_at_length polys x : length (share_at polys x) = length polys + 1.
Proof. unfold share_at. rewrite app_length, map_length. reflexivity. Qed.

Lemma nth_share_at polys x j : j < length polys -> nth j (share_at polys x) x00 = heval (nth j polys []) x.
Proof.
  intros H. unfold share_at. rewrite app_nth1 by (rewrite map_length; exact H).
  rewrite (nth_map' (fun p => peval p x) _ j x00 []) by exact H. apply peval_heval.
Qed.

Lemma map_tag_shares polys xs : map tag (map (share_at polys) xs) = xs.
Proof. rewrite map_map. rewrite (map_ext _ (fun x => x)); [apply map_id|]. intros; apply tag_share_at. Qed.

Lemma interp_sharing polys xs t j x : NoDup xs -> Forall (fun p => length p = t) polys -> t <= length xs -> j < length polys ->
  lagrange xs (ycol (map (share_at polys) xs) j) x = heval (nth j polys []) x.
Proof.
  intros ND F Ht Hj. apply lagrange_unique; [exact ND| |].
  - rewrite Forall_forall in F. rewrite F by (apply nth_In; exact Hj). exact Ht.
  - intros i Hi. unfold ycol. rewrite map_map.
    rewrite (nth_map' (fun x => nth j (share_at polys x) x00) xs i x00 x00) by exact Hi. symmetry. apply nth_share_at. exact Hj.
Qed.

Lemma Combine_sharing polys xs t : NoDup xs -> Forall (fun p => length p = t) polys -> t <= length xs -> 2 <= length xs ->
  polys <> [] -> Combine (map (share_at polys) xs) = Ret (map (fun p => nth 0 p x00) polys).
Proof.
  intros ND F Ht H2 Hne. assert (Hl : 1 <= length polys) by (destruct polys; [congruence|cbn; lia]).
  rewrite (Combine_accept _ (length polys + 1)).
  - f_equal. rewrite Nat.add_sub. unfold interpAt. rewrite map_tag_shares.
    rewrite (map_as_seq (fun p => nth 0 p x00) polys []). apply map_ext_in. intros j Hj. apply in_seq in Hj.
    rewrite (interp_sharing polys xs t) by (assumption || lia). apply heval_0.
  - rewrite map_length. exact H2.
  - lia.
  - intros p Hp. apply in_map_iff in Hp as (x & <- & _). apply share_at_length.
  - rewrite map_tag_shares. exact ND.
Qed.

Lemma pick_map {A B} (f : A -> B) l is d d' : (forall i, In i is -> i < length l) -> pick d (map f l) is = map f (pick d' l is).
Proof.
  intros H. unfold pick. rewrite map_map. apply map_ext_in. intros i Hi. apply nth_map'. apply H, Hi.
Qed.

Lemma pick_length {A} (d : A) l is : length (pick d l is) = length is.
Proof. apply map_length. Qed.

Lemma pick_NoDup {A} (d : A) l is : NoDup l -> NoDup is -> (forall i, In i is -> i < length l) -> NoDup (pick d l is).
Proof.
  intros ND NI H. induction is as [|i is IH]; [constructor|]. inversion NI as [|? ? Hni NI']; subst.
  constructor; [|apply IH; [exact NI'|intros j Hj; apply H; right; exact Hj]].
  intros F. apply in_map_iff in F as (j & E & Hj). apply Hni.
  replace i with j; [exact Hj|]. eapply (NoDup_nth l d); [exact ND| | |exact E].
  - apply H. right. exact Hj.
  - apply H. left. reflexivity.
Qed.

Lemma Combine_is_sharing secret t polys tags shares is : 2 <= t -> secret <> [] ->
  is_sharing secret t polys tags shares -> selection (length shares) t is ->
  Combine (pick [] shares is) = Ret secret.
Proof.
  intros Ht Hs (E1 & E2 & E3 & ->) (N1 & N2 & N3). rewrite map_length in N2.
  rewrite (pick_map (share_at polys) tags is [] x00) by exact N2.
  rewrite (Combine_sharing polys _ t).
  - rewrite E1. reflexivity.
  - apply pick_NoDup; assumption.
  - exact E2.
  - rewrite pick_length. exact N3.
  - rewrite pick_length. lia.
  - intros ->. apply Hs. symmetry. exact E1.
Qed.

(** ** linearity and corruption *)
Lemma nth_data s j : S j < length s -> nth j (data s) x00 = nth j s x00.
Proof.
  intros H. assert (H0 : s <> []) by (intros ->; cbn in H; lia).
  pose proof (app_removelast_last x00 H0) as E. unfold data. rewrite E at 2. rewrite app_nth1; [reflexivity|].
  apply (f_equal (@length byte)) in E. rewrite app_length in E. cbn in E. lia.
Qed.

Lemma data_length s : length (data s) = length s - 1.
Proof.
  destruct s as [|a s]; [reflexivity|]. assert (a :: s <> []) by discriminate.
  pose proof (f_equal (@length byte) (app_removelast_last x00 H)) as E. rewrite app_length in E. cbn [length] in E.
  unfold data. cbn [length]. lia.
Qed.

Lemma xor_share_length s s' : length s = length s' -> 0 < length s -> length (xor_share s s') = length s.
Proof.
  intros E H. unfold xor_share. rewrite app_length. cbn [length].
  rewrite xor_bytes_length by (rewrite !data_length; lia). rewrite data_length. lia.
Qed.

Lemma tag_xor_share s s' : tag (xor_share s s') = tag s.
Proof. unfold tag at 1, xor_share. apply last_last. Qed.

Lemma nth_xor_share s s' j : length s = length s' -> S j < length s ->
  nth j (xor_share s s') x00 = gadd (nth j s x00) (nth j s' x00).
Proof.
  intros E H. unfold xor_share. rewrite app_nth1.
  - rewrite nth_xor_bytes by (rewrite !data_length; lia). rewrite !nth_data by lia. reflexivity.
  - rewrite xor_bytes_length by (rewrite !data_length; lia). rewrite data_length. lia.
Qed.

Lemma map_tag_xor_shares a : forall b, length a = length b -> map tag (xor_shares a b) = map tag a.
Proof.
  induction a as [|s a IH]; intros [|s' b] H; try discriminate; [reflexivity|].
  unfold xor_shares in *. cbn [combine map fst snd]. rewrite tag_xor_share. f_equal. apply IH. cbn in H. lia.
Qed.

Lemma ycol_xor_shares L j a : forall b, length a = length b -> (forall p, In p a -> length p = L) ->
  (forall p, In p b -> length p = L) -> S j < L -> ycol (xor_shares a b) j = xor_bytes (ycol a j) (ycol b j).
Proof.
  induction a as [|s a IH]; intros [|s' b] H Ha Hb Hj; try discriminate; [reflexivity|].
  unfold ycol, xor_shares in *. cbn [combine map fst snd xor_bytes].
  assert (Ls : length s = L) by (apply Ha; left; reflexivity). assert (Ls' : length s' = L) by (apply Hb; left; reflexivity).
  rewrite nth_xor_share by lia. f_equal. apply IH.
  - cbn in H. lia.
  - intros p Hp. apply Ha. right. exact Hp.
  - intros p Hp. apply Hb. right. exact Hp.
  - exact Hj.
Qed.

Lemma lagrange_xor xs ys ys' x : length ys = length xs -> length ys' = length xs ->
  lagrange xs (xor_bytes ys ys') x = gadd (lagrange xs ys x) (lagrange xs ys' x).
Proof.
  intros H H'. unfold lagrange. rewrite <- gsum_map_add. f_equal. apply map_ext_in. intros i Hi. apply in_seq in Hi.
  rewrite nth_xor_bytes by lia. ring.
Qed.

Lemma Combine_inv parts r : Combine parts = Ret r ->
  exists L, 2 <= length parts /\ 2 <= L /\ (forall p, In p parts -> length p = L) /\ NoDup (map tag parts) /\
    r = interpAt parts (L - 1) x00 /\ L = length (nth 0 parts []).
Proof.
  intros H.
  destruct (Combine_cases parts) as [(_ & E)|[(_ & _ & E)|[(_ & _ & _ & E)|[(_ & _ & E)|((H1 & H2 & H3) & ND & E)]]]]; try congruence.
  exists (length (nth 0 parts [])). rewrite E in H. injection H as <-. repeat split; assumption.
Qed.

Lemma Combine_xor a b ra rb : map tag a = map tag b -> Combine a = Ret ra -> Combine b = Ret rb -> length ra = length rb ->
  Combine (xor_shares a b) = Ret (xor_bytes ra rb).
Proof.
  intros Et Ha Hb Hl.
  apply Combine_inv in Ha as (L & A1 & A2 & A3 & A4 & -> & _).
  apply Combine_inv in Hb as (L' & B1 & B2 & B3 & B4 & -> & _).
  rewrite !interpAt_length in Hl. assert (L' = L) by lia. subst L'.
  assert (Hab : length a = length b) by (rewrite <- (map_length tag a), Et; apply map_length).
  assert (Hlen : forall p, In p (xor_shares a b) -> length p = L).
  { intros p Hp. unfold xor_shares in Hp. apply in_map_iff in Hp as ([s s'] & <- & Hss). cbn [fst snd].
    pose proof (in_combine_l _ _ _ _ Hss) as H1. pose proof (in_combine_r _ _ _ _ Hss) as H2.
    apply A3 in H1. apply B3 in H2. rewrite xor_share_length; lia. }
  rewrite (Combine_accept _ L); [|unfold xor_shares; rewrite map_length, combine_length; lia|exact A2|exact Hlen|rewrite map_tag_xor_shares; assumption].
  f_equal. apply nth_ext with x00 x00.
  { rewrite xor_bytes_length, !interpAt_length; rewrite ?interpAt_length; reflexivity. }
  intros j Hj. rewrite interpAt_length in Hj.
  rewrite nth_xor_bytes by (rewrite ?interpAt_length; lia). rewrite !nth_interpAt by exact Hj.
  rewrite map_tag_xor_shares by exact Hab. rewrite (ycol_xor_shares L) by (assumption || lia).
  rewrite lagrange_xor by (unfold ycol; rewrite !map_length; congruence). rewrite <- Et. reflexivity.
Qed.

Lemma replace_set_nth {A} (l : list A) i v : replace l i v = set_nth l i v.
Proof. reflexivity. Qed.

Lemma map_set_nth {A B} (f : A -> B) l i v : map f (set_nth l i v) = set_nth (map f l) i (f v).
Proof. unfold set_nth. rewrite map_app. cbn [map]. rewrite firstn_map, skipn_map. reflexivity. Qed.

Lemma lagrange_change xs ys i v x : i < length xs -> length ys = length xs ->
  lagrange xs (set_nth ys i v) x = gadd (lagrange xs ys x) (gmul (gadd (nth i ys x00) v) (basis xs i x)).
Proof.
  intros Hi Hl. unfold lagrange.
  assert (E : map (fun k => gmul (nth k (set_nth ys i v) x00) (basis xs k x)) (seq 0 (length xs))
     = map (fun k => gadd (gmul (nth k ys x00) (basis xs k x)) (if k =? i then gmul (gadd (nth i ys x00) v) (basis xs i x) else x00)) (seq 0 (length xs))).
  { apply map_ext_in. intros k Hk. apply in_seq in Hk. rewrite nth_set_nth by lia.
    destruct (Nat.eqb_spec k i) as [->|]; ring. }
  rewrite E, gsum_map_add. f_equal.
  rewrite (gsum_map_single _ _ i); [rewrite Nat.eqb_refl; reflexivity|apply seq_NoDup|apply in_seq; lia|].
  intros b _ Hb. destruct (Nat.eqb_spec b i); [congruence|reflexivity].
Qed.

Lemma Combine_corrupt parts r i j v :
  Combine parts = Ret r -> ~ In x00 (map tag parts) -> i < length parts -> j < length r ->
  v <> nth j (nth i parts []) x00 ->
  exists r', Combine (replace parts i (replace (nth i parts []) j v)) = Ret r' /\
    nth j r' x00 <> nth j r x00 /\ length r' = length r /\
    forall k, k <> j -> nth k r' x00 = nth k r x00.
Proof.
  intros Hc H0 Hi Hj Hv. apply Combine_inv in Hc as (L & A1 & A2 & A3 & A4 & -> & _).
  rewrite interpAt_length in Hj. rewrite !replace_set_nth. set (p := nth i parts []) in *.
  assert (Lp : length p = L) by (apply A3, nth_In, Hi).
  assert (Et : map tag (set_nth parts i (set_nth p j v)) = map tag parts).
  { rewrite map_set_nth. replace (tag (set_nth p j v)) with (tag p).
    - unfold p. replace (tag (nth i parts [])) with (nth i (map tag parts) x00) by (apply nth_map'; exact Hi).
      apply set_nth_same. rewrite map_length. exact Hi.
    - unfold tag. rewrite !last_nth. rewrite set_nth_length by lia. rewrite nth_set_nth by lia.
      destruct (Nat.eqb_spec (length p - 1) j); [lia|reflexivity]. }
  exists (interpAt (set_nth parts i (set_nth p j v)) (L - 1) x00). split; [|split; [|split]].
  - apply Combine_accept.
    + rewrite set_nth_length by exact Hi. exact A1.
    + exact A2.
    + intros q Hq. apply In_nth with (d := []) in Hq as (k & Hk & <-). rewrite set_nth_length in Hk by exact Hi.
      rewrite nth_set_nth by exact Hi. destruct (Nat.eqb_spec k i).
      * rewrite set_nth_length by lia. exact Lp.
      * apply A3, nth_In, Hk.
    + rewrite Et. exact A4.
  - rewrite !nth_interpAt by exact Hj. rewrite Et.
    replace (ycol (set_nth parts i (set_nth p j v)) j) with (set_nth (ycol parts j) i v).
    2:{ unfold ycol. rewrite map_set_nth. f_equal. rewrite nth_set_nth by lia. rewrite Nat.eqb_refl. reflexivity. }
    rewrite lagrange_change by (unfold ycol; rewrite ?map_length; lia).
    unfold ycol at 2. rewrite (nth_map' (fun p => nth j p x00) parts i x00 []) by exact Hi. fold p.
    intros E. assert (Z : gmul (gadd (nth j p x00) v) (basis (map tag parts) i x00) = x00).
    { set (w := gmul _ _) in *. set (u := lagrange _ _ _) in *. clearbody u w.
      assert (gadd u (gadd u w) = gadd u u) by (rewrite E; reflexivity).
      rewrite <- gadd_assoc', gadd_self, gadd_0_l in H. exact H. }
    revert Z. apply gmul_neq_0.
    + intros F. apply (proj1 (gadd_eq_0 _ _)) in F. apply Hv. symmetry. exact F.
    + apply basis_neq_0; [exact A4|rewrite map_length; exact Hi|exact H0].
  - rewrite !interpAt_length. reflexivity.
  - intros k Hk. destruct (Nat.lt_ge_cases k (L - 1)) as [Hkl|Hkl].
    + rewrite !nth_interpAt by exact Hkl. rewrite Et. f_equal.
      unfold ycol. rewrite map_set_nth. replace (nth k (set_nth p j v) x00) with (nth k p x00).
      * unfold p. replace (nth k (nth i parts []) x00) with (nth i (map (fun p => nth k p x00) parts) x00) by (apply (nth_map' (fun p => nth k p x00)); exact Hi).
        apply set_nth_same. rewrite map_length. exact Hi.
      * rewrite nth_set_nth by lia. destruct (Nat.eqb_spec k j); [congruence|reflexivity].
    + rewrite !nth_overflow by (rewrite interpAt_length; exact Hkl). reflexivity.
Qed.
