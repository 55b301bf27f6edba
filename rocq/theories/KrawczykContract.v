(** krawczyk.Combine on arbitrary shares: lemmas for the full contract. *)
From Coq Require Import List NArith ZArith Lia Arith Bool Permutation.
From Coq.Init Require Import Byte.
From Verif Require Import GoSem Bytes Spec GF PolyFacts GoFacts Vector Csprng Pool Shamir Libs Krawczyk SplitFacts CombineFacts SpecKr KrawczykFacts KrawczykCombine CountFacts.
Import ListNotations.

(** ** the scan *)
Lemma b2i_tag_iff s i : i < 256 -> (b2i (tag s) = i <-> tag s = i2b i).
Proof. intros H. split; [intros <-; symmetry; apply i2b_b2i|intros ->; apply b2i_i2b; exact H]. Qed.

Lemma kr_piece_slice s : 22 <= length s -> firstn (length s - 1 - 21) (skipn 21 s) = kr_piece s.
Proof.
  intros H. unfold kr_piece. rewrite removelast_firstn_len. f_equal. rewrite skipn_length. lia.
Qed.

Lemma scan_ok parts : (0 <= parts <= 255)%Z -> forall l enc md, length enc = Z.to_nat parts ->
  Forall (fun x : list byte * list byte => kr_acceptable parts (fst x)) l ->
  exists enc', foreach l (splitStep parts) (enc, md) = Ret (enc', md ++ map kr_meta (map fst l)) /\
    length enc' = Z.to_nat parts /\
    forall i, i < Z.to_nat parts ->
      (exists pre s post, map fst l = pre ++ s :: post /\ tag s = i2b i /\ nth i enc' [] = kr_piece s /\ forall s', In s' post -> tag s' <> i2b i) \/
      (nth i enc' [] = nth i enc [] /\ forall s, In s (map fst l) -> tag s <> i2b i).
Proof.
  intros Hp. induction l as [|[s spare] l IH]; intros enc md He F.
  - exists enc. cbn [foreach map]. rewrite app_nil_r. split; [reflexivity|]. split; [exact He|]. intros i Hi. right. split; [reflexivity|]. intros s [].
  - inversion F as [|? ? (F1 & F2) F3]; subst. cbn [fst] in F1, F2.
    assert (St : splitStep parts (s, spare) (enc, md) = Ret (set_nth enc (b2i (tag s)) (kr_piece s), md ++ [kr_meta s])).
    { unfold splitStep. change (LenKey + LenLen + 1) with 21. rewrite slice_ok by (rewrite ?app_length; lia). cbn [bind].
      destruct (Nat.eqb_spec (length s) 0) as [X|_]; [lia|]. rewrite (idx_ok s _ x00) by lia. cbn [bind]. rewrite <- tag_nth, bltb_spec by exact Hp.
      destruct (Z.ltb_spec parts (b2z (tag s))) as [X|_]; [lia|]. rewrite slice_ok by lia. cbn [bind].
      rewrite b2z_b2i in F2. rewrite upd_ok by lia. cbn [bind]. rewrite kr_piece_slice by exact F1. do 4 f_equal.
      rewrite skipn_O, firstn_app. replace (21 - 0 - length s) with 0 by lia. rewrite firstn_O, app_nil_r. reflexivity. }
    cbn [foreach]. rewrite St. cbn [bind]. rewrite b2z_b2i in F2.
    destruct (IH (set_nth enc (b2i (tag s)) (kr_piece s)) (md ++ [kr_meta s])) as (enc' & E1 & E2 & E3); [rewrite set_nth_length; lia|exact F3|].
    exists enc'. split; [rewrite E1, <- app_assoc; reflexivity|]. split; [exact E2|]. intros i Hi. cbn [map fst].
    destruct (E3 i Hi) as [(pre & s1 & post & A & B & C & D)|(A & B)].
    + left. exists (s :: pre), s1, post. rewrite A. repeat split; assumption.
    + rewrite nth_set_nth in A by lia. destruct (Nat.eqb_spec i (b2i (tag s))) as [X|X].
      * left. exists [], s, (map fst l). split; [reflexivity|]. split; [rewrite X; symmetry; apply i2b_b2i|]. split; [exact A|exact B].
      * right. split; [exact A|]. intros s' [<-|Hs']; [|apply B, Hs']. intros Y. apply X. symmetry. apply b2i_tag_iff; [lia|exact Y].
Qed.

Lemma piece_at_unique shares i p q : piece_at shares i p -> piece_at shares i q -> p = q.
Proof.
  intros [(pre & s & post & A & B & -> & D)|(-> & B)] [(pre' & s' & post' & A' & B' & -> & D')|(-> & B')]; try reflexivity.
  - assert (X : s = s'); [|rewrite X; reflexivity]. subst shares. revert pre' A'. induction pre as [|a pre IH]; intros [|a' pre'] A'; cbn [app] in A'; injection A' as -> A'.
    + reflexivity.
    + exfalso. apply (D s'); [rewrite A'; apply in_or_app; right; left; reflexivity|exact B'].
    + exfalso. apply (D' s); [rewrite <- A'; apply in_or_app; right; left; reflexivity|exact B].
    + apply (IH pre' A').
  - exfalso. apply (B' s); [rewrite A; apply in_or_app; right; left; reflexivity|exact B].
  - exfalso. apply (B s'); [rewrite A'; apply in_or_app; right; left; reflexivity|exact B'].
Qed.

Lemma pieces_unique shares n (ps qs : list (list byte)) : length ps = n -> length qs = n ->
  (forall i, i < n -> piece_at shares i (nth i ps [])) -> (forall i, i < n -> piece_at shares i (nth i qs [])) -> ps = qs.
Proof.
  intros L L' H H'. apply nth_ext with [] []; [congruence|]. intros i Hi. apply piece_at_unique with shares i; [apply H|apply H']; lia.
Qed.

(** ** metadata *)
Lemma meta_tag_nodup shares : map tag (map kr_meta shares) = map (fun s => tag (kr_meta s)) shares.
Proof. apply map_map. Qed.

Lemma metadata_combine shares parts : Forall (kr_acceptable parts) shares ->
  (length shares < 2 /\ Combine (map kr_meta shares) = Fail ETooFewParts) \/
  (2 <= length shares /\ ~ NoDup (map (fun s => tag (kr_meta s)) shares) /\ Combine (map kr_meta shares) = Fail EDuplicatePart) \/
  (2 <= length shares /\ NoDup (map (fun s => tag (kr_meta s)) shares) /\ exists md, kr_metadata shares md /\ Combine (map kr_meta shares) = Ret md).
Proof.
  intros F. assert (L : forall p, In p (map kr_meta shares) -> length p = 21).
  { intros p Hp. apply in_map_iff in Hp as (s & <- & Hs). rewrite Forall_forall in F. destruct (F s Hs) as (X & _). unfold kr_meta. rewrite firstn_length. lia. }
  destruct (Nat.lt_ge_cases (length shares) 2) as [H|H].
  { left. split; [exact H|]. unfold Combine, checkParts. rewrite map_length. apply Nat.ltb_lt in H. rewrite H. reflexivity. }
  right. assert (H0 : length (nth 0 (map kr_meta shares) []) = 21) by (apply L, nth_In; rewrite map_length; lia).
  destruct (ListDec.NoDup_dec byte_eq_dec (map (fun s => tag (kr_meta s)) shares)) as [ND|ND].
  - right. split; [exact H|]. split; [exact ND|]. rewrite <- meta_tag_nodup in ND.
    assert (EC : Combine (map kr_meta shares) = Ret (interpAt (map kr_meta shares) 20 x00)).
    { apply (Combine_accept _ 21); [rewrite map_length; exact H|lia|exact L|exact ND]. }
    eexists. split; [|exact EC]. split; [apply interpAt_length|]. intros j Hj.
    destruct (lagrange_polyfun (map tag (map kr_meta shares)) (ycol (map kr_meta shares) j)) as (f & Lf & Ef).
    rewrite !map_length in Lf.
    exists (f ++ repeat x00 (length shares - length f)). split; [rewrite app_length, repeat_length; lia|]. split.
    + intros s Hs. rewrite peval_heval, heval_app_zeros, Ef. rewrite (interp_at_part _ _ (kr_meta s)); [|exact ND|apply in_map; exact Hs].
      unfold kr_meta. apply nth_firstn. lia.
    + rewrite peval_heval, heval_app_zeros, Ef. apply nth_interpAt. exact Hj.
  - left. split; [exact H|]. split; [exact ND|]. unfold Combine.
    replace (checkParts (map kr_meta shares)) with (@None err).
    + cbv zeta. rewrite collectTags_dup; [reflexivity|lia|intros p Hp; rewrite H0; apply L, Hp|rewrite meta_tag_nodup; exact ND].
    + symmetry. apply checkParts_None. split; [rewrite map_length; exact H|]. split; [lia|]. intros p Hp. rewrite H0. apply L, Hp.
Qed.

Lemma metadata_unique shares md md' : NoDup (map (fun s => tag (kr_meta s)) shares) -> kr_metadata shares md -> kr_metadata shares md' -> md = md'.
Proof.
  intros ND (L & H) (L' & H'). apply nth_ext with x00 x00; [congruence|]. intros j Hj. rewrite L in Hj.
  destruct (H j Hj) as (f & F1 & F2 & ->). destruct (H' j Hj) as (f' & F1' & F2' & ->). f_equal.
  apply (poly_unique f f' (map (fun s => tag (kr_meta s)) shares)); [congruence|rewrite map_length; lia|exact ND|].
  intros x Hx. apply in_map_iff in Hx as (s & <- & Hs). rewrite <- !peval_heval, F2, F2' by exact Hs. reflexivity.
Qed.

Lemma le32_value_leNum l : length l = 4 -> leNum (firstn 4 l) = le32_value l.
Proof.
  intros H. destruct l as [|a [|b [|c [|d [|? ?]]]]]; cbn in H; try lia. cbn [firstn leNum]. unfold le32_value. cbn [nth]. lia.
Qed.

(** ** reedsolomon on arbitrary pieces *)
Lemma not_forallb {A} (f : A -> bool) l : forallb f l = false -> exists a, In a l /\ f a = false.
Proof.
  induction l as [|a l IH]; cbn [forallb]; [discriminate|]. destruct (f a) eqn:E; [|intros _; exists a; split; [left; reflexivity|exact E]].
  cbn [andb]. intros H. destruct (IH H) as (b & Hb & Eb). exists b. split; [right; exact Hb|exact Eb].
Qed.

Lemma rsShardSize_cases pieces :
  (rsShardSize pieces = 0 /\ forall p, In p pieces -> p = []) \/
  (exists p, In p pieces /\ p <> [] /\ rsShardSize pieces = length p /\ 0 < length p).
Proof.
  unfold rsShardSize. destruct (find _ pieces) as [s|] eqn:F.
  - apply find_some in F as (A & B). apply negb_true_iff, Nat.eqb_neq in B. right. exists s. split; [exact A|]. split; [intros ->; apply B; reflexivity|]. split; [reflexivity|lia].
  - left. split; [reflexivity|]. intros p Hp. pose proof (find_none _ _ F p Hp) as X. apply negb_false_iff, Nat.eqb_eq in X. destruct p; [reflexivity|discriminate].
Qed.

Lemma nth_nonempty (p : list byte) : p <> [] <-> length p <> 0.
Proof. destruct p; cbn; split; congruence || lia. Qed.

Lemma present_In pieces i : In i (present pieces) <-> i < length pieces /\ nth i pieces [] <> [].
Proof.
  unfold present. rewrite filter_In, in_seq, negb_true_iff, Nat.eqb_neq, <- nth_nonempty. intuition lia.
Qed.

Lemma present_NoDup pieces : NoDup (present pieces).
Proof. apply NoDup_filter, seq_NoDup. Qed.

Lemma reconstruct_cases t pieces : 0 < t -> t <= length pieces -> length pieces <= 256 ->
  ((forall p, In p pieces -> p = []) /\ rsReconstructData t (length pieces) pieces = Fail ERSShardNoData) \/
  ((exists p q, In p pieces /\ In q pieces /\ p <> [] /\ q <> [] /\ length p <> length q) /\
     rsReconstructData t (length pieces) pieces = Fail ERSShardSize) \/
  (exists len, 0 < len /\ (forall p, In p pieces -> length p = len \/ p = []) /\ (exists p, In p pieces /\ p <> []) /\
    ((length (present pieces) < t /\ rsReconstructData t (length pieces) pieces = Fail ERSTooFewShards) \/
     (t <= length (present pieces) /\ exists o, rsReconstructData t (length pieces) pieces = Ret o /\ length o = length pieces /\
        rs_completion t len pieces (firstn t o)))).
Proof.
  intros Ht Hn H256. unfold rsReconstructData. rewrite Nat.eqb_refl. cbn [negb]. unfold rsCheckShards.
  destruct (rsShardSize_cases pieces) as [(-> & A)|(p0 & A1 & A2 & A3 & A4)]; [left; split; [exact A|reflexivity]|right].
  rewrite A3. destruct (Nat.eqb_spec (length p0) 0) as [X|_]; [lia|].
  destruct (forallb _ pieces) eqn:F.
  - right. exists (length p0). split; [exact A4|]. rewrite forallb_forall in F.
    assert (U : forall p, In p pieces -> length p = length p0 \/ p = []).
    { intros p Hp. apply F in Hp. cbn [andb] in Hp. apply orb_true_iff in Hp as [Hp|Hp]; apply Nat.eqb_eq in Hp; [left; exact Hp|right; destruct p; [reflexivity|discriminate]]. }
    split; [exact U|]. split; [exists p0; split; assumption|]. cbv zeta. fold (present pieces).
    assert (Dp : forall i, i < t -> (In i (filter (fun i => i <? t) (present pieces)) <-> nth i pieces [] <> [])).
    { intros i Hi. rewrite filter_In, present_In, Nat.ltb_lt. intuition lia. }
    destruct (Nat.lt_ge_cases (length (present pieces)) t) as [Hf|Hf].
    { left. split; [exact Hf|]. pose proof (filter_length_le' (fun i => i <? t) (present pieces)).
      destruct (Nat.eqb_spec (length (present pieces)) (length pieces)); [lia|].
      destruct (Nat.eqb_spec (length (filter (fun i => i <? t) (present pieces))) t); [lia|]. cbn [orb].
      apply Nat.ltb_lt in Hf. rewrite Hf. reflexivity. }
    right. split; [exact Hf|].
    destruct ((length (present pieces) =? length pieces) || (length (filter (fun i => i <? t) (present pieces)) =? t)) eqn:B.
    + exists pieces. split; [reflexivity|]. split; [reflexivity|].
      assert (All : forall i, i < t -> nth i pieces [] <> []).
      { intros i Hi. apply orb_true_iff in B as [B|B]; apply Nat.eqb_eq in B.
        - apply present_In. apply (NoDup_length_incl (present_NoDup pieces) (l' := seq 0 (length pieces))); [rewrite seq_length; lia| |apply in_seq; lia].
          intros j Hj. apply present_In in Hj. apply in_seq. lia.
        - apply Dp; [exact Hi|]. apply (NoDup_length_incl (NoDup_filter (fun i => i <? t) (present_NoDup pieces)) (l' := seq 0 t)); [rewrite seq_length; lia| |apply in_seq; lia].
          intros j Hj. apply filter_In in Hj as (_ & Hj). apply Nat.ltb_lt in Hj. apply in_seq. lia. }
      split; [exact Hf|]. split; [rewrite firstn_length; lia|]. intros i Hi. rewrite nth_firstn by exact Hi.
      split; [|split; [reflexivity|intros X; exfalso; exact (All i Hi X)]].
      destruct (U (nth i pieces [])) as [X|X]; [apply nth_In; lia|exact X|exfalso; exact (All i Hi X)].
    + destruct (Nat.ltb_spec (length (present pieces)) t) as [X|_]; [lia|]. eexists. split; [reflexivity|]. split; [rewrite map_length, seq_length; reflexivity|].
      split; [exact Hf|]. split; [rewrite firstn_length, map_length, seq_length; lia|]. intros i Hi. rewrite nth_firstn by exact Hi. rewrite nth_map_seq by lia.
      apply Nat.ltb_lt in Hi as Hi'. rewrite Hi'. cbn [andb]. destruct (Nat.eqb_spec (length (nth i pieces [])) 0) as [X|X].
      * assert (Ei : nth i pieces [] = []) by (destruct (nth i pieces []); [reflexivity|discriminate]).
        split; [unfold rsShardFrom; rewrite map_length, seq_length; reflexivity|]. split; [intros Y; contradiction|]. intros _ k Hk.
        set (src := firstn t (present pieces)) in *. set (rows := map (fun i => nth i pieces []) src).
        assert (Ls : length src = t) by (unfold src; rewrite firstn_length; lia).
        destruct (lagrange_polyfun (map rsPoint src) (map (fun r => nth k r x00) rows)) as (f & Lf & Ef). rewrite map_length, Ls in Lf.
        exists (f ++ repeat x00 (t - length f)). split; [rewrite app_length, repeat_length; lia|]. split.
        -- intros j Hj. rewrite peval_heval, heval_app_zeros, Ef. apply In_nth with (d := 0) in Hj as (m & Hm & <-).
           assert (NDs : NoDup (map rsPoint src)).
           { apply map_rsPoint_NoDup; [apply firstn_NoDup, present_NoDup|]. intros q Hq. apply firstn_In' in Hq. apply present_In in Hq. lia. }
           change i2b with rsPoint. rewrite <- nth_map_rsPoint by exact Hm. rewrite lagrange_at; [|exact NDs|rewrite map_length; exact Hm].
           unfold rows. rewrite map_map. rewrite (nth_map' _ _ m x00 0) by exact Hm. reflexivity.
        -- rewrite peval_heval, heval_app_zeros, Ef. unfold rsShardFrom. rewrite nth_map_seq by exact Hk. reflexivity.
      * assert (Ei : nth i pieces [] <> []) by (apply nth_nonempty; exact X).
        split; [|split; [reflexivity|intros Y; contradiction]].
        destruct (U (nth i pieces [])) as [Y|Y]; [apply nth_In; lia|exact Y|contradiction].
  - left. split; [|reflexivity]. apply not_forallb in F as (q & Hq & F). cbn [andb] in F. apply orb_false_iff in F as (F1 & F2).
    apply Nat.eqb_neq in F1, F2. exists p0, q. repeat split; try assumption; [apply nth_nonempty; exact F2|congruence].
Qed.

Lemma completion_unique t len pieces data data' : 0 < len -> length pieces <= 256 -> rs_completion t len pieces data -> rs_completion t len pieces data' -> data = data'.
Proof.
  intros Hl H256 (P & L & H) (P' & L' & H'). apply nth_ext with [] []; [congruence|]. intros i Hi. rewrite L in Hi.
  destruct (H i Hi) as (A & B & C). destruct (H' i Hi) as (A' & B' & C').
  destruct (nth i pieces []) as [|x r] eqn:E; [|rewrite B, B' by discriminate; reflexivity].
  apply nth_ext with x00 x00; [congruence|]. intros k Hk. rewrite A in Hk.
  destruct (C eq_refl k Hk) as (f & F1 & F2 & ->). destruct (C' eq_refl k Hk) as (f' & F1' & F2' & ->). f_equal.
  apply (poly_unique f f' (map rsPoint (firstn t (present pieces)))); [congruence|rewrite map_length, firstn_length; lia| |].
  - apply map_rsPoint_NoDup; [apply firstn_NoDup, present_NoDup|]. intros q Hq. apply firstn_In' in Hq. apply present_In in Hq. lia.
  - intros y Hy. apply in_map_iff in Hy as (j & <- & Hj). rewrite <- !peval_heval. unfold rsPoint. rewrite F2, F2' by exact Hj. reflexivity.
Qed.

Lemma concat_uniform_length (l : list (list byte)) len : (forall i, i < length l -> length (nth i l []) = len) -> length (concat l) = length l * len.
Proof.
  induction l as [|a l IH]; intros H; [reflexivity|]. cbn [concat length]. rewrite app_length. rewrite (IH (fun i Hi => H (S i) ltac:(cbn; lia))).
  pose proof (H 0 ltac:(cbn; lia)) as X. cbn [nth] in X. lia.
Qed.
