(** Proofs about Regenerate called on altered or foreign parts (C91). *)
From Coq Require Import List NArith ZArith Lia Arith Bool Permutation.
From Coq.Init Require Import Byte.
From Verif Require Import GoSem Bytes Spec Galois GF PolyFacts GoFacts Csprng Polynomial PolynomialFacts Shamir SplitFacts
  CombineFacts Secrecy CsprngFacts Derived CountFacts RegenFacts SpecKr Pf1 Pf3 Pf12 Pf33.
Import ListNotations.

(*PROPS
From Coq Require Import List NArith ZArith Lia Arith Bool Permutation.
From Coq.Init Require Import Byte.
From Verif Require Import GoSem Bytes Spec Polynomial Shamir SpecKr ExData Pf46.
Import ListNotations.
*)

Lemma list_choice {A} (P : nat -> A -> Prop) n : (forall j, j < n -> exists a, P j a) -> exists l, length l = n /\ forall j d, j < n -> P j (nth j l d).
Proof.
  induction n as [|n IH]; intros H; [exists []; split; [reflexivity|intros; lia]|].
  destruct IH as (l & L & Hl); [intros; apply H; lia|]. destruct (H n) as (a & Ha); [lia|].
  exists (l ++ [a]). split; [rewrite app_length, L; cbn [length]; lia|]. intros j d Hj. destruct (Nat.eq_dec j n) as [->|Hne].
  - rewrite app_nth2 by lia. rewrite L, Nat.sub_diag. exact Ha.
  - rewrite app_nth1 by lia. apply Hl. lia.
Qed.

(** parts that Combine accepts are a sharing, with as many coefficients as parts, of Combine's result *)
Lemma parts_sharing parts r : Combine parts = Ret r -> exists polys, is_sharing r (length parts) polys (map tag parts) parts.
Proof.
  intros Hc. destruct (Combine_inv parts r Hc) as (L & A1 & A2 & A3 & A4 & Er & EL).
  assert (Lr : length r = L - 1) by (rewrite Er; apply interpAt_length).
  destruct (list_choice (fun j f => length f = length parts /\ (forall p, In p parts -> peval f (tag p) = nth j p x00) /\ nth 0 f x00 = nth j r x00) (length r))
    as (polys & Lp & Hp).
  { intros j Hj. destruct (C07_combine_interpolates_pf parts r j Hc Hj) as (f & F1 & F2 & F3 & _). exists f. split; [exact F1|]. split; [exact F2|].
    rewrite F3, peval_heval, heval_0. reflexivity. }
  exists polys. split; [|split; [|split]].
  - apply nth_ext with x00 x00; [rewrite map_length; exact Lp|]. intros j Hj. rewrite map_length, Lp in Hj.
    rewrite (nth_map' (fun p => nth 0 p x00) polys j x00 []) by lia. apply (Hp j [] Hj).
  - apply Forall_forall. intros f Hf. apply (In_nth _ _ []) in Hf as (j & Hj & <-). rewrite Lp in Hj. apply (Hp j [] Hj).
  - exact A4.
  - rewrite map_map. rewrite <- (map_id parts) at 1. apply map_ext_in. intros p Hin. apply nth_ext with x00 x00.
    + rewrite share_at_length, (A3 p Hin). lia.
    + intros j Hj. rewrite (A3 p Hin) in Hj. destruct (Nat.lt_ge_cases j (L - 1)) as [H|H].
      * rewrite nth_share_at by lia. destruct (Hp j [] ltac:(lia)) as (_ & F & _). rewrite <- (F p Hin), peval_heval. reflexivity.
      * assert (j = L - 1) by lia. subst j. unfold share_at. rewrite app_nth2 by (rewrite map_length; lia). rewrite map_length.
        replace (L - 1 - length polys) with 0 by lia. cbn [nth]. unfold tag. rewrite last_nth, (A3 p Hin). reflexivity.
Qed.

(** C91: whatever the parts are - genuine, altered, of different splits - any number of the given parts and of the new shares with distinct tags, as
    many as there were parts, combine to what the given parts combine to. *)
Lemma C91_consistent_pf : forall fuel stream u parts num new,
  Regenerate fuel stream u parts num = Ret new ->
  exists r, Combine parts = Ret r /\
    forall mix, (forall s, In s mix -> In s parts \/ In s new) -> NoDup (map tag mix) -> length parts <= length mix -> Combine mix = Ret r.
Proof.
  intros fuel stream u parts num new E. destruct (Regenerate_ret _ _ _ _ _ _ E) as (r & L & Er & Hn & EL & H1 & H2 & H3 & ND & Hr & En).
  exists r. split; [exact Er|]. destruct (parts_sharing parts r Er) as (polys & S).
  assert (Ep : pick [] parts (seq 0 (length parts)) = parts) by (transitivity (map (fun s => s) parts); [symmetry; exact (map_as_seq (fun s => s) parts [])|apply map_id]).
  apply (C14_mix_combines_pf fuel stream u r (length parts) polys (map tag parts) parts (seq 0 (length parts)) num new).
  - exact H1.
  - rewrite Hr. intros F. apply (f_equal (@length byte)) in F. rewrite interpAt_length in F. cbn [length] in F. lia.
  - exact S.
  - split; [apply seq_NoDup|]. split; [intros i Hi; apply in_seq in Hi; lia|rewrite seq_length; lia].
  - rewrite Ep. exact E.
Qed.

Lemma gdiv_neq_0 a b : a <> x00 -> b <> x00 -> gdiv a b <> x00.
Proof. intros Ha Hb. unfold gdiv. apply gmul_neq_0; [exact Ha|]. apply ginv_neq_0. exact Hb. Qed.
Lemma basis_neq_0_at xs i x : NoDup xs -> i < length xs -> (forall k, k < length xs -> k <> i -> nth k xs x00 <> x) -> basis xs i x <> x00.
Proof.
  intros Hn Hi H0. unfold basis. apply gprod_neq_0. intros H. apply in_map_iff in H as [j [E Hj]].
  apply others_in in Hj. revert E. apply gdiv_neq_0.
  - intros E. apply (proj1 (gadd_eq_0 _ _)) in E. apply (H0 j); [lia|lia|]. symmetry. exact E.
  - intros F. apply (proj1 (gadd_eq_0 _ _)) in F. apply nth_inj_NoDup in F; (lia || assumption).
Qed.

(** C91: one part is replaced by another of the same length and tag; the random bytes are the same. Regenerate then draws the same tags. A new share with the
    tag of one of the other parts is still that part. Any other new share changes at exactly the positions where the replaced part changed. *)
Lemma C91_one_part_pf : forall fuel stream u parts num new i p',
  Regenerate fuel stream u parts num = Ret new -> i < length parts ->
  length p' = length (nth i parts []) -> tag p' = tag (nth i parts []) ->
  exists new', Regenerate fuel stream u (replace parts i p') num = Ret new' /\ length new' = length new /\
    forall m, m < length new ->
      let s := nth m new [] in let s' := nth m new' [] in
      length s' = length s /\ tag s' = tag s /\
      forall j, j < length p' ->
        (nth j s' x00 = nth j s x00 <->
         nth j p' x00 = nth j (nth i parts []) x00 \/ exists k, k < length parts /\ k <> i /\ tag (nth k parts []) = tag s).
Proof.
  intros fuel stream u parts num new i p' E Hi Lp' Tp'. destruct (Regenerate_ret _ _ _ _ _ _ E) as (r & L & Er & Hn & EL & H1 & H2 & H3 & ND & Hr & En).
  set (p := nth i parts []) in *. rewrite replace_set_nth.
  assert (Lp : length p = L) by (apply H3, nth_In, Hi).
  assert (Et : map tag (set_nth parts i p') = map tag parts).
  { rewrite map_set_nth, Tp'. unfold p. replace (tag (nth i parts [])) with (nth i (map tag parts) x00) by (apply nth_map'; exact Hi).
    apply set_nth_same. rewrite map_length. exact Hi. }
  assert (H3' : forall q, In q (set_nth parts i p') -> length q = L).
  { intros q Hq. apply In_nth with (d := []) in Hq as (k & Hk & <-). rewrite set_nth_length in Hk by exact Hi.
    rewrite nth_set_nth by exact Hi. destruct (Nat.eqb_spec k i); [lia|apply H3, nth_In, Hk]. }
  assert (D : exists z, dedupLoop fuel u (map tag parts) (take_stream stream (Z.to_nat num)) = Ret z).
  { destruct (dedupLoop_cases fuel u (map tag parts) (take_stream stream (Z.to_nat num))) as [D|(m & k & D & _)]; [|eexists; exact D].
    exfalso. rewrite (Regenerate_diverge fuel stream u parts num L) in E by assumption. discriminate. }
  destruct D as (z & D).
  assert (E' : Regenerate fuel stream u (set_nth parts i p') num = Ret (map (regenShare (set_nth parts i p') L) (take_stream stream (Z.to_nat num)))).
  { apply Regenerate_dedup with z; try assumption.
    - rewrite set_nth_length by exact Hi. exact H1.
    - rewrite Et. exact ND.
    - rewrite Et. exact D. }
  exists (map (regenShare (set_nth parts i p') L) (take_stream stream (Z.to_nat num))). split; [exact E'|]. rewrite En. rewrite !map_length, take_stream_length.
  split; [reflexivity|]. intros m Hm. cbv zeta.
  rewrite !(nth_map' _ _ m [] x00) by (rewrite take_stream_length; exact Hm). set (x := nth m (take_stream stream (Z.to_nat num)) x00). clearbody x.
  rewrite !regenShare_length, !tag_regenShare by lia. split; [reflexivity|]. split; [reflexivity|].
  intros j Hj. rewrite Lp', Lp in Hj. unfold regenShare.
  destruct (Nat.lt_ge_cases j (L - 1)) as [H|H].
  - rewrite !app_nth1 by (rewrite interpAt_length; exact H). rewrite !nth_interpAt by exact H. rewrite Et.
    replace (ycol (set_nth parts i p') j) with (set_nth (ycol parts j) i (nth j p' x00)) by (unfold ycol; rewrite map_set_nth; reflexivity).
    rewrite lagrange_change by (unfold ycol; rewrite ?map_length; lia).
    unfold ycol at 2. rewrite (nth_map' (fun p => nth j p x00) parts i x00 []) by exact Hi. fold p.
    split.
    + intros Q. destruct (byte_eq_dec (nth j p' x00) (nth j p x00)) as [|Hv]; [left; assumption|right].
      assert (Z : gmul (gadd (nth j p x00) (nth j p' x00)) (basis (map tag parts) i x) = x00).
      { revert Q. generalize (gmul (gadd (nth j p x00) (nth j p' x00)) (basis (map tag parts) i x)), (lagrange (map tag parts) (ycol parts j) x). clear. intros w v Q.
        assert (H : gadd v (gadd v w) = gadd v v) by (rewrite Q; reflexivity). rewrite <- gadd_assoc', gadd_self, gadd_0_l in H. exact H. }
      apply gmul_eq_0 in Z as [Z|Z].
      * exfalso. apply (proj1 (gadd_eq_0 _ _)) in Z. apply Hv. symmetry. exact Z.
      * assert (Dec : (exists k, k < length parts /\ k <> i /\ tag (nth k parts []) = x) \/ ~ (exists k, k < length parts /\ k <> i /\ tag (nth k parts []) = x)).
        { clear. induction (length parts) as [|n IH]; [right; intros (k & F & _); lia|]. destruct IH as [(k & K1 & K2 & K3)|N].
          - left. exists k. auto with arith.
          - destruct (Nat.eq_dec n i) as [->|Hne].
            + right. intros (k & K1 & K2 & K3). apply N. exists k. split; [lia|auto].
            + destruct (byte_eq_dec (tag (nth n parts [])) x) as [Q|Q].
              * left. exists n. auto with arith.
              * right. intros (k & K1 & K2 & K3). apply N. exists k. split; [|auto]. assert (k <> n) by (intros ->; contradiction). lia. }
        destruct Dec as [Y|N]; [exact Y|exfalso]. revert Z. apply basis_neq_0_at; [exact ND|rewrite map_length; exact Hi|].
        intros k0 Hk Hki W. apply N. exists k0. rewrite map_length in Hk. split; [exact Hk|]. split; [exact Hki|].
        rewrite (nth_map' tag parts k0 x00 []) in W by exact Hk. exact W.
    + intros [->|(k & K1 & K2 & K3)].
      * rewrite gadd_self, gmul_0_l, gadd_0_r. reflexivity.
      * assert (B : basis (map tag parts) i x = x00).
        { rewrite <- K3. rewrite <- (nth_map' tag parts k x00 []) by exact K1. apply basis_other; [rewrite map_length; exact K1|exact K2]. }
        rewrite B, gmul_0_r, gadd_0_r. reflexivity.
  - assert (j = L - 1) by lia. subst j. rewrite !app_nth2 by (rewrite interpAt_length; lia). rewrite !interpAt_length. split; [intros _; left|reflexivity].
    transitivity (tag p'); [unfold tag; rewrite last_nth, Lp', Lp; reflexivity|]. rewrite Tp'. unfold tag. rewrite last_nth, Lp. reflexivity.
Qed.

(** C91: shares of a sharing with threshold [t], one of them altered (length and tag intact): every new share is the genuine share with its tag exactly at the positions
    where the altered share is right, or everywhere if its tag is that of another given share. *)
Lemma C91_spreads_pf : forall fuel stream u secret t polys tags shares is num new i p',
  2 <= t -> secret <> [] -> is_sharing secret t polys tags shares -> selection (length shares) t is -> i < length is ->
  let genuine := pick [] shares is in
  length p' = length (nth i genuine []) -> tag p' = tag (nth i genuine []) ->
  Regenerate fuel stream u (replace genuine i p') num = Ret new ->
  forall s, In s new -> length s = length p' /\ forall j, j < length p' ->
    (nth j s x00 = nth j (share_at polys (tag s)) x00 <->
     nth j p' x00 = nth j (nth i genuine []) x00 \/ exists k, k < length is /\ k <> i /\ tag (nth k genuine []) = tag s).
Proof.
  intros fuel stream u secret t polys tags shares is num new i p' Ht Hs S Sel Hi genuine Lp' Tp' E s Hin.
  assert (Lg : length genuine = length is) by (unfold genuine; apply pick_length).
  assert (Er : replace (replace genuine i p') i (nth i genuine []) = genuine).
  { rewrite !replace_set_nth. apply nth_ext with [] []; [rewrite !set_nth_length; rewrite ?set_nth_length; lia|].
    intros k _. rewrite nth_set_nth by (rewrite set_nth_length; lia). destruct (Nat.eqb_spec k i) as [->|Hne]; [reflexivity|].
    rewrite nth_set_nth by lia. destruct (Nat.eqb_spec k i); [contradiction|reflexivity]. }
  assert (Ni : nth i (replace genuine i p') [] = p') by (rewrite replace_set_nth, nth_set_nth by lia; rewrite Nat.eqb_refl; reflexivity).
  assert (Nk : forall k, k <> i -> nth k (replace genuine i p') [] = nth k genuine []).
  { intros k Hk. rewrite replace_set_nth, nth_set_nth by lia. destruct (Nat.eqb_spec k i); [contradiction|reflexivity]. }
  assert (Ll : length (replace genuine i p') = length is) by (rewrite replace_set_nth, set_nth_length by lia; exact Lg).
  destruct (C91_one_part_pf fuel stream u (replace genuine i p') num new i (nth i genuine []) E) as (old & Eo & Lo & H).
  - lia.
  - rewrite Ni. symmetry. exact Lp'.
  - rewrite Ni. symmetry. exact Tp'.
  - rewrite Er in Eo. destruct (C14_mix_combines_pf fuel stream u secret t polys tags shares is num old Ht Hs S Sel Eo) as (New & _).
    apply (In_nth _ _ []) in Hin as (m & Hm & <-). destruct (H m Hm) as (L1 & T1 & J). rewrite Ni in J.
    assert (Eq : nth m old [] = share_at polys (tag (nth m new []))) by (rewrite <- T1; apply New, nth_In; lia).
    rewrite Eq in *. split.
    + rewrite <- L1, share_at_length. destruct (Regenerate_ret _ _ _ _ _ _ Eo) as (r & L & _ & _ & EL & _ & _ & H3 & _).
      rewrite Lp'. destruct S as (S1 & S2 & S3 & S4). destruct Sel as (I1 & I2 & I3). unfold genuine, pick. rewrite (nth_map' _ is i [] 0) by exact Hi.
      rewrite S4. rewrite (nth_map' (share_at polys) tags _ [] x00); [symmetry; apply share_at_length|]. rewrite S4, map_length in I2. apply I2, nth_In, Hi.
    + intros j Hj. rewrite Lp' in Hj. specialize (J j Hj). rewrite Ll in J. split.
      * intros Q. symmetry in Q. apply J in Q as [Q|(k & K1 & K2 & K3)]; [left; symmetry; exact Q|right]. exists k. rewrite Nk in K3 by exact K2. auto.
      * intros Q. symmetry. apply J. destruct Q as [Q|(k & K1 & K2 & K3)]; [left; symmetry; exact Q|right]. exists k. rewrite Nk by exact K2. auto.
Qed.

(** C91: a participant whose part is handed to Regenerate can, by one change of that part, make the new shares shares of the secret with any difference [delta]: any as many of
    the given parts and new shares as there were parts then combine to it. The change depends on the tags and on [delta] only. *)
Lemma C91_steer_pf : forall tags i, NoDup tags -> ~ In x00 tags -> i < length tags ->
  exists m, m <> x00 /\ forall fuel stream u parts num r delta new, map tag parts = tags -> Combine parts = Ret r -> length delta = length r ->
    let altered := replace parts i (xor_bytes (data (nth i parts [])) (map (gmul m) delta) ++ [tag (nth i parts [])]) in
    Regenerate fuel stream u altered num = Ret new ->
    forall mix, (forall s, In s mix -> In s altered \/ In s new) -> NoDup (map tag mix) -> length parts <= length mix -> Combine mix = Ret (xor_bytes r delta).
Proof.
  intros tags i ND N0 Hi. destruct (C57_targeted_pf tags i ND N0 Hi) as (m & Hm & H). exists m. split; [exact Hm|].
  intros fuel stream u parts num r delta new Et Ec Ld altered E mix Hmix NDm Lm. specialize (H parts r delta Et Ec Ld). fold altered in H.
  destruct (C91_consistent_pf _ _ _ _ _ _ E) as (r' & Er' & C). rewrite H in Er'. injection Er' as <-. apply C; [exact Hmix|exact NDm|].
  unfold altered. rewrite replace_set_nth, set_nth_length; [exact Lm|]. rewrite <- Et, map_length in Hi. exact Hi.
Qed.

(*COPY
(** two parts of a 2-of-2 sharing of "hello"; then with one byte of the first altered: the fresh share changes there, and combines with the other part to a wrong secret *)
Example C91_case : exists shares new p' new',
  SplitGeneric ex_perm ex_stream ex_secret 2 2 = Ret shares /\
  Regenerate 10 (stream_of [x07]) (fun _ => x33) shares 1 = Ret new /\
  p' = replace (nth 0 shares []) 2 x00 /\ length p' = length (nth 0 shares []) /\ tag p' = tag (nth 0 shares []) /\
  Regenerate 10 (stream_of [x07]) (fun _ => x33) (replace shares 0 p') 1 = Ret new' /\
  nth 2 (nth 0 new' []) x00 <> nth 2 (nth 0 new []) x00 /\ nth 1 (nth 0 new' []) x00 = nth 1 (nth 0 new []) x00 /\
  exists r, Combine [nth 0 new' []; nth 1 shares []] = Ret r /\ Combine [p'; nth 1 shares []] = Ret r /\ r <> ex_secret.
Proof.
  eexists _, _, _, _. split; [vm_compute; reflexivity|]. split; [vm_compute; reflexivity|]. split; [reflexivity|]. split; [vm_compute; reflexivity|]. split; [vm_compute; reflexivity|].
  split; [vm_compute; reflexivity|]. split; [vm_compute; discriminate|]. split; [vm_compute; reflexivity|].
  eexists. split; [vm_compute; reflexivity|]. split; [vm_compute; reflexivity|]. vm_compute. discriminate.
Qed.
END*)
