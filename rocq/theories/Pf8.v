(** Proofs of the properties about shared memory (C46, C47). *)
From Coq Require Import List NArith ZArith Lia Arith Bool Permutation.
From Coq.Init Require Import Byte.
From Verif Require Import GoSem Bytes Spec SpecKr Galois GF PolyFacts GoFacts VectorFacts Vector Csprng Pool Polynomial PolynomialFacts Shamir SplitFacts
  CombineFacts Secrecy CsprngFacts Derived RandomizerFacts SplitP Libs AES AESFacts Krawczyk KrawczykFacts KrawczykCombine Worker Memory SpecMem Pf1 Pf2 Pf4 Pf6.
Import ListNotations.

(*PROPS
From Coq Require Import List NArith ZArith Lia Arith Bool Permutation.
From Coq.Init Require Import Byte.
From Verif Require Import GoSem Bytes Spec SpecKr Vector Csprng Pool Polynomial Shamir SplitP Libs AES Krawczyk Worker Memory SpecMem ExData Pf8.
Import ListNotations.
*)

Lemma set_length {A} (l : list A) i v : i < length l -> length (set l i v) = length l.
Proof. intros H. unfold set. rewrite app_length. cbn [length]. rewrite firstn_length, skipn_length. lia. Qed.

Lemma nth_set {A} (l : list A) i j v d : i < length l -> nth j (set l i v) d = if j =? i then v else nth j l d.
Proof.
  intros H. unfold set. assert (L : length (firstn i l) = i) by (rewrite firstn_length; lia).
  destruct (Nat.eqb_spec j i) as [->|N].
  - rewrite app_nth2 by lia. rewrite L, Nat.sub_diag. reflexivity.
  - destruct (Nat.lt_ge_cases j i).
    + rewrite app_nth1 by lia. apply nth_firstn. exact H0.
    + rewrite app_nth2 by lia. rewrite L. replace (j - i) with (S (j - i - 1)) by lia. cbn [nth]. rewrite nth_skipn. f_equal. lia.
Qed.

Lemma poke_length h a k v : a < length h -> length (poke h a k v) = length h.
Proof. apply set_length. Qed.

Lemma nth_poke h a k v b : a < length h -> nth b (poke h a k v) [] = if b =? a then set (nth a h []) k v else nth b h [].
Proof. intros H. unfold poke. apply nth_set. exact H. Qed.

(** reading a window of an array after one of its cells changed *)
Lemma window_set (l : list byte) k v off len : k < length l ->
  firstn len (skipn off (set l k v)) = if (off <=? k) && (k <? off + len) then set (firstn len (skipn off l)) (k - off) v else firstn len (skipn off l).
Proof.
  intros Hk. assert (L : length (set l k v) = length l) by (apply set_length, Hk).
  destruct ((off <=? k) && (k <? off + len))%bool eqn:C.
  - apply andb_true_iff in C as (C1 & C2). apply Nat.leb_le in C1. apply Nat.ltb_lt in C2.
    assert (Hw : k - off < length (firstn len (skipn off l))) by (rewrite firstn_length, skipn_length; lia).
    apply nth_ext with x00 x00; [rewrite set_length by exact Hw; rewrite !firstn_length, !skipn_length, L; reflexivity|].
    intros i Hi. rewrite firstn_length, skipn_length, L in Hi. rewrite nth_set by exact Hw. rewrite !nth_firstn by lia. rewrite !nth_skipn. rewrite nth_set by exact Hk.
    destruct (Nat.eqb_spec (off + i) k), (Nat.eqb_spec i (k - off)); try lia; reflexivity.
  - apply nth_ext with x00 x00; [rewrite !firstn_length, !skipn_length, L; reflexivity|].
    intros i Hi. rewrite firstn_length, skipn_length, L in Hi. rewrite !nth_firstn by lia. rewrite !nth_skipn, nth_set by exact Hk.
    destruct (Nat.eqb_spec (off + i) k); [|reflexivity]. exfalso. apply andb_false_iff in C as [C|C]; [apply Nat.leb_gt in C|apply Nat.ltb_ge in C]; lia.
Qed.

Lemma contents_alloc_old h d s : sl_arr s < length h -> contents (h ++ [d]) s = contents h s.
Proof. intros H. unfold contents. rewrite app_nth1 by exact H. reflexivity. Qed.

Definition apart (s o : gslice) : Prop :=
  sl_arr s <> sl_arr o \/ sl_off s + sl_cap s <= sl_off o \/ sl_off o + sl_len o <= sl_off s.

Lemma contents_poke h s o k v : wf h s -> apart s o -> k < sl_cap s -> contents (poke h (sl_arr s) (sl_off s + k) v) o = contents h o.
Proof.
  intros (W1 & W2 & W3) A Hk. unfold contents. rewrite nth_poke by exact W1. destruct (Nat.eqb_spec (sl_arr o) (sl_arr s)) as [E|N]; [|reflexivity].
  rewrite window_set by lia. rewrite E.
  replace ((sl_off o <=? sl_off s + k) && (sl_off s + k <? sl_off o + sl_len o))%bool with false; [reflexivity|].
  symmetry. apply andb_false_iff. unfold apart in A. destruct A as [A|[A|A]]; [congruence| |].
  - left. apply Nat.leb_gt. lia.
  - right. apply Nat.ltb_ge. lia.
Qed.

Lemma wf_poke h s k v : wf h s -> k < sl_cap s -> wf (poke h (sl_arr s) (sl_off s + k) v) s.
Proof.
  intros (W1 & W2 & W3) Hk. unfold wf. rewrite poke_length by exact W1. rewrite nth_poke by exact W1. rewrite Nat.eqb_refl, set_length by lia. repeat split; assumption.
Qed.

Lemma useStep_ok h s o op : wf h s -> sl_arr o < length h -> apart s o ->
  let (h', s') := useStep (h, s) op in wf h' s' /\ sl_arr o < length h' /\ apart s' o /\ contents h' o = contents h o.
Proof.
  intros W Ho A. pose proof W as (W1 & W2 & W3). destruct op as [i v|extra v]; cbn [useStep].
  - unfold store. destruct (Nat.ltb_spec i (sl_len s)) as [Hi|Hi]; [|repeat split; assumption].
    split; [apply wf_poke; [exact W|lia]|]. split; [rewrite poke_length; assumption|]. split; [exact A|]. apply contents_poke; [exact W|exact A|lia].
  - unfold append1. destruct (Nat.ltb_spec (sl_len s) (sl_cap s)) as [Hc|Hc].
    + split; [|split; [rewrite poke_length; assumption|split; [exact A|apply contents_poke; assumption]]].
      destruct (wf_poke h s (sl_len s) v W Hc) as (P1 & P2 & P3). unfold wf. cbn [sl_arr sl_len sl_cap sl_off]. repeat split; try assumption; lia.
    + split; [|split; [rewrite app_length; cbn; lia|split; [left; cbn; lia|apply contents_alloc_old, Ho]]].
      unfold wf. cbn [sl_arr sl_len sl_cap sl_off]. rewrite app_length. cbn [length]. repeat split; try lia.
      rewrite app_nth2 by lia. rewrite Nat.sub_diag. cbn [nth]. rewrite app_length. cbn [length]. unfold contents. rewrite zeros_length, firstn_length, skipn_length. lia.
Qed.

Lemma use_apart ops : forall h s o, wf h s -> sl_arr o < length h -> apart s o -> contents (fst (use h s ops)) o = contents h o.
Proof.
  unfold use. induction ops as [|op ops IH]; intros h s o W Ho A; [reflexivity|]. cbn [fold_left].
  pose proof (useStep_ok h s o op W Ho A) as Q. destruct (useStep (h, s) op) as [h' s']. destruct Q as (W' & Ho' & A' & C).
  rewrite IH by assumption. exact C.
Qed.

(** ** the three layouts *)
Lemma length_concat_uniform w (l : list (list byte)) : (forall s, In s l -> length s = w) -> length (concat l) = w * length l.
Proof.
  induction l as [|s l IH]; intros H; cbn; [lia|]. rewrite app_length, IH by (intros; apply H; right; assumption). rewrite (H s) by (left; reflexivity). lia.
Qed.

Lemma concat_window w (l : list (list byte)) : (forall s, In s l -> length s = w) -> forall i, i < length l -> firstn w (skipn (w * i) (concat l)) = nth i l [].
Proof.
  induction l as [|s l IH]; intros H i Hi; cbn [length] in Hi; [lia|]. cbn [concat].
  assert (Hs : length s = w) by (apply H; left; reflexivity).
  destruct i as [|i].
  - rewrite Nat.mul_0_r. cbn [skipn nth]. rewrite firstn_app, Hs, Nat.sub_diag, firstn_O, app_nil_r. apply firstn_all2. lia.
  - cbn [nth]. rewrite skipn_app, skipn_all2 by nia. cbn [app]. rewrite Hs. replace (w * S i - w) with (w * i) by nia.
    apply IH; [intros; apply H; right; assumption|lia].
Qed.

Definition winSlice (a w cap i : nat) : gslice := {| sl_arr := a; sl_off := w * i; sl_len := w; sl_cap := cap |}.

Lemma foreach_collect {A} (f : nat -> outcome A) (g : nat -> A) k : forall a out, (forall i, a <= i < a + k -> f i = Ret (g i)) ->
  foreach (seq a k) (fun i out => do w <- f i; Ret (out ++ [w])) out = Ret (out ++ map g (seq a k)).
Proof.
  induction k as [|k IH]; intros a out H; cbn [seq foreach map]; [rewrite app_nil_r; reflexivity|].
  rewrite (H a) by lia. cbn [bind]. rewrite IH by (intros; apply H; lia). rewrite <- app_assoc. reflexivity.
Qed.

Lemma flatMem_ok h N shares : (forall s, In s shares -> length s = N + 1) ->
  flatMem h N shares = Ret (h ++ [concat shares], map (fun i => winSlice (length h) (N + 1) ((N + 1) * length shares - (N + 1) * i) i) (seq 0 (length shares))).
Proof.
  intros H. unfold flatMem, alloc. cbv zeta.
  rewrite (foreach_collect (fun idx => reslice _ ((N + 1) * idx) ((N + 1) * idx + N + 1)) (fun i => winSlice (length h) (N + 1) ((N + 1) * length shares - (N + 1) * i) i)); [reflexivity|].
  intros i Hi. unfold reslice. cbn [sl_arr sl_off sl_len sl_cap]. rewrite (length_concat_uniform (N + 1)) by exact H.
  destruct (Nat.leb_spec ((N + 1) * i) ((N + 1) * i + N + 1)); [|lia]. destruct (Nat.leb_spec ((N + 1) * i + N + 1) ((N + 1) * length shares)); [|nia].
  cbn [andb]. unfold winSlice. do 2 f_equal; lia.
Qed.

Lemma matrixMem_ok h c shares : (forall s, In s shares -> length s = c) ->
  matrixMem h c shares = Ret (h ++ [concat shares], map (fun i => winSlice (length h) c c i) (seq 0 (length shares))).
Proof.
  intros H. unfold matrixMem, alloc.
  set (A := {| sl_arr := length h; sl_off := 0; sl_len := length (concat shares); sl_cap := length (concat shares) |}).
  assert (R3 : forall a, a < length shares -> reslice3 A (c * a) (c * a + c) (c * a + c) = Ret (winSlice (length h) c c a)).
  { intros a Ha. unfold reslice3, A. cbn [sl_arr sl_off sl_len sl_cap]. rewrite (length_concat_uniform c) by exact H.
    destruct (Nat.leb_spec (c * a) (c * a + c)); [|lia]. rewrite Nat.leb_refl. destruct (Nat.leb_spec (c * a + c) (c * length shares)); [|nia]. cbn [andb].
    unfold winSlice. do 2 f_equal; lia. }
  assert (Q : forall k a out, a + k = length shares ->
    foreach (seq a k) (fun (_ : nat) '(lo, hi, out) => do w <- reslice3 A lo hi hi; Ret (hi, hi + c, out ++ [w])) (c * a, c * a + c, out)
    = Ret (c * (a + k), c * (a + k) + c, out ++ map (fun i => winSlice (length h) c c i) (seq a k))).
  { induction k as [|k IH]; intros a out Hk; cbn [seq foreach map]; [rewrite app_nil_r, Nat.add_0_r; reflexivity|].
    rewrite R3 by lia. cbn [bind].
    specialize (IH (S a) (out ++ [winSlice (length h) c c a]) ltac:(lia)). replace (c * S a) with (c * a + c) in IH by lia.
    rewrite IH. rewrite <- app_assoc. cbn [app]. replace (a + S k) with (S a + k) by lia. reflexivity. }
  specialize (Q (length shares) 0 [] eq_refl). rewrite Nat.mul_0_r in Q. cbn [Nat.add] in Q. rewrite Q. reflexivity.
Qed.

Definition rowSlice (a : nat) (s : list byte) : gslice := {| sl_arr := a; sl_off := 0; sl_len := length s; sl_cap := length s |}.

Lemma rowsMem_ok shares : forall h out,
  foreach shares (fun share '(h, out) => let (h1, s) := alloc h share in Ret (h1, out ++ [s])) (h, out)
  = Ret (h ++ shares, out ++ map (fun i => rowSlice (length h + i) (nth i shares [])) (seq 0 (length shares))).
Proof.
  induction shares as [|s shares IH]; intros h out; cbn [foreach length seq map]; [rewrite !app_nil_r; reflexivity|].
  cbn [alloc bind]. rewrite IH. rewrite <- !app_assoc. cbn [app]. do 4 f_equal; [unfold rowSlice; f_equal; lia|].
  rewrite <- seq_shift, map_map. apply map_ext. intros i. cbn [nth]. f_equal. rewrite app_length. cbn [length]. lia.
Qed.

Lemma set0 {A} (l : list A) (v : A) : l <> [] -> set l 0 v = v :: skipn 1 l.
Proof. reflexivity. Qed.

Lemma flat_clobbers h N shares h' slices : (forall s, In s shares -> length s = N + 1) ->
  flatMem h N shares = Ret (h', slices) -> append_clobbers h h' slices shares.
Proof.
  intros U R. rewrite flatMem_ok in R by exact U. injection R as <- <-.
  set (n := length shares). set (w := N + 1). set (sl := fun i => winSlice (length h) w (w * n - w * i) i).
  change (append_clobbers h (h ++ [concat shares]) (map sl (seq 0 n)) shares).
  assert (Hw : 0 < w) by (unfold w; lia).
  assert (LC : length (concat shares) = w * n) by (apply length_concat_uniform, U).
  assert (C : forall i, i < n -> contents (h ++ [concat shares]) (sl i) = nth i shares []).
  { intros i Hi. unfold contents, sl, winSlice. cbn [sl_arr sl_off sl_len]. rewrite app_nth2, Nat.sub_diag by lia. cbn [nth]. apply concat_window; assumption. }
  assert (Ls : length (map sl (seq 0 n)) = n) by (rewrite map_length, seq_length; reflexivity).
  assert (Nt : forall i, i < n -> nth i (map sl (seq 0 n)) nilSlice = sl i) by (intros i Hi; apply nth_map_seq; exact Hi).
  split; [split|split; [|split]].
  - rewrite map_map. transitivity (map (fun i => nth i shares []) (seq 0 n)); [|symmetry; apply list_as_map].
    apply map_ext_in. intros i Hi. apply in_seq in Hi. apply C. lia.
  - rewrite firstn_app, Nat.sub_diag, firstn_O, app_nil_r. apply firstn_all.
  - rewrite Ls. intros i extra v Hi. rewrite Nt by lia. unfold append1. unfold sl at 1 2. unfold winSlice. cbn [sl_len sl_cap].
    assert (Hm : w * (i + 2) <= w * n) by (apply Nat.mul_le_mono_l; lia). rewrite Nat.mul_add_distr_l in Hm.
    destruct (Nat.ltb_spec w (w * n - w * i)) as [_|X]; [|lia]. unfold sl at 1 2 3 4 5. unfold winSlice. cbn [sl_arr sl_off sl_len sl_cap].
    set (k := w * i + w). assert (Hk : k < length (concat shares)) by (unfold k; nia).
    assert (W : forall off len, firstn len (skipn off (nth (length h) (poke (h ++ [concat shares]) (length h) k v) [])) =
      if (off <=? k) && (k <? off + len) then set (firstn len (skipn off (concat shares))) (k - off) v else firstn len (skipn off (concat shares))).
    { intros off len. rewrite nth_poke by (rewrite app_length; cbn; lia). rewrite Nat.eqb_refl, app_nth2, Nat.sub_diag by lia. cbn [nth]. apply window_set, Hk. }
    split; [|split].
    + unfold contents. cbn [sl_arr sl_off sl_len]. change (sl_len (sl i)) with w. rewrite W.
      destruct (Nat.leb_spec (w * i) k) as [_|X]; [|unfold k in X; lia]. destruct (Nat.ltb_spec k (w * i + S w)) as [_|X]; [|unfold k in X; lia]. cbn [andb].
      replace (k - w * i) with w by (unfold k; lia). rewrite <- (concat_window w shares U i) by lia.
      unfold set. rewrite firstn_firstn, (Nat.min_l w (S w)) by (clear; lia). f_equal. f_equal. apply skipn_all2. rewrite firstn_length. lia.
    + rewrite Nt by lia. unfold contents, sl, winSlice. cbn [sl_arr sl_off sl_len]. rewrite W.
      destruct (Nat.leb_spec (w * S i) k) as [_|X]; [|unfold k in X; lia]. destruct (Nat.ltb_spec k (w * S i + w)) as [_|X]; [|unfold k in X; unfold w in *; lia]. cbn [andb].
      rewrite concat_window by (try assumption; lia). replace (k - w * S i) with 0 by (unfold k; lia). reflexivity.
    + intros j Hj Hne. rewrite Nt by lia. rewrite <- (C j Hj) at 1. unfold contents, sl, winSlice. cbn [sl_arr sl_off sl_len]. rewrite W.
      replace ((w * j <=? k) && (k <? w * j + w))%bool with false; [rewrite app_nth2, Nat.sub_diag by lia; reflexivity|].
      symmetry. apply andb_false_iff. destruct (Nat.lt_ge_cases j (S i)); [right; apply Nat.ltb_ge|left; apply Nat.leb_gt]; unfold k; clearbody w; nia.
  - rewrite Ls. intros i extra v Hi. rewrite Nt by lia. unfold append1.
    assert (Hc : sl_cap (sl i) = sl_len (sl i)) by (unfold sl, winSlice; cbn [sl_len sl_cap]; rewrite <- Hi; clearbody w; nia).
    rewrite Hc, Nat.ltb_irrefl. split.
    + unfold contents at 1. cbn [sl_arr sl_off sl_len skipn]. rewrite app_nth2, Nat.sub_diag by lia. cbn [nth]. rewrite C by lia.
      replace (sl_len (sl i)) with (length (nth i shares [])) by (unfold sl, winSlice; cbn [sl_len]; apply U, nth_In; fold n; lia).
      replace (S (length (nth i shares []))) with (length (nth i shares [] ++ [v])) by (rewrite app_length; cbn [length]; lia).
      change (v :: zeros extra) with ([v] ++ zeros extra). rewrite app_assoc, firstn_app, Nat.sub_diag, firstn_O, app_nil_r. apply firstn_all.
    + intros j Hj. rewrite Nt by lia. rewrite contents_alloc_old; [apply C, Hj|]. unfold sl, winSlice. cbn [sl_arr]. rewrite app_length. cbn. lia.
  - rewrite Ls. intros i k v h'' Hi. rewrite Nt by lia. intros St j Hj Hne. rewrite Nt by lia. unfold store in St.
    destruct (Nat.ltb_spec k (sl_len (sl i))) as [Hk|]; [injection St as <-|discriminate].
    unfold sl, winSlice in Hk. cbn [sl_len] in Hk.
    rewrite <- (C j Hj). unfold sl, winSlice, contents. cbn [sl_arr sl_off sl_len].
    rewrite nth_poke by (rewrite app_length; cbn; lia). rewrite Nat.eqb_refl, app_nth2, Nat.sub_diag by lia. cbn [nth].
    rewrite window_set by (rewrite LC; clearbody w; nia).
    replace ((w * j <=? w * i + k) && (w * i + k <? w * j + w))%bool with false; [reflexivity|].
    symmetry. apply andb_false_iff. destruct (Nat.lt_ge_cases j i); [right; apply Nat.ltb_ge|left; apply Nat.leb_gt]; clearbody w; nia.
Qed.

Lemma matrix_independent h c shares h' slices : (forall s, In s shares -> length s = c) ->
  matrixMem h c shares = Ret (h', slices) -> independent h h' slices shares.
Proof.
  intros U R. rewrite matrixMem_ok in R by exact U. injection R as <- <-.
  set (n := length shares). set (sl := fun i => winSlice (length h) c c i).
  change (independent h (h ++ [concat shares]) (map sl (seq 0 n)) shares).
  assert (LC : length (concat shares) = c * n) by (apply length_concat_uniform, U).
  assert (C : forall i, i < n -> contents (h ++ [concat shares]) (sl i) = nth i shares []).
  { intros i Hi. unfold contents, sl, winSlice. cbn [sl_arr sl_off sl_len]. rewrite app_nth2, Nat.sub_diag by lia. cbn [nth]. apply concat_window; assumption. }
  assert (Ls : length (map sl (seq 0 n)) = n) by (rewrite map_length, seq_length; reflexivity).
  assert (Nt : forall i, i < n -> nth i (map sl (seq 0 n)) nilSlice = sl i) by (intros i Hi; apply nth_map_seq; exact Hi).
  split; [split|].
  - rewrite map_map. transitivity (map (fun i => nth i shares []) (seq 0 n)); [|symmetry; apply list_as_map].
    apply map_ext_in. intros i Hi. apply in_seq in Hi. apply C. lia.
  - rewrite firstn_app, Nat.sub_diag, firstn_O, app_nil_r. apply firstn_all.
  - rewrite Ls. intros i j ops Hi Hj Hne. rewrite !Nt by assumption. rewrite use_apart; [apply C, Hj| | |].
    + unfold wf, sl, winSlice. cbn [sl_arr sl_off sl_len sl_cap]. rewrite app_length. cbn [length]. split; [lia|]. split; [lia|].
      rewrite app_nth2, Nat.sub_diag by lia. cbn [nth]. nia.
    + unfold sl, winSlice. cbn [sl_arr]. rewrite app_length. cbn. lia.
    + right. unfold sl, winSlice. cbn [sl_off sl_len sl_cap]. nia.
Qed.

Lemma rows_independent h shares h' slices : rowsMem h shares = Ret (h', slices) -> independent h h' slices shares.
Proof.
  intros R. unfold rowsMem in R. rewrite rowsMem_ok in R. injection R as <- <-. cbn [app].
  set (n := length shares). set (sl := fun i => rowSlice (length h + i) (nth i shares [])).
  change (independent h (h ++ shares) (map sl (seq 0 n)) shares).
  assert (C : forall i, i < n -> contents (h ++ shares) (sl i) = nth i shares []).
  { intros i Hi. unfold contents, sl, rowSlice. cbn [sl_arr sl_off sl_len]. rewrite app_nth2 by lia. replace (length h + i - length h) with i by lia.
    cbn [skipn]. apply firstn_all2. lia. }
  assert (Ls : length (map sl (seq 0 n)) = n) by (rewrite map_length, seq_length; reflexivity).
  assert (Nt : forall i, i < n -> nth i (map sl (seq 0 n)) nilSlice = sl i) by (intros i Hi; apply nth_map_seq; exact Hi).
  split; [split|].
  - rewrite map_map. transitivity (map (fun i => nth i shares []) (seq 0 n)); [|symmetry; apply list_as_map].
    apply map_ext_in. intros i Hi. apply in_seq in Hi. apply C. lia.
  - rewrite firstn_app, Nat.sub_diag, firstn_O, app_nil_r. apply firstn_all.
  - rewrite Ls. intros i j ops Hi Hj Hne. rewrite !Nt by assumption. rewrite use_apart; [apply C, Hj| | |].
    + unfold wf, sl, rowSlice. cbn [sl_arr sl_off sl_len sl_cap]. rewrite app_length. split; [lia|]. split; [lia|].
      rewrite app_nth2 by lia. replace (length h + i - length h) with i by lia. lia.
    + unfold sl, rowSlice. cbn [sl_arr]. rewrite app_length. lia.
    + left. unfold sl, rowSlice. cbn [sl_arr]. lia.
Qed.

Lemma flat_ok h N shares : (forall s, In s shares -> length s = N + 1) ->
  exists h' slices, flatMem h N shares = Ret (h', slices) /\ append_clobbers h h' slices shares.
Proof.
  intros U. destruct (flatMem h N shares) as [[h' slices]|e|p| |] eqn:F; try (rewrite flatMem_ok in F by exact U; discriminate).
  exists h', slices. split; [reflexivity|]. exact (flat_clobbers h N shares h' slices U F).
Qed.

Lemma matrix_ok h c shares : (forall s, In s shares -> length s = c) ->
  exists h' slices, matrixMem h c shares = Ret (h', slices) /\ independent h h' slices shares.
Proof.
  intros U. destruct (matrixMem h c shares) as [[h' slices]|e|p| |] eqn:F; try (rewrite matrixMem_ok in F by exact U; discriminate).
  exists h', slices. split; [reflexivity|]. exact (matrix_independent h c shares h' slices U F).
Qed.

Lemma rows_ok h shares : exists h' slices, rowsMem h shares = Ret (h', slices) /\ independent h h' slices shares.
Proof.
  destruct (rowsMem h shares) as [[h' slices]|e|p| |] eqn:F; try (unfold rowsMem in F; rewrite rowsMem_ok in F; discriminate).
  exists h', slices. split; [reflexivity|]. exact (rows_independent h shares h' slices F).
Qed.

(** C46. When Split returns shares, they are adjacent windows of one array: appending to share i (not the last) overwrites the first byte
    of share i+1 and nothing else; appending to the last share, and stores into a share, change no other share. *)
Lemma C46_split_append_pf : forall ar growcap perm stream polB trB evBufs h secret parts threshold shares,
  grow_ok growcap -> Permutation perm (seq 0 255) ->
  Split ar growcap perm stream polB trB evBufs secret parts threshold = Ret shares ->
  exists h' slices, SplitMem ar growcap perm stream polB trB evBufs h secret parts threshold = Ret (h', slices) /\
    append_clobbers h h' slices shares.
Proof.
  intros ar growcap perm stream polB trB evBufs h secret parts threshold shares G P R.
  destruct (C02_split_shape_pf _ _ _ _ _ _ _ _ _ _ _ G P R) as (_ & U & _).
  unfold SplitMem. rewrite R. cbn [bind]. apply flat_ok, U.
Qed.

Lemma C46_randomizer_append_pf : forall fuel ar growcap ks polB trB evBufs h secret parts threshold shares,
  grow_ok growcap ->
  SplitWithRandomizer fuel ar growcap ks polB trB evBufs secret parts threshold = Ret shares ->
  exists h' slices, SplitWithRandomizerMem fuel ar growcap ks polB trB evBufs h secret parts threshold = Ret (h', slices) /\
    append_clobbers h h' slices shares.
Proof.
  intros fuel ar growcap ks polB trB evBufs h secret parts threshold shares G R.
  destruct (C18_randomizer_combine_pf _ _ _ _ _ _ _ _ _ _ _ G R) as (_ & _ & U & _).
  unfold SplitWithRandomizerMem. rewrite R. cbn [bind]. apply flat_ok, U.
Qed.

Lemma C46_randomizerold_append_pf : forall ar growcap ks evBufs h secret parts threshold shares,
  grow_ok growcap ->
  SplitWithRandomizerOld ar growcap ks evBufs secret parts threshold = Ret shares ->
  exists h' slices, SplitWithRandomizerOldMem ar growcap ks evBufs h secret parts threshold = Ret (h', slices) /\
    append_clobbers h h' slices shares.
Proof.
  intros ar growcap ks evBufs h secret parts threshold shares G R.
  destruct (C18_randomizerold_combine_pf _ _ _ _ _ _ _ _ G R) as (_ & _ & U & _).
  unfold SplitWithRandomizerOldMem. rewrite R. cbn [bind]. apply flat_ok, U.
Qed.

(** C46. The shares returned by SplitGeneric, SplitP, krawczyk.Split and krawczyk.SplitWithRandomizer are independent: no sequence of stores
    and appends on one of them changes another. *)
Lemma C46_generic_independent_pf : forall perm stream h secret parts threshold shares,
  SplitGeneric perm stream secret parts threshold = Ret shares ->
  exists h' slices, SplitGenericMem perm stream h secret parts threshold = Ret (h', slices) /\ independent h h' slices shares.
Proof. intros perm stream h secret parts threshold shares R. unfold SplitGenericMem. rewrite R. cbn [bind]. apply rows_ok. Qed.

Lemma C46_splitp_independent_pf : forall perm stream h secret parts threshold sched shares,
  SplitP perm stream secret parts threshold sched (Ret shares) ->
  exists h' slices, SplitPMem perm stream h secret parts threshold sched (Ret (h', slices)) /\ independent h h' slices shares.
Proof.
  intros perm stream h secret parts threshold sched shares R. destruct (rows_ok h shares) as (h' & slices & F & I).
  exists h', slices. split; [|exact I]. rewrite <- F. change (rowsMem h shares) with (do s <- Ret shares; rowsMem h s). constructor. exact R.
Qed.

Lemma C46_kr_independent_pf : forall E zp ar growcap krand perm stream polB trB evBufs h secret parts threshold shares,
  grow_ok growcap -> Permutation perm (seq 0 255) ->
  krSplit E zp ar growcap krand perm stream polB trB evBufs secret parts threshold = Ret shares ->
  exists h' slices, krSplitMem E zp ar growcap krand perm stream polB trB evBufs h secret parts threshold = Ret (h', slices) /\
    independent h h' slices shares.
Proof.
  intros E zp ar growcap krand perm stream polB trB evBufs h secret parts threshold shares G P R.
  destruct (C33_shape_pf _ _ _ _ _ _ _ _ _ _ _ _ _ _ G P R) as (L & U & _).
  unfold krSplitMem. rewrite R. cbn [bind]. apply matrix_ok. intros s Hs. apply In_nth with (d := []) in Hs as (i & Hi & <-).
  rewrite L in Hi. destruct (U i Hi) as (Ui & _). destruct (U 0 ltac:(lia)) as (U0 & _). rewrite Ui, U0. reflexivity.
Qed.

Lemma C46_kr_randomizer_independent_pf : forall fuel E zp ar growcap ks polB trB evBufs h secret parts threshold shares,
  grow_ok growcap ->
  krSplitWithRandomizer fuel E zp ar growcap ks polB trB evBufs secret parts threshold = Ret shares ->
  exists h' slices, krSplitWithRandomizerMem fuel E zp ar growcap ks polB trB evBufs h secret parts threshold = Ret (h', slices) /\
    independent h h' slices shares.
Proof.
  intros fuel E zp ar growcap ks polB trB evBufs h secret parts threshold shares G R.
  destruct (C40_shape_pf _ _ _ _ _ _ _ _ _ _ _ _ _ G R) as (L & U & _).
  unfold krSplitWithRandomizerMem. rewrite R. cbn [bind]. apply matrix_ok. intros s Hs. apply In_nth with (d := []) in Hs as (i & Hi & <-).
  rewrite L in Hi. destruct (U i Hi) as (Ui & _). destruct (U 0 ltac:(lia)) as (U0 & _). rewrite Ui, U0. reflexivity.
Qed.

(*COPY
(** C46, non-vacuity: five shares of "hello"; appending 0xff to the first one changes the first byte of the second. *)
Example C46_example :
  match SplitMem ex_ar growcap117 ex_perm ex_stream ex_stale ex_stale ex_ev [] ex_secret 5 3 with
  | Ret (h', slices) =>
    length slices = 5 /\
    let before := contents h' (nth 1 slices nilSlice) in
    let after := contents (fst (append1 8 h' (nth 0 slices nilSlice) xff)) (nth 1 slices nilSlice) in
    hd x00 before <> xff /\ after = xff :: tl before
  | _ => False
  end.
Proof. vm_compute. repeat split. discriminate. Qed.
Example C46_example_generic :
  match SplitGenericMem ex_perm ex_stream [] ex_secret 5 3 with
  | Ret (h', slices) => length slices = 5 /\
    contents (fst (append1 8 h' (nth 0 slices nilSlice) xff)) (nth 1 slices nilSlice) = contents h' (nth 1 slices nilSlice)
  | _ => False
  end.
Proof. vm_compute. repeat split. Qed.
END*)

(** ** C47 *)
Lemma contents_length h s : wf h s -> length (contents h s) = sl_len s.
Proof. intros (_ & A & B). unfold contents. rewrite firstn_length, skipn_length. lia. Qed.

(** C47. Fewer than 16 bytes: panic. *)
Lemma C47_short_panics_pf : forall h keyIv, sl_len keyIv < 16 -> NewCSPRNGWithKeyIV h keyIv = Panic PSlice.
Proof.
  intros h keyIv H. unfold NewCSPRNGWithKeyIV, reslice. destruct ((0 <=? 16) && (16 <=? sl_cap keyIv))%bool; cbn [bind]; [|reflexivity].
  rewrite (proj2 (Nat.leb_gt 16 (sl_len keyIv))) by exact H. reflexivity.
Qed.

Lemma new32 h s : wf h s -> sl_len s = 32 -> exists r, NewCSPRNGWithKeyIV h s = Ret r /\ c_key r = firstn 16 (contents h s) /\
  sl_len (c_iv r) = 16 /\ forall h', contents h' (c_iv r) = skipn 16 (contents h' s).
Proof.
  intros (W1 & W2 & W3) L. unfold NewCSPRNGWithKeyIV, reslice. rewrite L.
  rewrite (proj2 (Nat.leb_le 16 (sl_cap s))), (proj2 (Nat.leb_le 32 (sl_cap s))), (proj2 (Nat.leb_le 0 16)), (proj2 (Nat.leb_le 16 32)) by lia. cbn [andb bind].
  eexists. split; [reflexivity|]. cbn [c_key c_iv sl_len]. split; [|split; [reflexivity|]].
  - unfold contents. cbn [sl_arr sl_off sl_len]. rewrite L, Nat.sub_0_r, Nat.add_0_r. rewrite firstn_firstn. reflexivity.
  - intros h'. unfold contents. cbn [sl_arr sl_off sl_len]. rewrite L. rewrite skipn_firstn_comm. f_equal. apply nth_ext with x00 x00; [rewrite !skipn_length; lia|]. intros j _. rewrite !nth_skipn. f_equal. lia.
Qed.

(** C47. With 32 bytes, every later Read is AES-CTR (block cipher [E]) with key = the first 16 bytes at construction time and initial counter =
    the last 16 bytes of the caller's slice at the time of the Read. *)
Lemma C47_reads_iv_later_pf : forall E h keyIv, wf h keyIv -> sl_len keyIv = 32 ->
  exists r, NewCSPRNGWithKeyIV h keyIv = Ret r /\
    forall h' buff, csprngRead E h' r buff = Ret (Read (ctrStream E (firstn 16 (contents h keyIv)) (skipn 16 (contents h' keyIv))) buff).
Proof.
  intros E h s W L. destruct (new32 h s W L) as (r & N & K & V & I). exists r. split; [exact N|].
  intros h' buff. unfold csprngRead. rewrite V, Nat.eqb_refl, K, I. reflexivity.
Qed.

Lemma store_contents h s i v h' : wf h s -> store h s i v = Ret h' -> i < sl_len s /\ contents h' s = set (contents h s) i v.
Proof.
  intros (W1 & W2 & W3) St. unfold store in St. destruct (Nat.ltb_spec i (sl_len s)) as [Hi|]; [injection St as <-|discriminate]. split; [exact Hi|].
  unfold contents. rewrite nth_poke by exact W1. rewrite Nat.eqb_refl, window_set by lia.
  rewrite (proj2 (Nat.leb_le (sl_off s) (sl_off s + i))), (proj2 (Nat.ltb_lt (sl_off s + i) (sl_off s + sl_len s))) by lia. cbn [andb]. f_equal. lia.
Qed.

Lemma skipn_set {A} (l : list A) i v k : i < length l -> skipn k (set l i v) = if i <? k then skipn k l else set (skipn k l) (i - k) v.
Proof.
  intros Hi. assert (L : length (set l i v) = length l) by (apply set_length, Hi).
  destruct (Nat.ltb_spec i k) as [H|H].
  - apply nth_ext with v v; [rewrite !skipn_length, L; reflexivity|]. intros j Hj. rewrite !nth_skipn, nth_set by exact Hi.
    destruct (Nat.eqb_spec (k + j) i); [lia|reflexivity].
  - apply nth_ext with v v; [rewrite set_length by (rewrite skipn_length; lia); rewrite !skipn_length, L; reflexivity|].
    intros j Hj. rewrite skipn_length, L in Hj. rewrite nth_set by (rewrite skipn_length; lia). rewrite !nth_skipn, nth_set by exact Hi.
    destruct (Nat.eqb_spec (k + j) i), (Nat.eqb_spec j (i - k)); try lia; reflexivity.
Qed.

(** C47. Storing to the key half of the slice after construction changes nothing; storing [v] to byte [16+i] replaces byte [i] of the initial counter
    used by all later Reads. *)
Lemma C47_later_stores_pf : forall E h keyIv r i v h', wf h keyIv -> sl_len keyIv = 32 -> NewCSPRNGWithKeyIV h keyIv = Ret r ->
  store h keyIv i v = Ret h' ->
  (i < 16 -> forall buff, csprngRead E h' r buff = csprngRead E h r buff) /\
  (16 <= i -> forall buff, csprngRead E h' r buff =
    Ret (Read (ctrStream E (firstn 16 (contents h keyIv)) (set (skipn 16 (contents h keyIv)) (i - 16) v)) buff)).
Proof.
  intros E h s r i v h' W L N St. destruct (C47_reads_iv_later_pf E h s W L) as (r' & N' & R). rewrite N in N'. injection N' as <-.
  destruct (store_contents _ _ _ _ _ W St) as (Hi & C). pose proof (contents_length h s W) as CL. rewrite L in CL, Hi.
  split; intros H buff; rewrite !R, C, skipn_set by lia.
  - rewrite (proj2 (Nat.ltb_lt i 16)) by exact H. reflexivity.
  - rewrite (proj2 (Nat.ltb_ge i 16)) by exact H. reflexivity.
Qed.

Lemma Read_zeros_nth ks n i : i < n -> nth i (Read ks (zeros n)) x00 = ks i.
Proof.
  intros H. unfold Read. assert (Q : forall n off i, i < n -> nth i (xorStreamFrom ks off (zeros n)) x00 = ks (off + i)).
  { clear. induction n as [|n IH]; intros off i H; [lia|]. change (zeros (S n)) with (x00 :: zeros n). cbn [xorStreamFrom]. destruct i as [|i].
    - cbn [nth]. rewrite Nat.add_0_r, <- gadd_bxor. apply gadd_0_l.
    - cbn [nth]. rewrite IH by lia. f_equal. lia. }
  apply (Q n 0 i H).
Qed.

Lemma ctr_iv_inj E key iv iv' : length iv = 16 -> length iv' = 16 ->
  (forall a b, length a = 16 -> length b = 16 -> E key a = E key b -> a = b) -> (forall a, length (E key a) = 16) ->
  Read (ctrStream E key iv) (zeros 16) = Read (ctrStream E key iv') (zeros 16) -> iv = iv'.
Proof.
  intros L L' I EL Q.
  assert (S0 : forall v, length v = 16 -> forall i, i < 16 -> nth i (Read (ctrStream E key v) (zeros 16)) x00 = nth i (E key v) x00).
  { intros v Hv i Hi. rewrite Read_zeros_nth by exact Hi. unfold ctrStream. rewrite Nat.mod_small, Nat.div_small by exact Hi.
    cbn [N.of_nat]. rewrite N.add_0_r. rewrite <- Hv at 1. rewrite be_bytes_num. reflexivity. }
  apply I; [exact L|exact L'|]. apply nth_ext with x00 x00; [rewrite !EL; reflexivity|]. rewrite EL. intros i Hi.
  rewrite <- (S0 iv L i Hi), <- (S0 iv' L' i Hi), Q. reflexivity.
Qed.

(** C47. With AES as the cipher: overwriting a byte of the IV half with a different value always changes what the generator outputs
    (already its first 16 bytes, for every key and IV). *)
Lemma C47_iv_store_changes_output_pf : forall h keyIv r i v h', wf h keyIv -> sl_len keyIv = 32 -> NewCSPRNGWithKeyIV h keyIv = Ret r ->
  16 <= i < 32 -> v <> nth i (contents h keyIv) x00 -> store h keyIv i v = Ret h' ->
  csprngRead AES h' r (zeros 16) <> csprngRead AES h r (zeros 16).
Proof.
  intros h s r i v h' W L N Hi Hv St Q. destruct (C47_later_stores_pf AES h s r i v h' W L N St) as (_ & C). rewrite C in Q by lia. clear C.
  destruct (C47_reads_iv_later_pf AES h s W L) as (r' & N' & R). rewrite N in N'. injection N' as <-. rewrite R in Q.
  assert (RI : forall (A : Type) (a b : A), Ret a = Ret b -> a = b) by (intros A a b X; injection X; auto). apply RI in Q.
  pose proof (contents_length h s W) as CL. rewrite L in CL.
  assert (LI : length (skipn 16 (contents h s)) = 16) by (rewrite skipn_length, CL; reflexivity).
  assert (KO : aesKeyOk (firstn 16 (contents h s)) = true) by (unfold aesKeyOk; rewrite firstn_length, CL; reflexivity).
  apply ctr_iv_inj in Q.
  - assert (X : nth (i - 16) (set (skipn 16 (contents h s)) (i - 16) v) x00 = v) by (rewrite nth_set by (rewrite LI; lia); rewrite Nat.eqb_refl; reflexivity).
    rewrite Q, nth_skipn in X. replace (16 + (i - 16)) with i in X by lia. congruence.
  - rewrite set_length; [exact LI|rewrite LI; lia].
  - exact LI.
  - intros a b Ha Hb. apply AES_inj; assumption.
  - intros a. apply AES_length, KO.
Qed.

Lemma big_endian_num l : big_endian l = be_num l.
Proof.
  unfold be_num. assert (W : forall l a, fold_left (fun acc b => (acc * 256 + b2n b)%N) l a = (a * 256 ^ N.of_nat (length l) + big_endian l)%N).
  { clear l. induction l as [|b l IH]; intros a; cbn [fold_left big_endian length]; [change (N.of_nat 0) with 0%N; rewrite N.pow_0_r; lia|].
    rewrite IH. replace (N.of_nat (S (length l))) with (N.succ (N.of_nat (length l))) by lia. rewrite N.pow_succ_r by lia.
    change (Byte.to_N b) with (b2n b). remember (256 ^ N.of_nat (length l))%N as q. lia. }
  rewrite W. lia.
Qed.

Lemma be_bytes_mod k : forall n m, (n mod 256 ^ N.of_nat k = m mod 256 ^ N.of_nat k)%N -> be_bytes k n = be_bytes k m.
Proof.
  induction k as [|k IH]; intros n m H; [reflexivity|]. cbn [be_bytes].
  replace (N.of_nat (S k)) with (N.succ (N.of_nat k)) in H by lia. rewrite N.pow_succ_r in H by lia.
  assert (P : (256 ^ N.of_nat k <> 0)%N) by (apply N.pow_nonzero; lia). rewrite !N.mod_mul_r in H by (assumption || lia).
  pose proof (N.mod_lt n 256 ltac:(lia)). pose proof (N.mod_lt m 256 ltac:(lia)).
  assert (H2 : (n mod 256 = m mod 256)%N).
  { apply (f_equal (fun x => x mod 256)%N) in H. rewrite !(N.mul_comm 256), !N.mod_add, !N.mod_mod in H by lia. exact H. }
  f_equal; [apply IH; lia|]. unfold n2b. rewrite H2. reflexivity.
Qed.

(** C47. That AES-CTR stream, spelled out: byte [k] of its block [i] is byte [k] of the encryption, under the key, of the 16-byte big-endian counter
    IV + i modulo 2^128. *)
Lemma C47_ctr_pf : forall E key iv ctr i k, length iv = 16 -> length ctr = 16 ->
  big_endian ctr = ((big_endian iv + N.of_nat i) mod 2 ^ 128)%N -> k < 16 ->
  ctrStream E key iv (16 * i + k) = nth k (E key ctr) x00.
Proof.
  intros E key iv ctr i k Li Lc H Hk. unfold ctrStream. rewrite !big_endian_num in H.
  replace ((16 * i + k) mod 16) with k by (rewrite Nat.add_comm, Nat.mul_comm, Nat.mod_add by lia; symmetry; apply Nat.mod_small; exact Hk).
  replace ((16 * i + k) / 16) with i by (rewrite Nat.mul_comm, Nat.div_add_l by lia; rewrite Nat.div_small by lia; lia).
  rewrite (be_bytes_mod 16 _ (be_num ctr)); [rewrite <- Lc; rewrite be_bytes_num; reflexivity|].
  rewrite H. symmetry. change (256 ^ N.of_nat 16)%N with (2 ^ 128)%N. apply N.mod_mod. discriminate.
Qed.

(** C47. NewCSPRNG, and so a new Worker, is the generator whose key is bytes 0 to 15 and whose IV is bytes 16 to 31 of what math/rand delivers. *)
Lemma C47_new_pf : forall E mr ctr i k, length ctr = 16 ->
  big_endian ctr = ((big_endian (map mr (seq 16 16)) + N.of_nat i) mod 2 ^ 128)%N -> k < 16 ->
  NewCSPRNG E mr (16 * i + k) = nth k (E (map mr (seq 0 16)) ctr) x00 /\ NewWorker E mr (16 * i + k) = nth k (E (map mr (seq 0 16)) ctr) x00.
Proof.
  intros E mr ctr i k Lc H Hk.
  assert (X : NewCSPRNG E mr (16 * i + k) = nth k (E (map mr (seq 0 16)) ctr) x00).
  { unfold NewCSPRNG. cbv zeta. rewrite <- (C47_ctr_pf E (map mr (seq 0 16)) (map mr (seq 16 16)) ctr i k); [|reflexivity|exact Lc|exact H|exact Hk].
    reflexivity. }
  split; exact X.
Qed.

(*COPY
(** a counter that wraps: IV = 2^128 - 1, block 1 *)
Example C47_ctr_case : big_endian (zeros 16) = ((big_endian (repeat xff 16) + N.of_nat 1) mod 2 ^ 128)%N /\
  forall key, ctrStream AES key (repeat xff 16) 17 = nth 1 (AES key (zeros 16)) x00.
Proof. split; [reflexivity|]. intros key. exact (C47_ctr AES key (repeat xff 16) (zeros 16) 1 1 eq_refl eq_refl eq_refl ltac:(lia)). Qed.
(** C47, non-vacuity: a 32-byte slice in the middle of a larger array. *)
Definition ex_heap : heap := [[x01; x02]; map i2b (seq 0 40)].
Definition ex_keyIv : gslice := {| sl_arr := 1; sl_off := 3; sl_len := 32; sl_cap := 37 |}.
Example C47_example : wf ex_heap ex_keyIv /\ sl_len ex_keyIv = 32 /\
  match NewCSPRNGWithKeyIV ex_heap ex_keyIv, store ex_heap ex_keyIv 20 xff with
  | Ret r, Ret h' => nth 20 (contents ex_heap ex_keyIv) x00 <> xff /\ csprngRead AES h' r (zeros 16) <> csprngRead AES ex_heap r (zeros 16)
  | _, _ => False
  end.
Proof. vm_compute. repeat split; try lia; discriminate. Qed.
END*)
