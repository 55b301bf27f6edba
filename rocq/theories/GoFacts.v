(** Facts about slices and loops of [GoSem]. *)
From Coq Require Import List NArith ZArith Lia Arith Bool Permutation.
From Coq.Init Require Import Byte.
From Verif Require Import GoSem.
Import ListNotations.

Lemma idx_ok {A} (l : list A) i d : i < length l -> idx l i = Ret (nth i l d).
Proof. intros H. unfold idx. rewrite (nth_error_nth' l d H). reflexivity. Qed.

Lemma idx_panic {A} (l : list A) i : length l <= i -> idx l i = Panic PIndex.
Proof. intros H. unfold idx. apply nth_error_None in H. rewrite H. reflexivity. Qed.

Definition set_nth {A} (l : list A) (i : nat) (v : A) : list A := firstn i l ++ v :: skipn (S i) l.

Lemma upd_ok {A} (l : list A) i v : i < length l -> upd l i v = Ret (set_nth l i v).
Proof. intros H. unfold upd. apply Nat.ltb_lt in H. rewrite H. reflexivity. Qed.

Lemma upd_panic {A} (l : list A) i v : length l <= i -> upd l i v = Panic PIndex.
Proof. intros H. unfold upd. destruct (Nat.ltb_spec i (length l)); [lia|reflexivity]. Qed.

Lemma set_nth_length {A} (l : list A) i v : i < length l -> length (set_nth l i v) = length l.
Proof.
  intros H. unfold set_nth. rewrite app_length, firstn_length. cbn [length]. rewrite skipn_length. lia.
Qed.

Lemma nth_set_nth {A} (l : list A) i v j d : i < length l ->
  nth j (set_nth l i v) d = if j =? i then v else nth j l d.
Proof.
  intros H. unfold set_nth. destruct (Nat.eqb_spec j i) as [->|N].
  - rewrite app_nth2; rewrite firstn_length, Nat.min_l by lia; [|lia].
    rewrite Nat.sub_diag. reflexivity.
  - destruct (Nat.lt_ge_cases j i) as [L|L].
    + rewrite app_nth1 by (rewrite firstn_length; lia).
      rewrite <- (firstn_skipn i l) at 2. rewrite app_nth1 by (rewrite firstn_length; lia). reflexivity.
    + rewrite app_nth2 by (rewrite firstn_length; lia). rewrite firstn_length, Nat.min_l by lia.
      destruct (j - i) as [|k] eqn:E; [lia|]. cbn [nth].
      rewrite <- (firstn_skipn (S i) l) at 2.
      rewrite app_nth2 by (rewrite firstn_length; lia).
      rewrite firstn_length, Nat.min_l by lia. f_equal. lia.
Qed.

Lemma set_nth_same {A} (l : list A) i d : i < length l -> set_nth l i (nth i l d) = l.
Proof.
  intros H. apply nth_ext with d d; [apply set_nth_length; exact H|].
  intros k _. rewrite nth_set_nth by exact H. destruct (Nat.eqb_spec k i) as [->|]; reflexivity.
Qed.

Lemma set_nth_app {A} (p : list A) x r v : set_nth (p ++ x :: r) (length p) v = p ++ v :: r.
Proof.
  unfold set_nth. rewrite firstn_app, Nat.sub_diag, firstn_all. cbn [firstn]. rewrite app_nil_r.
  rewrite skipn_app. rewrite skipn_all2 by lia. replace (S (length p) - length p) with 1 by lia. reflexivity.
Qed.

Lemma slice_ok {A} (l : list A) s e : s <= e -> e <= length l -> slice l s e = Ret (firstn (e - s) (skipn s l)).
Proof.
  intros H1 H2. unfold slice. apply Nat.leb_le in H1, H2. rewrite H1, H2. reflexivity.
Qed.

Lemma slice_panic {A} (l : list A) s e : e < s \/ length l < e -> slice l s e = Panic PSlice.
Proof.
  intros H. unfold slice. destruct (Nat.leb_spec s e); destruct (Nat.leb_spec e (length l)); cbn; try reflexivity. lia.
Qed.

Lemma slice_tail {A} (l : list A) s : s <= length l -> slice l s (length l) = Ret (skipn s l).
Proof.
  intros H. rewrite slice_ok by lia. rewrite firstn_all2; [reflexivity|]. rewrite skipn_length. lia.
Qed.

Lemma slice_all {A} (l : list A) : slice l 0 (length l) = Ret l.
Proof. rewrite slice_tail by lia. reflexivity. Qed.

Lemma gocopy_same {A} (dst src : list A) : length dst = length src -> gocopy dst src = src.
Proof.
  intros H. unfold gocopy. rewrite H, firstn_all, skipn_all2 by lia. apply app_nil_r.
Qed.

Lemma gocopy_length {A} (dst src : list A) : length (gocopy dst src) = length dst.
Proof. unfold gocopy. rewrite app_length, firstn_length, skipn_length. lia. Qed.

Lemma splice_length {A} (l : list A) s sub : s + length sub <= length l -> length (splice l s sub) = length l.
Proof. intros H. unfold splice. rewrite !app_length, firstn_length, skipn_length. lia. Qed.

Lemma nth_firstn {A} (l : list A) n i d : i < n -> nth i (firstn n l) d = nth i l d.
Proof.
  intros H. destruct (Nat.lt_ge_cases i (length l)) as [L|L].
  - rewrite <- (firstn_skipn n l) at 2. rewrite app_nth1; [reflexivity|]. rewrite firstn_length. lia.
  - rewrite !nth_overflow; [reflexivity|lia|]. rewrite firstn_length. lia.
Qed.

Lemma nth_skipn {A} (l : list A) n i d : nth i (skipn n l) d = nth (n + i) l d.
Proof.
  revert l i; induction n as [|n IH]; intros l i; [reflexivity|].
  destruct l as [|a l]; [destruct i; reflexivity|]. cbn [skipn Nat.add nth]. apply IH.
Qed.

Lemma nth_splice {A} (l : list A) s sub i d : s + length sub <= length l ->
  nth i (splice l s sub) d = if (s <=? i) && (i <? s + length sub) then nth (i - s) sub d else nth i l d.
Proof.
  intros H. unfold splice. destruct (Nat.leb_spec s i) as [L|L]; cbn [andb].
  - rewrite app_nth2 by (rewrite firstn_length; lia). rewrite firstn_length, Nat.min_l by lia.
    destruct (Nat.ltb_spec i (s + length sub)) as [M|M].
    + rewrite app_nth1 by lia. reflexivity.
    + rewrite app_nth2 by lia. rewrite nth_skipn. f_equal. lia.
  - rewrite app_nth1 by (rewrite firstn_length; lia). apply nth_firstn. exact L.
Qed.

Lemma nth_zeros i n : nth i (zeros n) x00 = x00.
Proof. unfold zeros. revert n; induction i as [|i IH]; intros [|n]; cbn; auto. Qed.

Lemma zeros_length n : length (zeros n) = n.
Proof. apply repeat_length. Qed.

Lemma take_stream_length s n : length (take_stream s n) = n.
Proof. unfold take_stream. rewrite map_length, seq_length. reflexivity. Qed.

Lemma nth_map_seq {A} (f : nat -> A) n i d : i < n -> nth i (map f (seq 0 n)) d = f i.
Proof.
  intros H. rewrite nth_indep with (d' := f 0) by (rewrite map_length, seq_length; exact H).
  rewrite map_nth, seq_nth by exact H. reflexivity.
Qed.

Lemma nth_take_stream s n i d : i < n -> nth i (take_stream s n) d = s i.
Proof. apply nth_map_seq. Qed.

Lemma take_stream_ext s s' n : (forall i, i < n -> s i = s' i) -> take_stream s n = take_stream s' n.
Proof. intros H. apply map_ext_in. intros i Hi. apply in_seq in Hi. apply H. lia. Qed.

Lemma nth_map' {A B} (f : A -> B) l i d d' : i < length l -> nth i (map f l) d = f (nth i l d').
Proof.
  intros H. rewrite nth_indep with (d' := f d') by (rewrite map_length; exact H). apply map_nth.
Qed.

Lemma list_as_map {A} (l : list A) d : l = map (fun i => nth i l d) (seq 0 (length l)).
Proof.
  apply nth_ext with d d; [rewrite map_length, seq_length; reflexivity|].
  intros i Hi. rewrite nth_map_seq by exact Hi. reflexivity.
Qed.

Lemma map_as_seq {A B} (f : A -> B) (l : list A) d : map f l = map (fun i => f (nth i l d)) (seq 0 (length l)).
Proof. rewrite (list_as_map l d) at 1. rewrite map_map. reflexivity. Qed.

Lemma firstn_add {A} (l : list A) n m : firstn (n + m) l = firstn n l ++ firstn m (skipn n l).
Proof.
  revert l; induction n as [|n IH]; intros l; [reflexivity|].
  destruct l as [|a l]; cbn [Nat.add firstn skipn app]; [rewrite firstn_nil; reflexivity|]. f_equal. apply IH.
Qed.

Lemma skipn_add {A} (l : list A) n m : skipn (n + m) l = skipn m (skipn n l).
Proof. revert l; induction n as [|n IH]; intros l; [reflexivity|]. destruct l; cbn [Nat.add skipn]; [rewrite skipn_nil; reflexivity|apply IH]. Qed.

(** ** loops *)
Lemma bind_ret {A B} (m : outcome A) (k : A -> outcome B) a : m = Ret a -> bind m k = k a.
Proof. intros ->. reflexivity. Qed.

Lemma foreach_app {X S} (l m : list X) f (s : S) :
  foreach (l ++ m) f s = do s' <- foreach l f s; foreach m f s'.
Proof.
  revert s; induction l as [|x l IH]; intros s; [reflexivity|].
  cbn [app foreach]. destruct (f x s); cbn [bind]; auto.
Qed.

Lemma foreach_ext {X S} (l : list X) f g (s : S) :
  (forall x s, In x l -> f x s = g x s) -> foreach l f s = foreach l g s.
Proof.
  revert s; induction l as [|x l IH]; intros s H; [reflexivity|]. cbn [foreach].
  rewrite (H x s) by (left; reflexivity). destruct (g x s); cbn [bind]; auto.
  apply IH. intros y t Hy. apply H. right. exact Hy.
Qed.

Lemma foreach_seq {S} (Inv : nat -> S -> Prop) f : forall n a s,
  Inv a s ->
  (forall i s, a <= i < a + n -> Inv i s -> exists s', f i s = Ret s' /\ Inv (Datatypes.S i) s') ->
  exists s', foreach (seq a n) f s = Ret s' /\ Inv (a + n) s'.
Proof.
  induction n as [|n IH]; intros a s H0 Hs.
  - exists s. rewrite Nat.add_0_r. split; [reflexivity|exact H0].
  - destruct (Hs a s ltac:(lia) H0) as (s1 & E & H1). cbn [seq foreach]. rewrite E. cbn [bind].
    destruct (IH (Datatypes.S a) s1 H1) as (s2 & E2 & H2).
    + intros i t Hi. apply Hs. lia.
    + exists s2. rewrite E2. split; [reflexivity|]. replace (a + Datatypes.S n) with (Datatypes.S a + n) by lia. exact H2.
Qed.

(** a loop over indices that updates cell [i] as a function of [i] and its old contents *)
Lemma foreach_upd {A} (d : A) (f : nat -> list A -> outcome (list A)) (g : nat -> A -> A) a n l :
  a + n <= length l ->
  (forall i o, a <= i < a + n -> length o = length l -> f i o = Ret (set_nth o i (g i (nth i o d)))) ->
  exists o, foreach (seq a n) f l = Ret o /\ length o = length l /\
    forall i, nth i o d = if (a <=? i) && (i <? a + n) then g i (nth i l d) else nth i l d.
Proof.
  intros Hl Hf.
  destruct (foreach_seq (fun k o => length o = length l /\
     forall i, nth i o d = if (a <=? i) && (i <? k) then g i (nth i l d) else nth i l d) f n a l) as (o & E & L & N).
  - split; [reflexivity|]. intros i. destruct (Nat.leb_spec a i); destruct (Nat.ltb_spec i a); cbn; try reflexivity. lia.
  - intros i o Hi (L & N). rewrite (Hf i o Hi L). eexists. split; [reflexivity|].
    split; [rewrite set_nth_length; lia|]. intros j. rewrite nth_set_nth by lia.
    destruct (Nat.eqb_spec j i) as [->|Hn].
    + rewrite N. destruct (Nat.leb_spec a i); destruct (Nat.ltb_spec i i); destruct (Nat.ltb_spec i (Datatypes.S i)); cbn; try lia. reflexivity.
    + rewrite N. destruct (Nat.leb_spec a j); destruct (Nat.ltb_spec j i); destruct (Nat.ltb_spec j (Datatypes.S i)); cbn; try lia; reflexivity.
  - exists o. split; [exact E|]. split; [exact L|exact N].
Qed.

(** the same with the final contents spelled out *)
Lemma foreach_upd_map {A} (d : A) (f : nat -> list A -> outcome (list A)) (g : nat -> A -> A) n l :
  n = length l ->
  (forall i o, i < n -> length o = length l -> f i o = Ret (set_nth o i (g i (nth i o d)))) ->
  foreach (seq 0 n) f l = Ret (map (fun i => g i (nth i l d)) (seq 0 n)).
Proof.
  intros Hn Hf. destruct (foreach_upd d f g 0 n l) as (o & E & L & N); [lia| |].
  - intros i o Hi. apply Hf. lia.
  - rewrite E. f_equal. apply nth_ext with d d; [rewrite map_length, seq_length; lia|].
    intros i Hi. rewrite nth_map_seq by lia. rewrite N.
    destruct (Nat.ltb_spec i (0 + n)); cbn; [reflexivity|lia].
Qed.

(** windows [k*c .. k*c+c) of a list *)
Definition row {A} (c : nat) (l : list A) (k : nat) : list A := firstn c (skipn (c * k) l).

Lemma row_length {A} c (l : list A) k : c * k + c <= length l -> length (row c l k) = c.
Proof. intros H. unfold row. rewrite firstn_length, skipn_length. lia. Qed.

Lemma nth_row {A} c (l : list A) k i d : i < c -> nth i (row c l k) d = nth (c * k + i) l d.
Proof. intros H. unfold row. rewrite nth_firstn by exact H. apply nth_skipn. Qed.

Lemma slice_row {A} c (l : list A) k : c * k + c <= length l -> slice l (c * k) (c * k + c) = Ret (row c l k).
Proof. intros H. rewrite slice_ok by lia. unfold row. do 2 f_equal. lia. Qed.

Lemma div_mod_unique' c k r : r < c -> (c * k + r) / c = k /\ (c * k + r) mod c = r.
Proof.
  intros H. split.
  - symmetry. apply Nat.div_unique with r; [exact H|reflexivity].
  - symmetry. apply Nat.mod_unique with k; [exact H|reflexivity].
Qed.

Lemma row_splice_same {A} w (l : list A) i sub : length sub = w -> w * i + w <= length l ->
  row w (splice l (w * i) sub) i = sub.
Proof.
  intros Hs Hl. unfold row, splice.
  rewrite skipn_app. rewrite skipn_all2 by (rewrite firstn_length; lia). cbn [app].
  rewrite firstn_length, Nat.min_l by lia. rewrite Nat.sub_diag. cbn [skipn].
  rewrite firstn_app, Hs, Nat.sub_diag. cbn [firstn]. rewrite app_nil_r. apply firstn_all2. lia.
Qed.

Lemma row_splice_other {A} w (l : list A) i j sub (d : A) : length sub = w -> w * i + w <= length l -> i <> j ->
  w * j + w <= length l -> row w (splice l (w * i) sub) j = row w l j.
Proof.
  intros Hs Hl Hij Hj. apply nth_ext with d d.
  { rewrite !row_length; try lia. rewrite splice_length; lia. }
  intros k Hk. rewrite row_length in Hk by (rewrite splice_length; lia).
  rewrite !nth_row by exact Hk. rewrite nth_splice by lia.
  destruct (Nat.leb_spec (w * i) (w * j + k)); destruct (Nat.ltb_spec (w * j + k) (w * i + length sub)); cbn; try reflexivity.
  exfalso. assert (j < i + 1) by nia. assert (i < j + 1) by nia. lia.
Qed.

(** a loop over disjoint windows of width [w] *)
Lemma foreach_windows {A} (d : A) w n (f : nat -> list A -> outcome (list A)) (g : nat -> list A -> list A) l :
  length l = w * n ->
  (forall i r, i < n -> length r = w -> length (g i r) = w) ->
  (forall i b, i < n -> length b = w * n -> f i b = Ret (splice b (w * i) (g i (row w b i)))) ->
  exists o, foreach (seq 0 n) f l = Ret o /\ length o = w * n /\ forall i, i < n -> row w o i = g i (row w l i).
Proof.
  intros Hl Hg Hf.
  destruct (foreach_seq (fun k o => length o = w * n /\
     forall i, i < n -> row w o i = if i <? k then g i (row w l i) else row w l i) f n 0 l) as (o & E & L & R).
  - split; [exact Hl|]. reflexivity.
  - intros k o [_ Hk] (L & R). cbn [Nat.add] in Hk. rewrite Hf by assumption. eexists. split; [reflexivity|].
    assert (Lk : w * k + w <= length o) by nia.
    assert (Lg : length (g k (row w o k)) = w) by (apply Hg; [exact Hk|apply row_length; exact Lk]).
    split; [rewrite splice_length; lia|].
    intros i Hi. destruct (Nat.eq_dec i k) as [->|Hne].
    + rewrite row_splice_same by assumption. rewrite (R k Hk).
      destruct (Nat.ltb_spec k k); [lia|]. destruct (Nat.ltb_spec k (S k)); [reflexivity|lia].
    + rewrite (row_splice_other w o k i _ d) by (try assumption; try congruence; nia).
      rewrite (R i Hi). destruct (Nat.ltb_spec i k); destruct (Nat.ltb_spec i (S k)); try lia; reflexivity.
  - exists o. split; [exact E|]. split; [exact L|]. intros i Hi. rewrite (R i Hi).
    cbn [Nat.add]. destruct (Nat.ltb_spec i n); [reflexivity|lia].
Qed.

Lemma rows_ext {A} (d : A) w n (l m : list A) : length l = w * n -> length m = w * n ->
  (forall i, i < n -> row w l i = row w m i) -> l = m.
Proof.
  intros Hl Hm H. apply nth_ext with d d; [congruence|]. intros k Hk.
  destruct (Nat.eq_dec w 0) as [->|W]; [cbn in Hl; lia|].
  rewrite (Nat.div_mod k w W).
  assert (k / w < n) by (apply Nat.div_lt_upper_bound; lia).
  assert (k mod w < w) by (apply Nat.mod_upper_bound; exact W).
  rewrite <- !nth_row by assumption. rewrite H by assumption. reflexivity.
Qed.

(** downward loops [for i := d-1; i >= 0; i--] *)
Lemma foreach_down {S} (Inv : nat -> S -> Prop) f : forall d s,
  Inv d s ->
  (forall i s, i < d -> Inv (Datatypes.S i) s -> exists s', f i s = Ret s' /\ Inv i s') ->
  exists s', foreach (rev (seq 0 d)) f s = Ret s' /\ Inv 0 s'.
Proof.
  induction d as [|d IH]; intros s H0 Hs.
  - exists s. split; [reflexivity|exact H0].
  - rewrite seq_S, rev_app_distr. cbn [rev app Nat.add foreach].
    destruct (Hs d s ltac:(lia) H0) as (s1 & E & H1). rewrite E. cbn [bind].
    apply IH; [exact H1|]. intros i t Hi. apply Hs. lia.
Qed.

(** a loop that appends one element per iteration *)
Lemma foreach_append {A} (f : nat -> list A -> outcome (list A)) (g : nat -> A) n :
  (forall i o, i < n -> f i o = Ret (o ++ [g i])) ->
  foreach (seq 0 n) f [] = Ret (map g (seq 0 n)).
Proof.
  intros H. destruct (foreach_seq (fun k o => o = map g (seq 0 k)) f n 0 []) as (o & E & Q).
  - reflexivity.
  - intros i o [_ Hi] ->. rewrite H by exact Hi. eexists. split; [reflexivity|].
    rewrite seq_S, map_app. reflexivity.
  - rewrite E, Q. reflexivity.
Qed.

Lemma splice_0 {A} (l sub : list A) : length sub = length l -> splice l 0 sub = sub.
Proof. intros H. unfold splice. cbn [firstn app]. rewrite skipn_all2 by lia. apply app_nil_r. Qed.

Lemma splice_0_app {A} (l sub : list A) : splice l 0 sub = sub ++ skipn (length sub) l.
Proof. reflexivity. Qed.
