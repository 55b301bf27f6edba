(** Facts about the calls that run on memory. *)
From Coq Require Import List NArith ZArith Lia Arith Bool Permutation.
From Coq.Init Require Import Byte.
From Verif Require Import GoSem Bytes Spec Galois GF Vector Csprng Pool Polynomial Shamir GoFacts VectorFacts PolynomialFacts SplitFacts Memory MemCalls SpecMemCalls.
Import ListNotations.

(** ** Lists *)
Lemma set_length {A} (l : list A) i v : i < length l -> length (set l i v) = length l.
Proof. exact (set_nth_length l i v). Qed.
Lemma nth_set {A} (l : list A) i v j d : i < length l -> nth j (set l i v) d = if j =? i then v else nth j l d.
Proof. intros. exact (nth_set_nth l i v j d H). Qed.
Lemma set_splice {A} (l : list A) i v : set l i v = splice l i [v].
Proof. unfold set, splice. cbn [length app]. rewrite Nat.add_1_r. reflexivity. Qed.

Lemma list_eq_nth {A} (d : A) (l m : list A) : length l = length m -> (forall i, i < length l -> nth i l d = nth i m d) -> l = m.
Proof. intros L E. apply (nth_ext l m d d L E). Qed.

(** ** Heaps *)
Definition hwrite (h : heap) (a o : nat) (l : list byte) : heap := set h a (splice (nth a h []) o l).

Lemma poke_hwrite h a k v : poke h a k v = hwrite h a k [v].
Proof. unfold poke, hwrite. rewrite (set_splice (nth a h [])). reflexivity. Qed.

Lemma hwrite_length h a o l : a < length h -> length (hwrite h a o l) = length h.
Proof. apply set_length. Qed.
Lemma nth_hwrite h a o l b : a < length h -> nth b (hwrite h a o l) [] = if b =? a then splice (nth a h []) o l else nth b h [].
Proof. apply nth_set. Qed.

(** a window of a slice *)
Definition inb (h : heap) (s : gslice) : Prop := sl_arr s < length h /\ sl_off s + sl_len s <= length (nth (sl_arr s) h []).

Lemma contents_length h s : inb h s -> length (contents h s) = sl_len s.
Proof. intros [_ B]. unfold contents. rewrite firstn_length, skipn_length. lia. Qed.

Lemma nth_contents h s i : i < sl_len s -> nth i (contents h s) x00 = nth (sl_off s + i) (nth (sl_arr s) h []) x00.
Proof. intros L. unfold contents. rewrite nth_firstn by exact L. apply nth_skipn. Qed.

Lemma contents_same h h' s : nth (sl_arr s) h' [] = nth (sl_arr s) h [] -> contents h' s = contents h s.
Proof. intros E. unfold contents. rewrite E. reflexivity. Qed.

(** writing through a window [w] that starts at [k] in [s] *)
Lemma contents_hwrite h s k l : inb h s -> k + length l <= sl_len s ->
  contents (hwrite h (sl_arr s) (sl_off s + k) l) s = splice (contents h s) k l.
Proof.
  intros I L. pose proof I as [A B].
  assert (I' : inb (hwrite h (sl_arr s) (sl_off s + k) l) s).
  { split; [rewrite hwrite_length; exact A|]. rewrite nth_hwrite, Nat.eqb_refl by exact A. rewrite splice_length; lia. }
  apply (list_eq_nth x00).
  - rewrite contents_length by exact I'. rewrite splice_length by (rewrite contents_length by exact I; exact L).
    rewrite contents_length by exact I. reflexivity.
  - intros i Hi. rewrite contents_length in Hi by exact I'. rewrite nth_contents by exact Hi.
    rewrite nth_hwrite, Nat.eqb_refl by exact A.
    rewrite nth_splice by lia. rewrite nth_splice by (rewrite contents_length by exact I; exact L).
    rewrite nth_contents by exact Hi.
    destruct (Nat.leb_spec k i), (Nat.leb_spec (sl_off s + k) (sl_off s + i)); try lia; cbn [andb]; try reflexivity.
    destruct (Nat.ltb_spec i (k + length l)), (Nat.ltb_spec (sl_off s + i) (sl_off s + k + length l)); try lia; try reflexivity.
    f_equal. lia.
Qed.

(** ** Steps: arrays outside [W] are unchanged, array lengths never change *)
Definition step (W : nat -> Prop) (h h' : heap) : Prop :=
  length h <= length h' /\
  (forall a, a < length h -> length (nth a h' []) = length (nth a h [])) /\
  (forall a, a < length h -> ~ W a -> nth a h' [] = nth a h []).

Lemma step_refl W h : step W h h.
Proof. repeat split; auto. Qed.
Lemma step_trans (W W1 : nat -> Prop) h h1 h2 : step W h h1 -> step W1 h1 h2 -> (forall a, a < length h -> W1 a -> W a) -> step W h h2.
Proof.
  intros (A & B & C) (A1 & B1 & C1) I. split; [lia|]. split.
  - intros a L. rewrite B1 by lia. apply B, L.
  - intros a L N. rewrite C1; [apply C; assumption|lia|]. intros Q. apply N, I; assumption.
Qed.
Lemma step_weaken (W W1 : nat -> Prop) h h1 : step W1 h h1 -> (forall a, a < length h -> W1 a -> W a) -> step W h h1.
Proof. intros (A & B & C) I. split; [exact A|]. split; [exact B|]. intros a L N. apply C; [exact L|]. intros Q. apply N, I; assumption. Qed.
Lemma step_hwrite h a o l : a < length h -> o + length l <= length (nth a h []) -> step (eq a) h (hwrite h a o l).
Proof.
  intros A L. split; [rewrite hwrite_length by exact A; lia|]. split.
  - intros b B. rewrite nth_hwrite by exact A. destruct (Nat.eqb_spec b a) as [->|N]; [apply splice_length, L|reflexivity].
  - intros b B N. rewrite nth_hwrite by exact A. destruct (Nat.eqb_spec b a) as [->|N']; [exfalso; apply N; reflexivity|reflexivity].
Qed.
Lemma nth_app_l {A} (l m : list A) i d : i < length l -> nth i (l ++ m) d = nth i l d.
Proof. apply app_nth1. Qed.
Lemma step_alloc W h x : step W h (h ++ [x]).
Proof.
  split; [rewrite app_length; lia|]. split; intros a L; [|intros _]; rewrite app_nth1 by exact L; reflexivity.
Qed.
Lemma step_inb W h h' s : step W h h' -> inb h s -> inb h' s.
Proof. intros (A & B & _) [C D]. split; [lia|]. rewrite B; assumption. Qed.
Lemma step_contents W h h' s : step W h h' -> sl_arr s < length h -> ~ W (sl_arr s) -> contents h' s = contents h s.
Proof. intros (_ & _ & C) A N. apply contents_same, C; assumption. Qed.

(** ** Buffers *)
Lemma arraysOf_app a b : arraysOf (a ++ b) = arraysOf a ++ arraysOf b.
Proof. unfold arraysOf. rewrite filter_app, map_app. reflexivity. Qed.
Lemma arraysOf_cons b l : 0 < sl_cap b -> arraysOf (b :: l) = sl_arr b :: arraysOf l.
Proof. intros H. unfold arraysOf. cbn [filter]. apply Nat.ltb_lt in H. rewrite H. reflexivity. Qed.
Lemma arraysOf_perm a b : Permutation a b -> Permutation (arraysOf a) (arraysOf b).
Proof.
  intros P. unfold arraysOf. apply Permutation_map.
  induction P as [|x l l' P IH|x y l|l l' l'' P1 IH1 P2 IH2]; cbn [filter].
  - constructor.
  - destruct (0 <? sl_cap x); [constructor|]; exact IH.
  - destruct (0 <? sl_cap x), (0 <? sl_cap y); try apply Permutation_refl. constructor.
  - eapply Permutation_trans; eassumption.
Qed.

(** [held] buffers are out of the pools *)
Definition inv (held : list gslice) (m : memory) : Prop :=
  Forall (backed (m_heap m)) (held ++ buffers m) /\ NoDup (arraysOf (held ++ buffers m)).

Lemma inv_nil m : inv [] m <-> mem_ok m.
Proof. reflexivity. Qed.

Lemma inv_lt held m a : inv held m -> In a (arraysOf (held ++ buffers m)) -> a < length (m_heap m).
Proof.
  intros [F _] I. unfold arraysOf in I. apply in_map_iff in I as (b & <- & J). apply filter_In in J as [J C].
  rewrite Forall_forall in F. apply Nat.ltb_lt in C. apply (F b J C).
Qed.

Lemma inv_perm held m held' m' : m_heap m' = m_heap m -> Permutation (held ++ buffers m) (held' ++ buffers m') -> inv held m -> inv held' m'.
Proof.
  intros E P [F N]. split.
  - rewrite E. eapply Permutation_Forall; eassumption.
  - eapply Permutation_NoDup; [apply arraysOf_perm; exact P|exact N].
Qed.

Lemma backed_step W h h' b : step W h h' -> backed h b -> backed h' b.
Proof. intros (A & B & _) K C. destruct (K C) as (K1 & K2 & K3). split; [lia|]. split; [exact K2|]. rewrite B by exact K1. exact K3. Qed.

Lemma inv_step held m m' W : step W (m_heap m) (m_heap m') -> buffers m' = buffers m -> inv held m -> inv held m'.
Proof.
  intros S E [F N]. split; [|rewrite E; exact N]. rewrite E. apply Forall_forall. intros b I. rewrite Forall_forall in F.
  eapply backed_step; [exact S|apply F, I].
Qed.

Lemma inv_drop b held m : inv (b :: held) m -> inv held m.
Proof.
  intros [F N]. cbn [app] in *. split; [inversion F; assumption|].
  unfold arraysOf in *. cbn [filter] in N. destruct (0 <? sl_cap b); [inversion N; assumption|exact N].
Qed.

Lemma inv_nilSlice held m : inv held m -> inv (nilSlice :: held) m.
Proof. intros [F N]. split; [constructor; [|exact F]; intros C; cbn in C; lia|exact N]. Qed.

Lemma inv_replace b b' held m m' W : step W (m_heap m) (m_heap m') -> buffers m' = buffers m -> inv (b :: held) m ->
  sl_arr b' = length (m_heap m) -> backed (m_heap m') b' -> inv (b' :: held) m'.
Proof.
  intros S E I A B. pose proof (inv_drop _ _ _ I) as J. pose proof (inv_step held m m' W S E J) as [F N].
  split; [constructor; assumption|]. cbn [app]. unfold arraysOf. cbn [filter]. destruct (0 <? sl_cap b'); [|exact N].
  cbn [map]. constructor; [|exact N]. intros K. rewrite A in K. rewrite E in K. apply (inv_lt _ _ _ J) in K. lia.
Qed.

(** ** The operations of pools and buffers *)
Lemma mgetB_ok held m : inv held m -> exists b m1, mgetB m = (m1, Ret b) /\ inv (b :: held) m1 /\ m_heap m1 = m_heap m /\
  m_epool m1 = m_epool m /\ (forall a, In a (arraysOf (b :: buffers m1)) <-> In a (arraysOf (buffers m))) /\
  match m_bpool m with [] => b = nilSlice | c :: r => b = c /\ m_bpool m1 = r end.
Proof.
  intros I. unfold mgetB, poolGet. destruct m as [h [|c r] ep]; cbn [m_bpool m_heap m_epool] in *.
  - exists nilSlice. eexists. split; [reflexivity|]. split; [apply inv_nilSlice; exact I|]. repeat split; auto.
  - exists c. eexists. split; [reflexivity|]. split.
    + refine (inv_perm _ _ _ _ _ _ I); [reflexivity|]. unfold buffers. cbn [m_bpool m_epool app].
      apply Permutation_sym. apply (Permutation_middle held (r ++ ep) c).
    + repeat split; auto.
Qed.

Lemma mgetE_ok held m : inv held m -> exists b m1, mgetE m = (m1, Ret b) /\ inv (b :: held) m1 /\ m_heap m1 = m_heap m /\
  m_bpool m1 = m_bpool m /\ (forall a, In a (arraysOf (b :: buffers m1)) <-> In a (arraysOf (buffers m))) /\
  (0 < sl_cap b -> In (sl_arr b) (arraysOf (m_epool m))) /\ (forall a, In a (arraysOf (m_epool m1)) -> In a (arraysOf (m_epool m))).
Proof.
  intros I. unfold mgetE, poolGet. destruct m as [h bp [|c r]]; cbn [m_bpool m_heap m_epool] in *.
  - exists nilSlice. eexists. split; [reflexivity|]. split; [apply inv_nilSlice; exact I|]. repeat split; auto; cbn; lia.
  - assert (P : Permutation (c :: bp ++ r) (bp ++ c :: r)) by apply Permutation_middle.
    exists c. eexists. split; [reflexivity|]. split; [|split; [reflexivity|split; [reflexivity|split; [|split]]]].
    + refine (inv_perm _ _ _ _ _ _ I); [reflexivity|]. unfold buffers. cbn [m_bpool m_epool].
      cbn [app]. rewrite <- P. apply Permutation_sym. apply Permutation_middle.
    + intros a. unfold buffers. cbn [m_bpool m_epool]. apply arraysOf_perm in P. split; intros J.
      * eapply Permutation_in; [exact P|exact J].
      * eapply Permutation_in; [apply Permutation_sym; exact P|exact J].
    + intros C. rewrite arraysOf_cons by exact C. left. reflexivity.
    + cbn [m_epool]. intros a J. unfold arraysOf in *. cbn [filter]. destruct (0 <? sl_cap c); [right|]; exact J.
Qed.

Lemma mputB_ok size b held m : inv (b :: held) m -> exists m1, mputB size b m = (m1, Ret tt) /\ inv held m1 /\ m_heap m1 = m_heap m /\
  (forall a, In a (arraysOf (buffers m1)) -> In a (arraysOf (b :: buffers m))).
Proof.
  intros I. unfold mputB, poolPut. destruct (length (m_bpool m) <? size).
  - assert (P : Permutation (b :: m_bpool m ++ m_epool m) ((m_bpool m ++ [b]) ++ m_epool m)).
    { rewrite <- app_assoc. apply Permutation_middle. }
    eexists. split; [reflexivity|]. split; [|split; [reflexivity|]].
    + refine (inv_perm _ _ _ _ _ _ I); [reflexivity|]. unfold buffers. cbn [m_bpool m_epool].
      cbn [app]. rewrite <- P. apply Permutation_middle.
    + intros a. unfold buffers. cbn [m_bpool m_epool]. apply arraysOf_perm in P. intros J.
      eapply Permutation_in; [apply Permutation_sym; exact P|exact J].
  - eexists. split; [reflexivity|]. split; [|split; [reflexivity|]].
    + destruct m. apply inv_drop in I. exact I.
    + intros a J. unfold buffers in *. cbn [m_bpool m_epool] in J. unfold arraysOf in *. cbn [filter]. destruct (0 <? sl_cap b); [right|]; exact J.
Qed.

Lemma mputE_ok size b held m : inv (b :: held) m -> exists m1, mputE size b m = (m1, Ret tt) /\ inv held m1 /\ m_heap m1 = m_heap m /\
  m_bpool m1 = m_bpool m /\
  (forall a, In a (arraysOf (m_epool m1)) -> In a (arraysOf (b :: m_epool m))).
Proof.
  intros I. unfold mputE, poolPut. destruct (length (m_epool m) <? size).
  - assert (P : Permutation (b :: m_epool m) (m_epool m ++ [b])) by apply Permutation_cons_append.
    eexists. split; [reflexivity|]. split; [|split; [reflexivity|split; [reflexivity|]]].
    + refine (inv_perm _ _ _ _ _ _ I); [reflexivity|]. unfold buffers. cbn [m_bpool m_epool].
      rewrite <- P. cbn [app]. etransitivity; [apply Permutation_middle|]. apply Permutation_app_head. apply Permutation_middle.
    + intros a. cbn [m_epool]. apply arraysOf_perm in P. intros J. eapply Permutation_in; [apply Permutation_sym; exact P|exact J].
  - eexists. split; [reflexivity|]. split; [|split; [reflexivity|split; [reflexivity|]]].
    + destruct m. apply inv_drop in I. exact I.
    + intros a J. cbn [m_epool] in J. unfold arraysOf in *. cbn [filter]. destruct (0 <? sl_cap b); [right|]; exact J.
Qed.

(** the array behind a buffer *)
Definition arrayOf (h : heap) (b : gslice) : list byte := if 0 <? sl_cap b then nth (sl_arr b) h [] else [].
Lemma mresetGrow_ok growcap b n held m : grow_ok growcap -> 0 < n -> inv (b :: held) m ->
  exists b' m1, mresetGrow growcap b n m = (m1, Ret b') /\ inv (b' :: held) m1 /\ n <= sl_cap b' /\
    m_bpool m1 = m_bpool m /\ m_epool m1 = m_epool m /\ step (fun _ => False) (m_heap m) (m_heap m1) /\
    (0 < sl_cap b /\ sl_arr b' = sl_arr b \/ sl_arr b' = length (m_heap m)) /\
    nth (sl_arr b') (m_heap m1) [] = resetGrow growcap (arrayOf (m_heap m) b) n.
Proof.
  intros G N I. unfold mresetGrow, resetGrow.
  assert (LB : length (arrayOf (m_heap m) b) = sl_cap b).
  { unfold arrayOf. destruct (Nat.ltb_spec 0 (sl_cap b)) as [L|L]; [|cbn [length]; lia].
    destruct I as [F _]. inversion F as [|x l B0 F0]; subst. destruct (B0 L) as (_ & _ & E). symmetry. exact E. }
  rewrite LB. destruct (Nat.leb_spec n (sl_cap b)) as [L|L].
  - exists b, m. split; [reflexivity|]. split; [exact I|]. split; [exact L|]. split; [reflexivity|]. split; [reflexivity|].
    split; [apply step_refl|]. split; [left; split; [lia|reflexivity]|]. unfold arrayOf. destruct (Nat.ltb_spec 0 (sl_cap b)); [reflexivity|lia].
  - unfold alloc. eexists. eexists. split; [reflexivity|]. cbn [setHeap m_heap m_bpool m_epool sl_arr sl_cap].
    rewrite zeros_length. pose proof (G (sl_cap b) n L) as GG.
    split; [|split; [exact GG|split; [reflexivity|split; [reflexivity|split; [apply step_alloc|split; [right; reflexivity|]]]]]].
    + eapply (inv_replace b); [apply (step_alloc (fun _ => False))|reflexivity|exact I|reflexivity|].
      intros _. cbn [sl_arr sl_off sl_cap setHeap m_heap]. rewrite app_length. cbn [length].
      rewrite app_nth2, Nat.sub_diag by lia. cbn [nth]. rewrite zeros_length. repeat split; lia.
    + rewrite app_nth2, Nat.sub_diag by lia. reflexivity.
Qed.

(** ** Inversion *)
Lemma bind_inv {A B} (o : outcome A) (k : A -> outcome B) r : bind o k = Ret r -> exists a, o = Ret a /\ k a = Ret r.
Proof. destruct o as [a|e|p| |]; cbn [bind]; intros E; try discriminate E. exists a. split; [reflexivity|exact E]. Qed.
Lemma slice_inv {A} (l : list A) s e r : slice l s e = Ret r -> s <= e /\ e <= length l /\ r = firstn (e - s) (skipn s l).
Proof.
  unfold slice. destruct (Nat.leb_spec s e) as [L|L]; cbn [andb]; [|intros E; discriminate E].
  destruct (Nat.leb_spec e (length l)) as [L'|L']; intros E; [|discriminate E]. inversion E. auto.
Qed.
Lemma upd_inv {A} (l : list A) i v r : upd l i v = Ret r -> i < length l /\ r = set l i v.
Proof. unfold upd. destruct (Nat.ltb_spec i (length l)) as [L|L]; intros E; [|discriminate E]. inversion E. auto. Qed.
Lemma idx_inv {A} (l : list A) i v d : idx l i = Ret v -> i < length l /\ v = nth i l d.
Proof.
  unfold idx. destruct (nth_error l i) as [x|] eqn:N; intros E; [|discriminate E]. inversion E; subst.
  assert (L : i < length l) by (apply nth_error_Some; rewrite N; discriminate). split; [exact L|].
  symmetry. apply nth_error_nth with (1 := N).
Qed.
Lemma mbind_ret {A B} (f : M A) (k : A -> M B) m m1 a : f m = (m1, Ret a) -> mbind f k m = k a m1.
Proof. intros E. unfold mbind. rewrite E. reflexivity. Qed.
Lemma setHeap_setHeap m h h' : setHeap (setHeap m h) h' = setHeap m h'.
Proof. reflexivity. Qed.
Lemma setHeap_same m : setHeap m (m_heap m) = m.
Proof. destruct m. reflexivity. Qed.

(** ** Loads, stores, slices *)
Lemma mload_ok s i m : length (mcontents m s) = sl_len s -> mload s i m = (m, idx (mcontents m s) i).
Proof.
  intros L. unfold mload. destruct (Nat.ltb_spec i (sl_len s)) as [H|H].
  - rewrite (idx_ok _ _ x00) by lia. unfold mcontents. rewrite nth_contents by exact H. reflexivity.
  - rewrite idx_panic by lia. reflexivity.
Qed.
Lemma mload_ret s i m v : inb (m_heap m) s -> idx (mcontents m s) i = Ret v -> mload s i m = (m, Ret v).
Proof. intros I E. rewrite mload_ok by (apply contents_length; exact I). rewrite E. reflexivity. Qed.
Lemma mstore_ok s i v m : i < sl_len s -> mstore s i v m = (setHeap m (hwrite (m_heap m) (sl_arr s) (sl_off s + i) [v]), Ret tt).
Proof. intros L. unfold mstore. apply Nat.ltb_lt in L. rewrite L, poke_hwrite. reflexivity. Qed.
Lemma mwrite_ok s l m : mwrite s l m = (setHeap m (hwrite (m_heap m) (sl_arr s) (sl_off s) l), Ret tt).
Proof. reflexivity. Qed.
Definition window (s : gslice) (i j : nat) : gslice := {| sl_arr := sl_arr s; sl_off := sl_off s + i; sl_len := j - i; sl_cap := sl_cap s - i |}.
Lemma mslice_ok s i j m : i <= j -> j <= sl_cap s -> mslice s i j m = (m, Ret (window s i j)).
Proof. intros A B. unfold mslice, mlift, reslice. apply Nat.leb_le in A, B. rewrite A, B. reflexivity. Qed.
Lemma inb_window h s i j : inb h s -> i <= j -> j <= sl_len s -> inb h (window s i j).
Proof. intros [A B] L L'. split; cbn [window sl_arr sl_off sl_len]; [exact A|lia]. Qed.
Lemma contents_window h s i j : i <= j -> j <= sl_len s -> contents h (window s i j) = firstn (j - i) (skipn i (contents h s)).
Proof.
  intros A B. unfold contents. cbn [window sl_arr sl_off sl_len]. rewrite skipn_firstn_comm, firstn_firstn.
  rewrite skipn_add. f_equal. lia.
Qed.
Lemma contents_prefix h b n : inb h (window b 0 n) -> contents h (window b 0 n) = firstn n (skipn (sl_off b) (nth (sl_arr b) h [])).
Proof. intros _. unfold contents. cbn [window sl_arr sl_off sl_len]. rewrite Nat.add_0_r, Nat.sub_0_r. reflexivity. Qed.

(** ** Loops *)
Lemma mforeach_sim {X S T} (R : T -> S -> memory -> Prop) (f : X -> S -> M S) (g : X -> T -> outcome T) l :
  (forall x t s m t', In x l -> R t s m -> g x t = Ret t' -> exists m' s', f x s m = (m', Ret s') /\ R t' s' m') ->
  forall t s m t', R t s m -> foreach l g t = Ret t' -> exists m' s', mforeach l f s m = (m', Ret s') /\ R t' s' m'.
Proof.
  induction l as [|x l IH]; intros H t s m t' R0 E.
  - inversion E; subst. exists m, s. split; [reflexivity|exact R0].
  - cbn [foreach] in E. apply bind_inv in E as (t1 & E1 & E2).
    destruct (H x t s m t1 ltac:(left; reflexivity) R0 E1) as (m1 & s1 & F1 & R1).
    destruct (IH ltac:(intros; eapply H; [right; eassumption|eassumption|eassumption]) t1 s1 m1 t' R1 E2) as (m2 & s2 & F2 & R2).
    exists m2, s2. split; [|exact R2]. cbn [mforeach]. rewrite (mbind_ret _ _ _ _ _ F1). exact F2.
Qed.
Lemma mforeach_seq {S T} (R : nat -> T -> S -> memory -> Prop) (f : nat -> S -> M S) (g : nat -> T -> outcome T) n : forall a,
  (forall i t s m t', a <= i < a + n -> R i t s m -> g i t = Ret t' -> exists m' s', f i s m = (m', Ret s') /\ R (Datatypes.S i) t' s' m') ->
  forall t s m t', R a t s m -> foreach (seq a n) g t = Ret t' -> exists m' s', mforeach (seq a n) f s m = (m', Ret s') /\ R (a + n) t' s' m'.
Proof.
  induction n as [|n IH]; intros a H t s m t' R0 E.
  - inversion E; subst. exists m, s. split; [reflexivity|]. rewrite Nat.add_0_r. exact R0.
  - cbn [seq foreach] in E. apply bind_inv in E as (t1 & E1 & E2).
    destruct (H a t s m t1 ltac:(lia) R0 E1) as (m1 & s1 & F1 & R1).
    destruct (IH (Datatypes.S a) ltac:(intros; eapply H; [lia|eassumption|eassumption]) t1 s1 m1 t' R1 E2) as (m2 & s2 & F2 & R2).
    exists m2, s2. split; [|replace (a + Datatypes.S n) with (Datatypes.S a + n) by lia; exact R2].
    cbn [seq mforeach]. rewrite (mbind_ret _ _ _ _ _ F1). exact F2.
Qed.

Lemma splice_splice_inner {A} (d : A) (l : list A) s e k sub : s <= e -> e <= length l -> k + length sub <= e - s ->
  splice l s (splice (firstn (e - s) (skipn s l)) k sub) = splice l (s + k) sub.
Proof.
  intros H1 H2 H3. assert (LW : length (firstn (e - s) (skipn s l)) = e - s) by (rewrite firstn_length, skipn_length; lia).
  assert (LS : length (splice (firstn (e - s) (skipn s l)) k sub) = e - s) by (rewrite splice_length; lia).
  apply (list_eq_nth d).
  - rewrite !splice_length; lia.
  - intros i Hi. rewrite nth_splice by lia. rewrite LS. rewrite nth_splice by lia. rewrite (nth_splice l) by lia.
    destruct (Nat.leb_spec s i), (Nat.ltb_spec i (s + (e - s))); cbn [andb];
      try (destruct (Nat.leb_spec (s + k) i), (Nat.ltb_spec i (s + k + length sub)); cbn [andb]; try lia; reflexivity).
    destruct (Nat.leb_spec k (i - s)), (Nat.leb_spec (s + k) i); try lia; cbn [andb].
    + destruct (Nat.ltb_spec (i - s) (k + length sub)), (Nat.ltb_spec i (s + k + length sub)); try lia.
      * f_equal. lia.
      * rewrite nth_firstn by lia. rewrite nth_skipn. f_equal. lia.
    + rewrite nth_firstn by lia. rewrite nth_skipn. f_equal. lia.
Qed.

(** ** shamir/polynomial.go *)
Lemma mSetIntercepts_ok secret degree buf m r :
  inb (m_heap m) secret -> inb (m_heap m) buf -> sl_len buf <= sl_cap buf -> sl_arr secret <> sl_arr buf ->
  setIntercepts (mcontents m secret) degree (mcontents m buf) = Ret r ->
  exists h', mSetIntercepts secret degree buf m = (setHeap m h', Ret tt) /\ contents h' buf = r /\ step (eq (sl_arr buf)) (m_heap m) h'.
Proof.
  intros IS IB CB ND E. unfold setIntercepts in E. unfold mcontents in E at 1. rewrite (contents_length _ _ IS) in E.
  set (R := fun (t : list byte) (s : unit) (m' : memory) => exists h', m' = setHeap m h' /\ contents h' buf = t /\ step (eq (sl_arr buf)) (m_heap m) h').
  edestruct (mforeach_sim (X := nat) R) as (m' & [] & F & R'); [| |exact E|].
  3: { destruct R' as (h' & -> & C & S). exists h'. split; [exact F|]. split; assumption. }
  2: { exists (m_heap m). rewrite setHeap_same. split; [reflexivity|]. split; [reflexivity|apply step_refl]. }
  intros p t [] m1 t' _ (h1 & -> & C1 & S1) G. apply bind_inv in G as (pp & G1 & G). apply bind_inv in G as (ip & G2 & G).
  apply bind_inv in G as (pp' & G3 & G). inversion G; subst t'. clear G.
  pose proof (step_inb _ _ _ _ S1 IB) as IB1. pose proof (contents_length _ _ IB1) as LB1. rewrite C1 in LB1.
  apply slice_inv in G1 as (H1 & H2 & G1). apply upd_inv in G3 as (H3 & G3).
  rewrite (mbind_ret _ _ _ _ _ (mslice_ok buf _ _ _ H1 ltac:(lia))).
  assert (CS : mcontents (setHeap m h1) secret = mcontents m secret).
  { apply (step_contents _ _ _ _ S1); [apply IS|]. intros Q. apply ND. symmetry. exact Q. }
  rewrite (mbind_ret _ _ _ (setHeap m h1) ip) by (apply mload_ret; [apply (step_inb _ _ _ _ S1 IS)|rewrite CS; exact G2]).
  rewrite mstore_ok by (cbn [window sl_len]; lia). eexists. exists tt. split; [reflexivity|].
  exists (hwrite h1 (sl_arr buf) (sl_off buf + ((degree + 1) * p)) [ip]). split.
  { cbn [window sl_arr sl_off setHeap m_heap]. rewrite Nat.add_0_r. reflexivity. }
  split.
  - rewrite contents_hwrite by (try exact IB1; cbn [length]; lia). rewrite C1. rewrite G3, set_splice, G1.
    rewrite (splice_splice_inner x00) by (cbn [length]; lia). rewrite Nat.add_0_r. reflexivity.
  - eapply step_trans; [exact S1|apply step_hwrite; [apply IB1|destruct IB1; cbn [length]; lia]|]. intros a _ Q. exact Q.
Qed.

Lemma mTranspose_ok dst src rowLen m r :
  inb (m_heap m) dst -> inb (m_heap m) src -> sl_arr src <> sl_arr dst ->
  transposeMatrixBuffer (mcontents m dst) (mcontents m src) rowLen = Ret r ->
  exists h', mTransposeMatrixBuffer dst src rowLen m = (setHeap m h', Ret tt) /\ contents h' dst = r /\ step (eq (sl_arr dst)) (m_heap m) h'.
Proof.
  intros ID IS ND E. unfold transposeMatrixBuffer in E. unfold mTransposeMatrixBuffer.
  destruct (rowLen =? 0); [discriminate E|].
  assert (LS : length (mcontents m src) = sl_len src) by (apply contents_length; exact IS). rewrite LS in E.
  apply bind_inv in E as ([[d r0] c0] & E & E2). inversion E2; subst d. clear E2.
  set (R := fun (t : list byte * nat * nat) (s : nat * nat) (m' : memory) =>
    exists h', m' = setHeap m h' /\ contents h' dst = fst (fst t) /\ s = (snd (fst t), snd t) /\ step (eq (sl_arr dst)) (m_heap m) h').
  edestruct (mforeach_sim (X := nat) R) as (m' & s' & F & R'); [| |exact E|].
  3: { destruct R' as (h' & -> & C & _ & S). exists h'. rewrite (mbind_ret _ _ _ _ _ F). split; [reflexivity|]. split; assumption. }
  2: { exists (m_heap m). rewrite setHeap_same. split; [reflexivity|]. split; [reflexivity|]. split; [reflexivity|apply step_refl]. }
  intros i [[t cr] cc] s m1 t' _ (h1 & -> & C1 & -> & S1) G. cbn [fst snd] in *.
  apply bind_inv in G as (v & G1 & G). apply bind_inv in G as (t1 & G2 & G).
  pose proof (step_inb _ _ _ _ S1 ID) as ID1. pose proof (contents_length _ _ ID1) as LB1. rewrite C1 in LB1.
  apply upd_inv in G2 as (H3 & G2).
  assert (CS : mcontents (setHeap m h1) src = mcontents m src).
  { apply (step_contents _ _ _ _ S1); [apply IS|]. intros Q. apply ND. symmetry. exact Q. }
  rewrite (mbind_ret _ _ _ (setHeap m h1) v) by (apply mload_ret; [apply (step_inb _ _ _ _ S1 IS)|rewrite CS; exact G1]).
  rewrite (mbind_ret _ _ _ _ _ (mstore_ok dst i v _ ltac:(lia))).
  assert (R1 : contents (hwrite h1 (sl_arr dst) (sl_off dst + i) [v]) dst = t1 /\ step (eq (sl_arr dst)) (m_heap m) (hwrite h1 (sl_arr dst) (sl_off dst + i) [v])).
  { split.
    - rewrite contents_hwrite by (try exact ID1; cbn [length]; lia). rewrite C1, G2, set_splice. reflexivity.
    - eapply step_trans; [exact S1|apply step_hwrite; [apply ID1|destruct ID1; cbn [length]; lia]|]. intros a _ Q. exact Q. }
  destruct (cr + 1 =? sl_len src / rowLen); inversion G; subst t'; eexists; eexists; (split; [reflexivity|]);
    (exists (hwrite h1 (sl_arr dst) (sl_off dst + i) [v])); cbn [fst snd]; (split; [reflexivity|]); (split; [apply R1|]); (split; [reflexivity|apply R1]).
Qed.

(** ** galois operations *)
Lemma inb_alloc h x : inb (h ++ [x]) {| sl_arr := length h; sl_off := 0; sl_len := length x; sl_cap := length x |}.
Proof. split; cbn [sl_arr sl_off sl_len]; [rewrite app_length; cbn [length]; lia|]. rewrite app_nth2, Nat.sub_diag by lia. cbn [nth]. lia. Qed.
Lemma contents_alloc h x : contents (h ++ [x]) {| sl_arr := length h; sl_off := 0; sl_len := length x; sl_cap := length x |} = x.
Proof. unfold contents. cbn [sl_arr sl_off sl_len skipn]. rewrite app_nth2, Nat.sub_diag by lia. cbn [nth]. apply firstn_all. Qed.

Lemma mMulConst_ok ar c s m : inb (m_heap m) s -> sl_len s <= sl_cap s ->
  exists h' s', mMulConstVector ar c s m = (setHeap m h', Ret s') /\ contents h' s' = map (gmul c) (mcontents m s) /\
    sl_len s' = sl_len s /\ sl_len s' <= sl_cap s' /\ inb h' s' /\ step (eq (sl_arr s)) (m_heap m) h' /\ (sl_arr s' = sl_arr s \/ length (m_heap m) <= sl_arr s').
Proof.
  intros I C. unfold mMulConstVector. rewrite MulConstVector_ok.
  assert (L : length (map (gmul c) (mcontents m s)) = sl_len s) by (rewrite map_length; apply contents_length; exact I).
  assert (K : exists h' s', (let (h, s0) := alloc (m_heap m) (map (gmul c) (mcontents m s)) in (setHeap m h, Ret s0)) = (setHeap m h', Ret s') /\
    contents h' s' = map (gmul c) (mcontents m s) /\ sl_len s' = sl_len s /\ sl_len s' <= sl_cap s' /\ inb h' s' /\ step (eq (sl_arr s)) (m_heap m) h' /\
    (sl_arr s' = sl_arr s \/ length (m_heap m) <= sl_arr s')).
  { unfold alloc. eexists. eexists. split; [reflexivity|]. split; [apply contents_alloc|]. split; [exact L|]. split; [cbn [sl_len sl_cap]; lia|].
    split; [apply inb_alloc|]. split; [apply step_alloc|]. right. cbn [sl_arr]. lia. }
  destruct ar; [|exact K|exact K].
  rewrite (mbind_ret _ _ _ _ _ (mwrite_ok s _ m)). unfold mret. eexists. exists s. split; [reflexivity|].
  assert (S1 : step (eq (sl_arr s)) (m_heap m) (hwrite (m_heap m) (sl_arr s) (sl_off s) (map (gmul c) (mcontents m s)))).
  { apply step_hwrite; [apply I|]. rewrite L. apply I. }
  split; [|split; [reflexivity|split; [exact C|split; [eapply step_inb; [exact S1|exact I]|split; [exact S1|left; reflexivity]]]]].
  rewrite <- (Nat.add_0_r (sl_off s)). rewrite contents_hwrite by (try exact I; rewrite L; lia).
  apply splice_0. rewrite L. symmetry. apply contents_length, I.
Qed.

Lemma mAddVector_ok ar a b m : inb (m_heap m) a -> inb (m_heap m) b -> sl_len a = sl_len b ->
  exists h', mAddVector ar a b m = (setHeap m h', Ret b) /\ contents h' b = xor_bytes (mcontents m a) (mcontents m b) /\ step (eq (sl_arr b)) (m_heap m) h'.
Proof.
  intros IA IB E. pose proof (contents_length _ _ IA) as LA. pose proof (contents_length _ _ IB) as LB.
  unfold mAddVector. rewrite AddVector_ok by (unfold mcontents; lia).
  assert (L : length (xor_bytes (mcontents m a) (mcontents m b)) = sl_len b) by (rewrite xor_bytes_length by (unfold mcontents; lia); unfold mcontents; lia).
  rewrite (mbind_ret _ _ _ _ _ (mwrite_ok b _ m)). unfold mret. eexists. split; [reflexivity|]. split.
  - rewrite <- (Nat.add_0_r (sl_off b)). rewrite contents_hwrite by (try exact IB; rewrite L; lia).
    apply splice_0. rewrite L. symmetry. exact LB.
  - apply step_hwrite; [apply IB|rewrite L; apply IB].
Qed.

Lemma held_not_buffers held m a : inv held m -> In a (arraysOf held) -> ~ In a (arraysOf (buffers m)).
Proof.
  intros [_ N] I J. rewrite arraysOf_app in N. revert N I J. generalize (arraysOf held) (arraysOf (buffers m)). clear.
  intros l r N I J. induction l as [|y l IH]; [destruct I|]. cbn [app] in N. inversion N as [|y0 l0 N1 N2]; subst. destruct I as [->|I].
  - apply N1, in_or_app. right. exact J.
  - exact (IH N2 I).
Qed.

Lemma head_notin b held m : inv (b :: held) m -> 0 < sl_cap b -> ~ In (sl_arr b) (arraysOf (held ++ buffers m)).
Proof. intros [_ N] C. cbn [app] in N. rewrite arraysOf_cons in N by exact C. inversion N. assumption. Qed.

Lemma inv_backed b held m : inv (b :: held) m -> backed (m_heap m) b.
Proof. intros [F _]. inversion F. assumption. Qed.

Lemma mEvaluate_ok size ar growcap c N x out bb held m o' :
  grow_ok growcap -> inv held m -> inb (m_heap m) c -> sl_len c <= sl_cap c -> In (sl_arr c) (arraysOf held) ->
  inb (m_heap m) out -> sl_len out = N -> sl_len out <= sl_cap out -> ~ In (sl_arr out) (arraysOf (held ++ buffers m)) ->
  evaluatePolynomialsAtWithCoefficientsBuffer ar growcap bb (mcontents m c) N x (mcontents m out) = Ret o' ->
  exists m', mEvaluate size ar growcap c N x out m = (m', Ret tt) /\ inv held m' /\ m_bpool m' = m_bpool m /\ length o' = N /\
    nth (sl_arr out) (m_heap m') [] = splice (nth (sl_arr out) (m_heap m) []) (sl_off out) o' /\
    step (fun a => a = sl_arr out \/ In a (arraysOf (m_epool m))) (m_heap m) (m_heap m') /\
    (forall a, In a (arraysOf (m_epool m')) -> In a (arraysOf (m_epool m)) \/ length (m_heap m) <= a).
Proof.
  intros G I0 IC CC HC IO LO CO NO E. unfold evaluatePolynomialsAtWithCoefficientsBuffer in E. unfold mEvaluate.
  destruct (Nat.eqb_spec N 0) as [Z|Z]; [discriminate E|].
  apply bind_inv in E as (r0 & E0 & E). apply slice_inv in E0 as (_ & E0 & R0).
  assert (LR0 : length r0 = N) by (rewrite R0, firstn_length, skipn_length; lia). clear R0 E0.
  pose proof (contents_length _ _ IC : length (mcontents m c) = sl_len c) as LC. pose proof (contents_length _ _ IO : length (mcontents m out) = sl_len out) as LOo. rewrite !LC in E.
  destruct (sl_len c / N =? 0); [discriminate E|].
  apply bind_inv in E as (top & E1 & E). apply bind_inv in E as (res & E2 & E). apply bind_inv in E as (w & E3 & E). inversion E; subst o'. clear E.
  remember ((sl_len c / N - 1) * N) as k0 eqn:K0.
  apply slice_inv in E1 as (H1 & H2 & E1). apply slice_inv in E3 as (_ & H3 & E3).
  rewrite LC in H2.
  assert (LT : length top = N) by (rewrite E1, firstn_length, skipn_length; rewrite LC; lia).
  rewrite gocopy_same in E2 by lia.
  (* the buffer *)
  destruct (mgetE_ok held m I0) as (rb0 & m1 & F1 & I1 & HH1 & BP1 & AE1 & RB1 & EP1). rewrite (mbind_ret _ _ _ _ _ F1). clear F1.
  destruct (mresetGrow_ok growcap rb0 N held m1 G ltac:(lia) I1) as (rb & m2 & F2 & I2 & CR & BP2 & EP2 & S2 & AR & _).
  rewrite (mbind_ret _ _ _ _ _ F2). clear F2.
  rewrite (mbind_ret _ _ _ _ _ (mslice_ok rb 0 N m2 ltac:(lia) CR)).
  rewrite (mbind_ret _ _ _ _ _ (mslice_ok c _ _ m2 H1 ltac:(lia))).
  pose proof (inv_backed _ _ _ I2 ltac:(lia)) as (BA & BO & BC).
  rewrite HH1 in S2, AR.
  assert (IRB : inb (m_heap m2) (window rb 0 N)).
  { split; cbn [window sl_arr sl_off sl_len]; [exact BA|]. rewrite BO. lia. }
  assert (NRB : ~ In (sl_arr rb) (arraysOf (held ++ buffers m2))) by (apply head_notin; [exact I2|lia]).
  assert (BUF2 : buffers m2 = buffers m1) by (unfold buffers; rewrite BP2, EP2; reflexivity).
  assert (CRB : sl_arr c <> sl_arr rb).
  { intros Q. apply NRB. rewrite <- Q, arraysOf_app. apply in_or_app. left. exact HC. }
  assert (RBW : sl_arr rb < length (m_heap m) -> In (sl_arr rb) (arraysOf (m_epool m))).
  { intros L. destruct AR as [[AR1 AR2]|AR]; [|lia]. rewrite AR2. apply RB1, AR1. }
  assert (ORB : sl_arr out <> sl_arr rb).
  { intros Q. destruct IO as [IO1 _]. rewrite Q in IO1. apply NO. rewrite Q, arraysOf_app. apply in_or_app. right.
    unfold buffers. rewrite arraysOf_app. apply in_or_app. right. apply RBW, IO1. }
  (* the copy of the top coefficients *)
  pose proof (step_inb _ _ _ _ S2 IC) as IC2.
  assert (CT : mcontents m2 (window c k0 (k0 + N)) = top).
  { unfold mcontents. rewrite contents_window by lia. rewrite E1. f_equal. f_equal. apply (step_contents _ _ _ _ S2); [apply IC|tauto]. }
  set (h3 := hwrite (m_heap m2) (sl_arr rb) (sl_off (window rb 0 N)) top).
  assert (F3 : mcopy (window rb 0 N) (window c k0 (k0 + N)) m2 = (setHeap m2 h3, Ret tt)).
  { unfold mcopy. rewrite CT. rewrite gocopy_same by (unfold mcontents; rewrite contents_length by exact IRB; cbn [window sl_len]; lia). apply mwrite_ok. }
  rewrite (mbind_ret _ _ _ _ _ F3). clear F3.
  assert (S3 : step (eq (sl_arr rb)) (m_heap m2) h3).
  { apply step_hwrite; [exact BA|]. rewrite LT. cbn [window sl_off]. lia. }
  assert (C3 : contents h3 (window rb 0 N) = top).
  { unfold h3. rewrite <- (Nat.add_0_r (sl_off (window rb 0 N))). change (sl_arr rb) with (sl_arr (window rb 0 N)).
    rewrite contents_hwrite by (try exact IRB; cbn [window sl_len]; lia). apply splice_0. rewrite contents_length by exact IRB.
    cbn [window sl_len]. lia. }
  (* Horner's rule *)
  set (R := fun (t : list byte) (s : gslice) (m' : memory) => exists h', m' = setHeap m2 h' /\ contents h' s = t /\ sl_len s = N /\ sl_len s <= sl_cap s /\ inb h' s /\
    (sl_arr s = sl_arr rb \/ length (m_heap m2) <= sl_arr s) /\ step (eq (sl_arr rb)) (m_heap m2) h').
  match goal with |- context [mforeach _ ?f _] => edestruct (mforeach_sim (X := nat) R f) as (m4 & s4 & F4 & R4); [| |exact E2|] end.
  2: { exists h3. split; [reflexivity|]. split; [exact C3|]. split; [cbn [window sl_len]; lia|]. split; [cbn [window sl_len sl_cap]; lia|].
       split; [eapply step_inb; [exact S3|exact IRB]|]. split; [left; reflexivity|exact S3]. }
  { intros i t s m' t' _ (h' & -> & D1 & D2 & D3 & D4 & D5 & D6) K.
    apply bind_inv in K as (ci & K1 & K). apply bind_inv in K as (mu & K2 & K).
    cbv beta. remember (i * N) as ki eqn:KI.
    apply slice_inv in K1 as (Q1 & Q2 & K1). rewrite LC in Q2.
    rewrite (mbind_ret _ _ _ _ _ (mslice_ok c _ _ _ Q1 ltac:(lia))).
    destruct (mMulConst_ok ar x s (setHeap m2 h') D4 D3) as (h5 & s5 & F5 & X1 & X2 & X3 & X4 & X5 & X6). cbn [setHeap m_heap] in *.
    rewrite (mbind_ret _ _ _ _ _ F5). clear F5. rewrite setHeap_setHeap.
    assert (ST : step (eq (sl_arr rb)) (m_heap m2) h5).
    { eapply step_trans; [exact D6|exact X5|]. intros a La Q. destruct D5 as [D5|D5]; [rewrite <- D5; exact Q|lia]. }
    assert (A5 : sl_arr s5 = sl_arr rb \/ length (m_heap m2) <= sl_arr s5).
    { destruct X6 as [X6|X6]; [rewrite X6; exact D5|]. right. destruct D6 as (D6 & _). lia. }
    assert (IW : inb h5 (window c ki (ki + N))) by (apply inb_window; [apply (step_inb _ _ _ _ ST), IC2|lia|lia]).
    assert (CI : mcontents (setHeap m2 h5) (window c ki (ki + N)) = ci).
    { unfold mcontents. cbn [setHeap m_heap]. rewrite contents_window by lia. rewrite K1. f_equal. f_equal.
      rewrite (step_contents _ _ _ _ ST); [apply (step_contents _ _ _ _ S2); [apply IC|tauto]|apply IC2|].
      intros Q. apply CRB. symmetry. exact Q. }
    destruct (mAddVector_ok ar (window c ki (ki + N)) s5 (setHeap m2 h5) IW X4 ltac:(cbn [window sl_len]; lia)) as (h6 & F6 & Y1 & Y2).
    cbn [setHeap m_heap] in *. rewrite F6. eexists. eexists. split; [reflexivity|].
    exists h6. rewrite setHeap_setHeap. split; [reflexivity|]. split.
    - rewrite Y1, CI. rewrite MulConstVector_ok in K2. inversion K2; subst mu. rewrite AddVector_ok in K; [inversion K; subst t'|].
      + f_equal. unfold mcontents. cbn [setHeap m_heap]. rewrite X1. unfold mcontents. cbn [setHeap m_heap]. rewrite D1. reflexivity.
      + rewrite map_length, <- D1, contents_length by exact D4. rewrite K1, firstn_length, skipn_length. rewrite LC. lia.
    - split; [lia|]. split; [exact X3|]. split; [eapply step_inb; [exact Y2|exact X4]|]. split; [exact A5|].
      eapply step_trans; [exact ST|exact Y2|]. intros a La Q. destruct A5 as [A5|A5]; [rewrite <- A5; exact Q|lia]. }
  destruct R4 as (h4 & -> & D1 & D2 & D3 & D4 & D5 & D6).
  rewrite (mbind_ret _ _ _ _ _ F4). clear F4.
  (* the result *)
  rewrite (mbind_ret _ _ _ _ _ (mslice_ok out 0 N _ ltac:(lia) ltac:(lia))).
  assert (SO : step (fun a => a = sl_arr rb) (m_heap m) h4).
  { eapply step_trans; [eapply step_weaken; [exact S2|tauto]|exact D6|]. intros a _ Q. symmetry. exact Q. }
  assert (IO4 : inb h4 (window out 0 N)) by (apply inb_window; [eapply step_inb; [exact SO|exact IO]|lia|lia]).
  assert (LRES : length res = N) by (rewrite <- D1, contents_length by exact D4; exact D2).
  assert (WL : length w = N) by (rewrite E3, firstn_length, skipn_length; rewrite LOo; lia).
  assert (F7 : mcopy (window out 0 N) s4 (setHeap m2 h4) = (setHeap m2 (hwrite h4 (sl_arr out) (sl_off out + 0) res), Ret tt)).
  { unfold mcopy. unfold mcontents at 2. cbn [setHeap m_heap]. rewrite D1.
    rewrite gocopy_same by (unfold mcontents; cbn [setHeap m_heap]; rewrite contents_length by exact IO4; cbn [window sl_len]; lia).
    rewrite mwrite_ok. reflexivity. }
  rewrite (mbind_ret _ _ _ _ _ F7). clear F7.
  assert (S7 : step (eq (sl_arr out)) h4 (hwrite h4 (sl_arr out) (sl_off out + 0) res)).
  { destruct IO4 as [W1 W2]. cbn [window sl_arr sl_off sl_len] in W1, W2. apply step_hwrite; [exact W1|rewrite LRES; lia]. }
  set (h7 := hwrite h4 (sl_arr out) (sl_off out + 0) res) in *.
  assert (S27 : step (fun a => a = sl_arr rb \/ a = sl_arr out) (m_heap m2) h7).
  { eapply step_trans; [eapply step_weaken; [exact D6|]|exact S7|]; intros a _ Q; auto. }
  assert (I7 : inv (rb :: held) (setHeap m2 h7)).
  { eapply inv_step; [exact S27|reflexivity|exact I2]. }
  destruct (mputE_ok size rb held (setHeap m2 h7) I7) as (m8 & F8 & I8 & HH8 & BP8 & EP8).
  rewrite F8. exists m8. split; [reflexivity|]. split; [exact I8|].
  split; [rewrite BP8; cbn [setHeap m_bpool]; rewrite BP2; exact BP1|].
  rewrite gocopy_same by lia.
  assert (SPL : splice (mcontents m out) 0 res = res) by (apply splice_0; lia).
  split; [rewrite SPL; exact LRES|].
  split; [|split].
  - rewrite SPL, HH8. cbn [setHeap m_heap]. unfold h7. rewrite nth_hwrite by apply IO4. rewrite Nat.eqb_refl, Nat.add_0_r.
    f_equal. apply SO; [apply IO|]. exact ORB.
  - rewrite HH8. cbn [setHeap m_heap]. eapply step_trans; [eapply step_weaken; [exact S2|tauto]|exact S27|].
    intros a La [Q|Q]; [right|left; exact Q]. rewrite Q in *. apply RBW, La.
  - intros a J. apply EP8 in J. cbn [setHeap m_epool] in J. rewrite arraysOf_cons in J by lia. destruct J as [J|J].
    + subst a. destruct (Nat.lt_ge_cases (sl_arr rb) (length (m_heap m))) as [L|L]; [left; apply RBW, L|right; exact L].
    + left. apply EP1. rewrite EP2 in J. exact J.
Qed.
