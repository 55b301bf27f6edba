(** Sharing the shares again (C87). *)
From Coq Require Import List NArith ZArith Lia Arith Bool Permutation.
From Coq.Init Require Import Byte.
From Verif Require Import GoSem Bytes Spec Vector Pool Polynomial Shamir SplitP GoFacts PolynomialFacts SplitFacts CombineFacts Secrecy CountFacts KrawczykCombine
  SplitPFacts SplitPMore SplitPTop Derived Pf1 Pf2 SpecHist SpecJoint JointFacts SpecAdaptive AdaptiveFacts SpecTree.
Import ListNotations.

Section TreeInd.
  Variable P : tree -> Prop.
  Hypothesis HL : P Leaf.
  Hypothesis HN : forall c children, Forall P children -> P (Node c children).
  Fixpoint tree_ind' (t : tree) : P t :=
    match t with
    | Leaf => HL
    | Node c children =>
      HN c children ((fix go (cs : list tree) : Forall P cs :=
        match cs with [] => Forall_nil P | x :: cs' => Forall_cons x (tree_ind' x) (go cs') end) children)
    end.
End TreeInd.

Lemma proper_forall cs m : fold_right and True (map (fun child => proper_tree child m) cs) <-> Forall (fun child => proper_tree child m) cs.
Proof. induction cs as [|c cs IH]; cbn [map fold_right]; [split; constructor|]. rewrite IH. split; [intros (A & B); constructor; assumption|intros F; inversion F; subst; split; assumption]. Qed.

(** ** one call *)
Definition callOk (c : call) (n : nat) : Prop :=
  Permutation (c_perm c) (seq 0 255) /\ 1 <= n /\ (2 <= c_threshold c)%Z /\ (c_threshold c <= c_parts c)%Z /\ (c_parts c <= 255)%Z /\
  match c_api c with ASplitP _ => (N.of_nat n <= 4294967296 - 1024)%N | _ => True end.

Definition callShares (ar : arch) (growcap : nat -> nat -> nat) (c : call) (stream : nat -> byte) (secret : list byte) : option (list (list byte)) :=
  match runCall ar growcap c stream secret with Some (Ret shares) => Some shares | _ => None end.

Definition asSplitting (c : call) (s s' : list byte) : splitting :=
  {| p_api := c_api c; p_perm := c_perm c; p_left := s; p_right := s'; p_parts := c_parts c; p_threshold := c_threshold c |}.
Definition asQuery (c : call) (s s' : list byte) (show : list nat) : query :=
  {| q_api := c_api c; q_perm := c_perm c; q_left := s; q_right := s'; q_parts := c_parts c; q_threshold := c_threshold c; q_show := show |}.

Lemma callOk_valid c (s : list byte) : callOk c (length s) -> valid_args s (c_parts c) (c_threshold c).
Proof. intros (_ & H & H1 & H2 & H3 & _). split; [intros ->; cbn in H; lia|auto]. Qed.
Lemma callOk_proper c s s' : callOk c (length s) -> length s = length s' -> proper (asSplitting c s s').
Proof. intros H L. pose proof (callOk_valid c s H) as V. destruct H as (H1 & _ & _ & _ & _ & H6). repeat split; try assumption; apply V. Qed.

Lemma callShares_ext ar growcap c st1 st2 s : grow_ok growcap -> callOk c (length s) -> (forall i, i < takes c (length s) -> st1 i = st2 i) ->
  callShares ar growcap c st1 s = callShares ar growcap c st2 s.
Proof.
  intros G H E. pose proof (callOk_proper c s s H eq_refl) as Pr. unfold callShares.
  change (runCall ar growcap c st1 s) with (splitOf true ar growcap (c_pools c) st1 (asSplitting c s s)).
  change (runCall ar growcap c st2 s) with (splitOf true ar growcap (c_pools c) st2 (asSplitting c s s)).
  destruct (splitOf_cases ar growcap _ G Pr) as [(P & _ & F)|F].
  - rewrite !F. rewrite (take_stream_ext st1 st2) by exact E. reflexivity.
  - pose proof (F true (c_pools c) st1) as F1. pose proof (F true (c_pools c) st2) as F2.
    destruct (splitOf true ar growcap (c_pools c) st1 _) as [[x1|e1|p1| |]|]; [destruct (F1 _ eq_refl)|..];
    (destruct (splitOf true ar growcap (c_pools c) st2 _) as [[x2|e2|p2| |]|]; [destruct (F2 _ eq_refl)|..]); reflexivity.
Qed.

Lemma callShares_shape ar growcap c stream s shares : grow_ok growcap -> callOk c (length s) -> callShares ar growcap c stream s = Some shares ->
  length shares = Z.to_nat (c_parts c) /\ (forall i, i < length shares -> length (nth i shares []) = length s + 1) /\
  (forall is, selection (Z.to_nat (c_parts c)) (Z.to_nat (c_threshold c)) is -> Combine (pick [] shares is) = Ret s).
Proof.
  intros G H E. pose proof (callOk_valid c s H) as V. pose proof H as (P & H2 & H3 & H4 & H5 & H6). unfold callShares, runCall in E.
  assert (K : forall polys tags, is_sharing s (Z.to_nat (c_threshold c)) polys tags shares -> length shares = Z.to_nat (c_parts c) ->
    length shares = Z.to_nat (c_parts c) /\ (forall i, i < length shares -> length (nth i shares []) = length s + 1) /\
    (forall is, selection (Z.to_nat (c_parts c)) (Z.to_nat (c_threshold c)) is -> Combine (pick [] shares is) = Ret s)).
  { intros polys tags S L. split; [exact L|]. split.
    - intros i Hi. exact (is_sharing_lengths _ _ _ _ _ i S Hi).
    - intros is Sel. rewrite <- L in Sel. refine (Combine_is_sharing s _ polys tags shares is _ _ S Sel); [lia|apply V]. }
  destruct (c_api c) as [| |sched].
  - destruct (Split_sharing ar growcap (c_perm c) stream (s_pol (c_pools c)) (s_tr (c_pools c)) (s_ev (c_pools c)) s _ _ G P V) as (sh & polys & tags & Q & S & L & _).
    rewrite Q in E. injection E as <-. exact (K _ _ S L).
  - destruct (SplitGeneric_sharing (c_perm c) stream s _ _ P V) as (sh & polys & tags & Q & S & L & _). rewrite Q in E. injection E as <-. exact (K _ _ S L).
  - destruct (SplitPRun (c_perm c) stream s (c_parts c) (c_threshold c) sched) as [[sh|e|p| |]|] eqn:Q; try discriminate. injection E as <-.
    destruct (C12_any_schedule_pf (c_perm c) stream s _ _ sched sh P H6 (proj1 (SplitPRun_spec _ _ _ _ _ _ _) Q)) as (L & _ & (polys & order & S & _) & _). exact (K _ _ S L).
Qed.

Lemma answer_callShares ar growcap c (s s' : list byte) show stream left :
  answer left ar growcap (c_pools c) stream (asQuery c s s' show) = option_map (fun sh => pick [] sh show) (callShares ar growcap c stream (if left then s else s')).
Proof. unfold answer, callShares, runCall, asQuery. cbn. destruct (c_api c); cbn; [destruct (Split _ _ _ _ _ _ _ _ _ _)|destruct (SplitGeneric _ _ _ _ _)|destruct (SplitPRun _ _ _ _ _ _) as [[]|]]; reflexivity. Qed.

(** ** reading the stream *)
Section Deal.
  Variable ar : arch.
  Variable growcap : nat -> nat -> nat.
  Hypothesis G : grow_ok growcap.

  Lemma deal_node c cs stream s : deal ar growcap (Node c cs) stream s =
    match callShares ar growcap c stream s with
    | Some shares => handOut (deal ar growcap) cs shares (fun i => stream (takes c (length s) + i))
    | None => repeat None (leaves (Node c cs))
    end.
  Proof. unfold callShares. cbn [deal]. destruct (runCall ar growcap c stream s) as [[]|]; reflexivity. Qed.

  Lemma handOut_cons {A} (f : tree -> (nat -> byte) -> list byte -> list A) child cs share shares stream :
    handOut f (child :: cs) (share :: shares) stream = f child stream share ++ handOut f cs shares (fun i => stream (need child (length share) + i)).
  Proof. reflexivity. Qed.

  Definition needs (cs : list tree) (m : nat) : nat := list_sum (map (fun child => need child m) cs).

  Lemma proper_node c cs n : proper_tree (Node c cs) n -> callOk c n /\ length cs = Z.to_nat (c_parts c) /\ Forall (fun child => proper_tree child (n + 1)) cs.
  Proof. cbn [proper_tree]. rewrite proper_forall. intros (H1 & H2 & H3 & H4 & H5 & H6 & H7 & H8). repeat split; assumption. Qed.

  Lemma deal_ext : forall t s st1 st2, proper_tree t (length s) -> (forall i, i < need t (length s) -> st1 i = st2 i) ->
    deal ar growcap t st1 s = deal ar growcap t st2 s.
  Proof.
    induction t as [|c cs IH] using tree_ind'; intros s st1 st2 Pr E; [reflexivity|]. apply proper_node in Pr as (Ok & Lc & Pc).
    rewrite !deal_node. cbn [need] in E. rewrite (callShares_ext ar growcap c st1 st2 s G Ok) by (intros i Hi; apply E; lia).
    destruct (callShares ar growcap c st2 s) as [sh|] eqn:C; [|reflexivity]. destruct (callShares_shape _ _ _ _ _ _ G Ok C) as (L & Ls & _).
    assert (F : Forall (fun x : list byte => length x = length s + 1) sh) by (apply Forall_nth; intros i d Hi; rewrite (nth_indep _ _ []) by exact Hi; apply Ls, Hi).
    assert (E' : forall i, i < needs cs (length s + 1) -> st1 (takes c (length s) + i) = st2 (takes c (length s) + i)) by (intros i Hi; apply E; unfold needs in Hi; lia).
    clear E C L Ls Lc Ok. revert sh F E'.
    set (f1 := fun i => st1 (takes c (length s) + i)). set (f2 := fun i => st2 (takes c (length s) + i)). 
    change (forall sh, Forall (fun x : list byte => length x = length s + 1) sh -> (forall i, i < needs cs (length s + 1) -> f1 i = f2 i) ->
      handOut (deal ar growcap) cs sh f1 = handOut (deal ar growcap) cs sh f2).
    generalize f1 f2. clear f1 f2. induction IH as [|t ts It _ IHs]; intros f1 f2 [|x sh] F E; try reflexivity.
    rewrite !handOut_cons. inversion F as [|? ? Fx Fs]; subst. inversion Pc as [|? ? Px Ps]; subst. unfold needs in E. cbn [map list_sum fold_right] in E. f_equal.
    - apply It; [rewrite Fx; exact Px|]. rewrite Fx. intros i Hi. apply E. lia.
    - apply IHs; [exact Ps|exact Fs|]. intros i Hi. apply E. rewrite Fx. unfold needs, list_sum in Hi. lia.
  Qed.

  Lemma handOut_ext cs m : Forall (fun child => proper_tree child m) cs -> forall sh f1 f2, Forall (fun x : list byte => length x = m) sh ->
    (forall i, i < needs cs m -> f1 i = f2 i) -> handOut (deal ar growcap) cs sh f1 = handOut (deal ar growcap) cs sh f2.
  Proof.
    induction 1 as [|t ts Pt _ IHs]; intros [|x sh] f1 f2 F E; try reflexivity.
    rewrite !handOut_cons. inversion F as [|? ? Fx Fs]; subst. unfold needs in E. cbn [map list_sum fold_right] in E. f_equal.
    - apply deal_ext; [exact Pt|]. intros i Hi. apply E. lia.
    - apply IHs; [exact Fs|]. intros i Hi. apply E. unfold needs, list_sum in Hi. lia.
  Qed.

  Lemma leaves_node c cs : leaves (Node c cs) = list_sum (map leaves cs).
  Proof. reflexivity. Qed.

  Lemma deal_length : forall t s stream, proper_tree t (length s) -> length (deal ar growcap t stream s) = leaves t.
  Proof.
    induction t as [|c cs IH] using tree_ind'; intros s stream Pr; [reflexivity|]. apply proper_node in Pr as (Ok & Lc & Pc).
    rewrite deal_node. destruct (callShares ar growcap c stream s) as [sh|] eqn:C; [|apply repeat_length]. destruct (callShares_shape _ _ _ _ _ _ G Ok C) as (L & Ls & _).
    assert (F : Forall (fun x : list byte => length x = length s + 1) sh) by (apply Forall_nth; intros i d Hi; rewrite (nth_indep _ _ []) by exact Hi; apply Ls, Hi).
    assert (LL : length sh = length cs) by congruence. rewrite leaves_node. clear C L Ls Lc Ok.
    generalize (fun i : nat => stream (takes c (length s) + i)). revert sh F LL.
    induction IH as [|t ts It _ IHs]; intros [|x sh] F LL st; try reflexivity; try discriminate.
    rewrite handOut_cons, app_length. inversion F as [|? ? Fx Fs]; subst. inversion Pc as [|? ? Px Ps]; subst. cbn [map list_sum fold_right]. f_equal.
    - apply It. rewrite Fx. exact Px.
    - apply IHs; [exact Ps|exact Fs|]. cbn in LL. lia.
  Qed.

  Lemma mask_app seen a b : mask seen (a ++ b) = mask (firstn (length a) seen) a ++ mask (skipn (length a) seen) b.
  Proof.
    unfold mask. rewrite <- map_app. f_equal. revert seen. induction a as [|x a IH]; intros seen; [reflexivity|]. destruct seen as [|y seen]; [reflexivity|].
    cbn [length app firstn skipn combine]. rewrite IH. reflexivity.
  Qed.

  (** ** secrecy *)
  Definition secret_kept (t : tree) : Prop := forall s s' seen test, proper_tree t (length s) -> length s = length s' -> qualified t seen = false ->
    count (fun r => test (mask seen (deal ar growcap t (stream_of r) s))) (all_strings (need t (length s))) =
    count (fun r => test (mask seen (deal ar growcap t (stream_of r) s'))) (all_strings (need t (length s))).

  Lemma spread_cons {A B} (f : tree -> list A -> B) child cs l : spread f (child :: cs) l = f child (firstn (leaves child) l) :: spread f cs (skipn (leaves child) l).
  Proof. reflexivity. Qed.
  Lemma spread_length {A B} (f : tree -> list A -> B) cs : forall l, length (spread f cs l) = length cs.
  Proof. induction cs as [|c cs IH]; intros l; [reflexivity|]. rewrite spread_cons. cbn. f_equal. apply IH. Qed.

  Lemma handOut_secret cs m : Forall secret_kept cs -> Forall (fun child => proper_tree child m) cs -> forall sh sh' seen test,
    length sh = length cs -> length sh' = length cs -> Forall (fun x : list byte => length x = m) sh -> Forall (fun x : list byte => length x = m) sh' ->
    (forall i, nth i (spread qualified cs seen) false = true -> nth i sh [] = nth i sh' []) ->
    count (fun r => test (mask seen (handOut (deal ar growcap) cs sh (stream_of r)))) (all_strings (needs cs m)) =
    count (fun r => test (mask seen (handOut (deal ar growcap) cs sh' (stream_of r)))) (all_strings (needs cs m)).
  Proof.
    induction cs as [|t ts IH]; intros SK Pr sh sh' seen test L L' F F' Q.
    { destruct sh, sh'; try discriminate. reflexivity. }
    destruct sh as [|x sh]; [discriminate|]. destruct sh' as [|x' sh']; [discriminate|].
    inversion SK as [|? ? SKt SKs]; subst. inversion Pr as [|? ? Pt Ps]; subst. inversion F as [|? ? Fx Fs]; subst. inversion F' as [|? ? Fx' Fs']; subst.
    set (m := length x) in *. cbn in L, L'.
    assert (E : forall (y : list byte) (ys : list (list byte)) r1 r2, length y = m -> Forall (fun x : list byte => length x = m) ys -> length r1 = need t m ->
      mask seen (handOut (deal ar growcap) (t :: ts) (y :: ys) (stream_of (r1 ++ r2))) =
      mask (firstn (leaves t) seen) (deal ar growcap t (stream_of r1) y) ++ mask (skipn (leaves t) seen) (handOut (deal ar growcap) ts ys (stream_of r2))).
    { intros y ys r1 r2 Ly Fy Lr. rewrite handOut_cons, mask_app, deal_length by (rewrite Ly; exact Pt). f_equal.
      - f_equal. apply deal_ext; [rewrite Ly; exact Pt|]. intros i Hi. unfold stream_of. apply app_nth1. rewrite Lr, <- Ly. exact Hi.
      - f_equal. apply (handOut_ext ts m); [exact Ps|exact Fy|]. intros i _. unfold stream_of. rewrite app_nth2 by (rewrite Lr, Ly; lia). f_equal. rewrite Lr, Ly. lia. }
    unfold needs. cbn [map list_sum fold_right]. fold (list_sum (map (fun child => need child m) ts)). fold (needs ts m). rewrite !count_strings.
    set (A := fun y r1 => mask (firstn (leaves t) seen) (deal ar growcap t (stream_of r1) y)).
    set (B := fun ys r2 => mask (skipn (leaves t) seen) (handOut (deal ar growcap) ts ys (stream_of r2))).
    transitivity (list_sum (map (fun r1 => count (fun r2 => test (A x r1 ++ B sh r2)) (all_strings (needs ts m))) (all_strings (need t m)))).
    { f_equal. apply map_ext_in. intros r1 H1. apply all_strings_in in H1. apply count_ext. intros r2 _. unfold A, B. rewrite E; auto. }
    transitivity (list_sum (map (fun r1 => count (fun r2 => test (A x' r1 ++ B sh' r2)) (all_strings (needs ts m))) (all_strings (need t m)))).
    2:{ f_equal. apply map_ext_in. intros r1 H1. apply all_strings_in in H1. apply count_ext. intros r2 _. unfold A, B. rewrite E; auto. }
    transitivity (list_sum (map (fun r1 => count (fun r2 => test (A x r1 ++ B sh' r2)) (all_strings (needs ts m))) (all_strings (need t m)))).
    { f_equal. apply map_ext. intros r1. unfold B. apply (IH SKs Ps sh sh' (skipn (leaves t) seen) (fun v => test (A x r1 ++ v))); try lia; try assumption.
      intros i Hi. exact (Q (S i) Hi). }
    rewrite (double_count (fun r1 r2 => test (A x r1 ++ B sh' r2))), (double_count (fun r1 r2 => test (A x' r1 ++ B sh' r2))).
    f_equal. apply map_ext. intros r2. destruct (qualified t (firstn (leaves t) seen)) eqn:Qt.
    - assert (x = x') as ->; [|reflexivity]. apply (Q 0). rewrite spread_cons. exact Qt.
    - unfold A. apply (SKt x x' (firstn (leaves t) seen) (fun v => test (v ++ B sh' r2))); [exact Pt|symmetry; exact Fx'|exact Qt].
  Qed.

  Definition fill (k m : nat) (is : list nat) (v : list (list byte)) : list (list byte) :=
    map (fun i => match find (fun p => fst p =? i) (combine is v) with Some p => snd p | None => repeat x00 m end) (seq 0 k).

  Lemma find_assoc {A} (f : nat -> A) is i : find (fun p => fst p =? i) (combine is (map f is)) = if in_dec Nat.eq_dec i is then Some (i, f i) else None.
  Proof.
    induction is as [|j is IH]; [reflexivity|]. cbn [map combine find fst]. destruct (Nat.eqb_spec j i) as [->|N].
    - destruct (in_dec Nat.eq_dec i (i :: is)) as [|NI]; [reflexivity|]. destruct NI. left. reflexivity.
    - rewrite IH. destruct (in_dec Nat.eq_dec i is) as [I|NI]; destruct (in_dec Nat.eq_dec i (j :: is)) as [I'|NI']; try reflexivity.
      + destruct NI'. right. exact I.
      + destruct I' as [|I']; [congruence|contradiction].
  Qed.

  Lemma fill_facts k m is (sh : list (list byte)) : (forall i, In i is -> i < k -> length (nth i sh []) = m) ->
    length (fill k m is (pick [] sh is)) = k /\ Forall (fun x : list byte => length x = m) (fill k m is (pick [] sh is)) /\
    (forall i, i < k -> In i is -> nth i (fill k m is (pick [] sh is)) [] = nth i sh []).
  Proof.
    intros H. unfold fill, pick.
    rewrite (map_ext _ (fun i => if in_dec Nat.eq_dec i is then nth i sh [] else repeat x00 m)).
    2:{ intros i. rewrite find_assoc. destruct (in_dec Nat.eq_dec i is); reflexivity. }
    split; [rewrite map_length, seq_length; reflexivity|]. split.
    - apply Forall_forall. intros x Hx. apply in_map_iff in Hx as (i & <- & Hi). apply in_seq in Hi. destruct (in_dec Nat.eq_dec i is) as [I|]; [apply H; [exact I|lia]|apply repeat_length].
    - intros i Hi I. rewrite nth_map_seq by exact Hi. destruct (in_dec Nat.eq_dec i is); [reflexivity|contradiction].
  Qed.

  Definition knows (quals : list bool) : list nat := filter (fun i => nth i quals false) (seq 0 (length quals)).
  Lemma knows_length quals : length (knows quals) = count (fun b : bool => b) quals.
  Proof.
    unfold knows, count. transitivity (length (filter (fun b => b) (map (fun i => nth i quals false) (seq 0 (length quals))))).
    - generalize (seq 0 (length quals)). intros l. induction l as [|i l IH]; [reflexivity|]. cbn [map filter]. destruct (nth i quals false); cbn [length]; rewrite IH; reflexivity.
    - do 2 f_equal. symmetry. exact (eq_trans (eq_sym (map_id quals)) (map_as_seq (fun s => s) quals false)).
  Qed.
  Lemma knows_in quals i : In i (knows quals) <-> nth i quals false = true.
  Proof.
    unfold knows. rewrite filter_In, in_seq. split; [intros (_ & H); exact H|]. intros H. split; [|exact H]. split; [lia|].
    destruct (Nat.lt_ge_cases i (length quals)) as [|Q]; [lia|]. rewrite nth_overflow in H by exact Q. discriminate.
  Qed.

  Lemma secret_kept_all : forall t, secret_kept t.
  Proof.
    induction t as [|c cs IH] using tree_ind'; intros s s' seen test Pr L Q.
    { unfold mask. cbn [qualified] in Q. destruct seen as [|b seen]; [reflexivity|]. cbn [nth] in Q. subst b. reflexivity. }
    apply proper_node in Pr as (Ok & Lc & Pc). set (n := length s) in *. cbn [qualified] in Q. apply Nat.leb_gt in Q.
    set (quals := spread qualified cs seen) in *. rewrite <- knows_length in Q. set (D := knows quals) in *.
    assert (LQ : length quals = length cs) by apply spread_length.
    assert (DI : forall i, In i D -> i < length cs) by (intros i Hi; unfold D, knows in Hi; apply filter_In in Hi as (Hi & _); apply in_seq in Hi; lia).
    assert (Fair : fair (asQuery c s s' D)).
    { pose proof (callOk_valid c s Ok) as V. pose proof Ok as (P & _ & _ & _ & _ & H6). split; [exact P|]. split; [exact V|]. split; [exact L|]. split; [|exact H6].
      left. split; [apply NoDup_filter, seq_NoDup|]. split; [intros i Hi; cbn; rewrite <- Lc; apply DI, Hi|exact Q]. }
    cbn [need]. fold n. fold (needs cs (n + 1)). rewrite !count_strings.
    set (Fc := fun o : option (list (list byte)) => match o with
      | Some v => count (fun r2 => test (mask seen (handOut (deal ar growcap) cs (fill (length cs) (n + 1) D v) (stream_of r2)))) (all_strings (needs cs (n + 1)))
      | None => count (fun _ : list byte => test (mask seen (repeat None (leaves (Node c cs))))) (all_strings (needs cs (n + 1))) end).
    assert (K : forall (left : bool) (r1 : list byte), In r1 (all_strings (takes c n)) ->
      count (fun r2 => test (mask seen (deal ar growcap (Node c cs) (stream_of (r1 ++ r2)) (if left then s else s' : list byte)))) (all_strings (needs cs (n + 1))) =
      Fc (answer left ar growcap empty (stream_of r1) (asQuery c s s' D))).
    { intros left r1 H1. apply all_strings_in in H1. set (w := if left then s else s' : list byte).
      assert (Lw : length w = n) by (unfold w; destruct left; [reflexivity|symmetry; exact L]).
      rewrite (answer_reads left ar growcap empty (c_pools c) (stream_of r1) (stream_of r1) _ G Fair) by (intros; reflexivity).
      rewrite answer_callShares. fold w. 
      transitivity (count (fun r2 => test (mask seen (match callShares ar growcap c (stream_of r1) w with
        | Some shares => handOut (deal ar growcap) cs shares (stream_of r2) | None => repeat None (leaves (Node c cs)) end))) (all_strings (needs cs (n + 1)))).
      { apply count_ext. intros r2 _. f_equal. f_equal. rewrite deal_node.
        rewrite (callShares_ext ar growcap c (stream_of (r1 ++ r2)) (stream_of r1)) by (try exact G; try (rewrite Lw; exact Ok); rewrite Lw; intros i Hi; unfold stream_of; apply app_nth1; lia).
        destruct (callShares ar growcap c (stream_of r1) w) as [sh|] eqn:C; [|reflexivity].
        destruct (callShares_shape _ _ _ _ _ _ G ltac:(rewrite Lw; exact Ok) C) as (L1 & Ls & _). rewrite Lw in Ls.
        apply (handOut_ext cs (n + 1)); [exact Pc| |].
        - apply Forall_nth. intros i d Hi. rewrite (nth_indep _ _ []) by exact Hi. apply Ls, Hi.
        - intros i _. rewrite Lw. unfold stream_of. rewrite app_nth2 by lia. f_equal. lia. }
      destruct (callShares ar growcap c (stream_of r1) w) as [sh|] eqn:C; cbn [option_map]; [|reflexivity].
      destruct (callShares_shape _ _ _ _ _ _ G ltac:(rewrite Lw; exact Ok) C) as (L1 & Ls & _). rewrite Lw in Ls. unfold Fc.
      destruct (fill_facts (length cs) (n + 1) D sh) as (F1 & F2 & F3); [intros i _ Hi; apply Ls; lia|].
      apply (handOut_secret cs (n + 1)); try assumption; [congruence| |].
      - apply Forall_nth. intros i d Hi. rewrite (nth_indep _ _ []) by exact Hi. apply Ls, Hi.
      - intros i Hi. fold quals in Hi. apply knows_in in Hi. fold D in Hi. symmetry. apply F3; [apply DI, Hi|exact Hi]. }
    rewrite (map_ext_in _ _ _ (K true)), (map_ext_in _ _ _ (K false)).
    apply (equal_sums view_dec (fun r1 => answer true ar growcap empty (stream_of r1) (asQuery c s s' D)) (fun r1 => answer false ar growcap empty (stream_of r1) (asQuery c s s' D)) (all_strings (takes c n)) Fc).
    intros tst. exact (answer_any ar growcap _ tst G Fair).
  Qed.

  (** ** recovery *)
  Lemma leaves_pos : forall t n, proper_tree t n -> 1 <= leaves t.
  Proof.
    induction t as [|c cs IH] using tree_ind'; intros n Pr; [apply le_n|]. apply proper_node in Pr as (Ok & Lc & Pc). destruct Ok as (_ & _ & H1 & H2 & _).
    destruct cs as [|t ts]; [cbn in Lc; lia|]. inversion IH as [|? ? It _]; subst. inversion Pc as [|? ? Pt _]; subst. specialize (It _ Pt).
    rewrite leaves_node. cbn [map list_sum fold_right]. lia.
  Qed.

  Definition choose (quals : list bool) (sh : list (list byte)) : list (list byte) :=
    present (map (fun p : bool * list byte => if fst p then Some (snd p) else None) (combine quals sh)).

  Lemma choose_pick quals : forall sh, length sh = length quals -> choose quals sh = pick [] sh (knows quals).
  Proof.
    unfold choose, knows, pick. induction quals as [|q quals IH]; intros [|x sh] L; try discriminate; [reflexivity|].
    cbn [length seq] in *. rewrite <- seq_shift.
    assert (E : filter (fun i => nth i (q :: quals) false) (map S (seq 0 (length quals))) = map S (filter (fun i => nth i quals false) (seq 0 (length quals)))).
    { generalize (seq 0 (length quals)). intros l. induction l as [|i l IHl]; [reflexivity|]. cbn [map filter]. change (nth (S i) (q :: quals) false) with (nth i quals false).
      destruct (nth i quals false); cbn [map]; rewrite IHl; reflexivity. }
    specialize (IH sh ltac:(lia)).
    match goal with |- _ = map _ (filter _ (0 :: ?l)) => change (filter (fun i => nth i (q :: quals) false) (0 :: l)) with (if q then 0 :: filter (fun i => nth i (q :: quals) false) l else filter (fun i => nth i (q :: quals) false) l) end.
    rewrite E. destruct q; cbn [combine present map fst snd]; rewrite IH, map_map; reflexivity.
  Qed.

  Definition recovers (t : tree) : Prop := forall s stream seen, proper_tree t (length s) -> length seen = leaves t ->
    Forall (fun o => o <> None) (deal ar growcap t stream s) ->
    recover t (mask seen (deal ar growcap t stream s)) = if qualified t seen then Some s else None.

  Lemma spread_recover cs m : Forall recovers cs -> Forall (fun child => proper_tree child m) cs -> forall sh stream seen,
    length sh = length cs -> Forall (fun x : list byte => length x = m) sh -> length seen = list_sum (map leaves cs) ->
    Forall (fun o => o <> None) (handOut (deal ar growcap) cs sh stream) ->
    spread recover cs (mask seen (handOut (deal ar growcap) cs sh stream)) =
    map (fun p : bool * list byte => if fst p then Some (snd p) else None) (combine (spread qualified cs seen) sh).
  Proof.
    induction cs as [|t ts IH]; intros R Pr sh stream seen L F Ls N; [reflexivity|]. destruct sh as [|x sh]; [discriminate|].
    inversion R as [|? ? Rt Rs]; subst. inversion Pr as [|? ? Pt Ps]; subst. inversion F as [|? ? Fx Fs]; subst. cbn [map list_sum fold_right] in Ls. fold (list_sum (map leaves ts)) in Ls.
    rewrite handOut_cons in *. apply Forall_app in N as (N1 & N2). rewrite mask_app, deal_length by exact Pt.
    assert (LM : length (mask (firstn (leaves t) seen) (deal ar growcap t stream x)) = leaves t).
    { unfold mask. rewrite map_length, combine_length, deal_length, firstn_length by exact Pt. lia. }
    rewrite !spread_cons. cbn [combine map fst snd]. f_equal.
    - rewrite firstn_app, LM, Nat.sub_diag. cbn [firstn]. rewrite app_nil_r, firstn_all2 by lia.
      apply Rt; [exact Pt|rewrite firstn_length; lia|exact N1].
    - rewrite skipn_app, LM, Nat.sub_diag. cbn [skipn]. rewrite skipn_all2 by lia. cbn [app].
      apply IH; try assumption; [cbn in L; lia|]. rewrite skipn_length. unfold list_sum in *. lia.
  Qed.

  Lemma recovers_all : forall t, recovers t.
  Proof.
    induction t as [|c cs IH] using tree_ind'; intros s stream seen Pr Ls N.
    { destruct seen as [|b [|]]; try discriminate. destruct b; reflexivity. }
    pose proof (leaves_pos _ _ Pr) as LP. apply proper_node in Pr as (Ok & Lc & Pc).
    rewrite deal_node in *. destruct (callShares ar growcap c stream s) as [sh|] eqn:C.
    2:{ destruct (leaves (Node c cs)); [lia|]. inversion N; congruence. }
    destruct (callShares_shape _ _ _ _ _ _ G Ok C) as (L & Lsh & Rec).
    cbn [recover qualified]. rewrite (spread_recover cs (length s + 1)); try assumption; try congruence.
    2:{ apply Forall_nth. intros i d Hi. rewrite (nth_indep _ _ []) by exact Hi. apply Lsh, Hi. }
    change (present (map (fun p : bool * list byte => if fst p then Some (snd p) else None) (combine (spread qualified cs seen) sh))) with (choose (spread qualified cs seen) sh).
    rewrite choose_pick by (rewrite spread_length; congruence). unfold pick at 1. rewrite map_length, knows_length.
    destruct (Nat.leb_spec (Z.to_nat (c_threshold c)) (count (fun b : bool => b) (spread qualified cs seen))) as [T|T]; [|reflexivity].
    rewrite Rec; [reflexivity|]. split; [apply NoDup_filter, seq_NoDup|]. split.
    - intros i Hi. unfold knows in Hi. apply filter_In in Hi as (Hi & _). apply in_seq in Hi. rewrite spread_length in Hi. lia.
    - rewrite knows_length. exact T.
  Qed.

  Lemma deals_all : forall t s stream, proper_tree t (length s) -> no_SplitP t -> Forall (fun o => o <> None) (deal ar growcap t stream s).
  Proof.
    induction t as [|c cs IH] using tree_ind'; intros s stream Pr NS; [repeat constructor; discriminate|]. apply proper_node in Pr as (Ok & Lc & Pc).
    cbn [no_SplitP] in NS. destruct NS as (A & NS). rewrite deal_node.
    assert (exists sh, callShares ar growcap c stream s = Some sh) as (sh & C).
    { pose proof (callOk_valid c s Ok) as V. pose proof Ok as (P & _). unfold callShares, runCall. destruct (c_api c); [| |contradiction].
      - destruct (C01_split_combine_pf ar growcap (c_perm c) stream (s_pol (c_pools c)) (s_tr (c_pools c)) (s_ev (c_pools c)) s _ _ G P V) as (sh & -> & _). eexists; reflexivity.
      - destruct (C11_generic_combine_pf (c_perm c) stream s _ _ P V) as (sh & -> & _). eexists; reflexivity. }
    rewrite C. destruct (callShares_shape _ _ _ _ _ _ G Ok C) as (L & Lsh & _).
    assert (F : Forall (fun x : list byte => length x = length s + 1) sh) by (apply Forall_nth; intros i d Hi; rewrite (nth_indep _ _ []) by exact Hi; apply Lsh, Hi).
    clear C L Lsh Lc Ok. generalize (fun i : nat => stream (takes c (length s) + i)). revert sh F.
    induction IH as [|t ts It _ IHs]; intros [|x sh] F st; try constructor.
    rewrite handOut_cons. inversion F as [|? ? Fx Fs]; subst. inversion Pc as [|? ? Px Ps]; subst. cbn [map fold_right] in NS. destruct NS as (N1 & N2).
    apply Forall_app. split; [apply It; [rewrite Fx; exact Px|exact N1]|]. apply IHs; assumption.
  Qed.
End Deal.

(** ** an attacker that wins people over one by one *)
Definition views_dec : forall x y : list (option (list byte)), {x = y} + {x <> y} .
Proof. apply list_eq_dec. decide equality. apply list_eq_dec, byte_eq_dec. Defined.
Definition veq (x y : list (option (list byte))) : bool := if views_dec x y then true else false.
Lemma veq_true x y : veq x y = true <-> x = y.
Proof. unfold veq. destruct (views_dec x y); split; congruence. Qed.

Lemma count_split_values {A} (f : A -> list (option (list byte))) (P : A -> bool) V l : NoDup V -> (forall a, In a l -> In (f a) V) ->
  count P l = list_sum (map (fun v => count (fun a => P a && veq (f a) v) l) V).
Proof.
  intros ND. induction l as [|a l IH]; intros H.
  - unfold count. cbn [filter length]. rewrite (list_sum_const V 0). lia.
  - assert (E : map (fun v => count (fun a => P a && veq (f a) v) (a :: l)) V =
                map (fun v => (if P a && veq (f a) v then 1 else 0) + count (fun a => P a && veq (f a) v) l) V).
    { apply map_ext. intros v. unfold count. cbn [filter]. destruct (P a && veq (f a) v); reflexivity. }
    rewrite E, list_sum_add. rewrite <- IH by (intros b Hb; apply H; right; exact Hb).
    assert (K : list_sum (map (fun v => if P a && veq (f a) v then 1 else 0) V) = if P a then 1 else 0).
    { specialize (H a (or_introl eq_refl)). destruct (P a); cbn [andb].
      - clear E IH. revert ND H. generalize (f a). intros x ND H. induction V as [|v V IH]; [destruct H|]. inversion ND as [|? ? NI ND']; subst.
        cbn [map]. change (list_sum (?y :: ?r)) with (y + list_sum r). destruct H as [->|H].
        + replace (veq x x) with true by (symmetry; apply veq_true; reflexivity).
          rewrite (map_ext_in _ (fun _ => 0)), list_sum_const; [lia|]. intros w Hw. destruct (veq x w) eqn:Q; [|reflexivity]. apply veq_true in Q. subst w. contradiction.
        + rewrite (IH ND' H). destruct (veq x v) eqn:Q; [|reflexivity]. apply veq_true in Q. subst v. contradiction.
      - rewrite (list_sum_const V 0). lia. }
    rewrite K. unfold count. cbn [filter]. destruct (P a); reflexivity.
Qed.

Lemma nth_mask seen X i : length X = length seen -> nth i (mask seen X) None = if nth i seen false then nth i X None else None.
Proof.
  revert X i. induction seen as [|b seen IH]; intros [|x X] i L; try discriminate; [destruct i; reflexivity|].
  cbn in L. destruct i as [|i]; [reflexivity|]. exact (IH X i ltac:(lia)).
Qed.
Lemma mask_length seen X : length X = length seen -> length (mask seen X) = length seen.
Proof. intros L. unfold mask. rewrite map_length, combine_length. lia. Qed.
Lemma with_person_length seen i : length (with_person seen i) = length seen.
Proof. unfold with_person. rewrite map_length. apply seq_length. Qed.
Lemma nth_with_person seen i j : nth j (with_person seen i) false = if j <? length seen then nth j seen false || (j =? i) else false.
Proof.
  unfold with_person. destruct (Nat.ltb_spec j (length seen)) as [H|H].
  - rewrite nth_map_seq by exact H. reflexivity.
  - apply nth_overflow. rewrite map_length, seq_length. exact H.
Qed.
Lemma mask_again seen i X : length X = length seen -> mask seen (mask (with_person seen i) X) = mask seen X.
Proof.
  intros L. assert (L1 : length X = length (with_person seen i)) by (rewrite with_person_length; exact L).
  assert (L2 : length (mask (with_person seen i) X) = length seen) by (rewrite mask_length by exact L1; apply with_person_length).
  apply (nth_ext _ _ None None); [rewrite (mask_length seen _ L2), (mask_length seen X L); reflexivity|]. intros j Hj. rewrite (mask_length seen _ L2) in Hj.
  rewrite (nth_mask seen _ j L2), (nth_mask seen X j L), (nth_mask _ X j L1), nth_with_person.
  destruct (Nat.ltb_spec j (length seen)) as [|B]; [|lia]. destruct (nth j seen false); reflexivity.
Qed.

Lemma corrupt_counts {A} t att (guess : list (option (list byte)) -> bool) (X Y : A -> list (option (list byte))) l :
  (forall seen test, qualified t seen = false -> count (fun r => test (mask seen (X r))) l = count (fun r => test (mask seen (Y r))) l) ->
  (forall r, In r l -> length (X r) = leaves t /\ length (Y r) = leaves t) ->
  forall n seen told v, length seen = leaves t -> qualified t seen = false ->
  count (fun r => guess (corrupt t att (X r) n seen told) && veq (mask seen (X r)) v) l =
  count (fun r => guess (corrupt t att (Y r) n seen told) && veq (mask seen (Y r)) v) l.
Proof.
  intros ST LN. induction n as [|n IH]; intros seen told v Ls Q.
  - cbn [corrupt]. exact (ST seen (fun m => guess told && veq m v) Q).
  - cbn [corrupt]. set (i := att told). set (seen' := with_person seen i). destruct (qualified t seen') eqn:Q'; [apply IH; assumption|].
    assert (Ls' : length seen' = leaves t) by (unfold seen'; rewrite with_person_length; exact Ls).
    set (V := nodup views_dec (map (fun r => mask seen' (X r)) l ++ map (fun r => mask seen' (Y r)) l)).
    rewrite (count_split_values (fun r => mask seen' (X r)) _ V l), (count_split_values (fun r => mask seen' (Y r)) _ V l);
      [|apply NoDup_nodup|intros a Ha; apply nodup_In, in_or_app; right; exact (in_map (fun r => mask seen' (Y r)) l a Ha)|
        apply NoDup_nodup|intros a Ha; apply nodup_In, in_or_app; left; exact (in_map (fun r => mask seen' (X r)) l a Ha)].
    f_equal. apply map_ext. intros w.
    assert (K : forall Z : A -> list (option (list byte)), (forall r, In r l -> length (Z r) = leaves t) ->
      count (fun r => guess (corrupt t att (Z r) n seen' (nth i (Z r) None :: told)) && veq (mask seen (Z r)) v && veq (mask seen' (Z r)) w) l =
      if veq (mask seen w) v then count (fun r => guess (corrupt t att (Z r) n seen' (nth i w None :: told)) && veq (mask seen' (Z r)) w) l else 0).
    { intros Z LZ. transitivity (count (fun r => veq (mask seen w) v && (guess (corrupt t att (Z r) n seen' (nth i w None :: told)) && veq (mask seen' (Z r)) w)) l).
      - apply count_ext. intros r Hr. destruct (veq (mask seen' (Z r)) w) eqn:E; [|rewrite !andb_false_r; reflexivity]. apply veq_true in E.
        assert (E1 : mask seen w = mask seen (Z r)) by (rewrite <- E; apply mask_again; rewrite (LZ r Hr); symmetry; exact Ls).
        assert (E2 : nth i w None = nth i (Z r) None).
        { rewrite <- E, nth_mask by (rewrite (LZ r Hr); symmetry; exact Ls'). unfold seen'. rewrite nth_with_person, Nat.eqb_refl, orb_true_r. destruct (Nat.ltb_spec i (length seen)) as [|B]; [reflexivity|].
          symmetry. apply nth_overflow. rewrite (LZ r Hr). lia. }
        rewrite E1, E2, !andb_true_r. apply andb_comm.
      - destruct (veq (mask seen w) v); [reflexivity|]. apply count_0. intros; reflexivity. }
    rewrite (K X) by (intros r Hr; apply LN, Hr). rewrite (K Y) by (intros r Hr; apply LN, Hr).
    destruct (veq (mask seen w) v); [|reflexivity]. apply IH; [exact Ls'|exact Q'].
Qed.

Lemma nobody_qualified : forall t n, proper_tree t n -> qualified t (repeat false (leaves t)) = false.
Proof.
  induction t as [|c cs IH] using tree_ind'; intros n Pr; [reflexivity|]. apply proper_node in Pr as (Ok & _ & Pc). destruct Ok as (_ & _ & H2 & _).
  cbn [qualified]. apply Nat.leb_gt. enough (E : count (fun b : bool => b) (spread qualified cs (repeat false (leaves (Node c cs)))) = 0) by lia.
  rewrite leaves_node. clear H2. induction IH as [|t ts It _ IHs]; [reflexivity|]. inversion Pc as [|? ? Pt Ps]; subst.
  cbn [map list_sum fold_right]. fold (list_sum (map leaves ts)). rewrite repeat_app, spread_cons, firstn_app, skipn_app, repeat_length, Nat.sub_diag.
  cbn [firstn skipn]. rewrite app_nil_r, firstn_all2, skipn_all2 by (rewrite repeat_length; lia). cbn [app]. rewrite (It _ Pt). exact (IHs Ps).
Qed.
Lemma mask_nobody k X : length X = k -> mask (repeat false k) X = repeat None k.
Proof. revert X. induction k as [|k IH]; intros [|x X] L; try discriminate; [reflexivity|]. cbn in L. unfold mask. cbn [repeat combine map fst]. f_equal. apply IH. lia. Qed.

Lemma corrupt_secret ar growcap t (s s' : list byte) att guess n : grow_ok growcap -> proper_tree t (length s) -> length s = length s' ->
  count (fun r => guess (corrupt t att (deal ar growcap t (stream_of r) s) n (repeat false (leaves t)) [])) (all_strings (need t (length s))) =
  count (fun r => guess (corrupt t att (deal ar growcap t (stream_of r) s') n (repeat false (leaves t)) [])) (all_strings (need t (length s))).
Proof.
  intros G Pr L.
  assert (LN : forall r, length (deal ar growcap t (stream_of r) s) = leaves t /\ length (deal ar growcap t (stream_of r) s') = leaves t)
    by (intros r; split; apply deal_length; try exact G; [|rewrite <- L]; exact Pr).
  pose proof (corrupt_counts t att guess (fun r => deal ar growcap t (stream_of r) s) (fun r => deal ar growcap t (stream_of r) s') (all_strings (need t (length s)))
    (fun seen test Q => secret_kept_all ar growcap G t s s' seen test Pr L Q) (fun r _ => LN r) n (repeat false (leaves t)) [] (repeat None (leaves t))
    (repeat_length _ _) (nobody_qualified t _ Pr)) as K. cbv beta in K.
  refine (eq_trans _ (eq_trans K _)); apply count_ext; intros r _; destruct (LN r) as (L1 & L2); rewrite mask_nobody by assumption;
    (replace (veq _ _) with true by (symmetry; apply veq_true; reflexivity)); rewrite andb_true_r; reflexivity.
Qed.
