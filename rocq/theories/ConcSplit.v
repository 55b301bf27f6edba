(** The code of Concurrency.v for Split and SplitWithRandomizer follows the rules of the pool, and alone it computes what the
    functions of Shamir.v compute. *)
From Coq Require Import List NArith ZArith Lia Arith Bool Permutation.
From Coq.Init Require Import Byte.
From Verif Require Import GoSem Bytes Spec GoFacts Galois Vector VectorFacts Csprng Pool Polynomial Shamir Concurrency SpecConc ConcFacts.
Import ListNotations.

(** ** following the rules, with a condition on what is held at the end *)
Fixpoint wbQ {A} (own : list nat) (p : prog A) (Q : list nat -> outcome A -> Prop) : Prop :=
  match p with
  | PDone o => Q own o
  | PGet _ k => forall b, ~ In b own -> wbQ (b :: own) (k b) Q
  | PPut _ b k => In b own /\ wbQ (remove Nat.eq_dec b own) k Q
  | PCap b k => In b own /\ forall n, wbQ own (k n) Q
  | PAlloc b _ k => In b own /\ wbQ own k Q
  | PLoad b _ k => In b own /\ forall v, wbQ own (k v) Q
  | PStore b _ _ k => In b own /\ wbQ own k Q
  end.

Lemma wbQ_mono {A} (p : prog A) : forall own (Q Q' : list nat -> outcome A -> Prop), (forall o' x, Q o' x -> Q' o' x) -> wbQ own p Q -> wbQ own p Q'.
Proof. induction p; cbn; intros own Q Q' M W; intuition eauto. Qed.

Lemma wbQ_seq {A B} (m : prog A) (f : outcome A -> prog B) Q : forall own, wbQ own m (fun own' o => wbQ own' (f o) Q) -> wbQ own (pseq m f) Q.
Proof. induction m; cbn; intros own W; intuition eauto. Qed.

Lemma wbQ_wb {A} (p : prog A) : forall own Q, wbQ own p Q -> well_behaved own p.
Proof. induction p; cbn; intros own Q W; intuition eauto. Qed.

(** [p] keeps what it holds when it returns normally *)
Definition wbk {A} (own : list nat) (p : prog A) : Prop := wbQ own p (fun own' o => match o with Ret _ => own' = own | _ => True end).

Lemma wbk_bind {A B} own (m : prog A) (f : A -> prog B) : wbk own m -> (forall a, wbk own (f a)) -> wbk own (pbind m f).
Proof.
  intros W F. unfold wbk, pbind. apply wbQ_seq. eapply wbQ_mono; [|exact W]. intros own' [a|e|p| |] H; cbn [wbQ]; try exact I. subst own'. apply F.
Qed.

Lemma wbk_done {A} own (o : outcome A) : wbk own (PDone o).
Proof. unfold wbk. cbn. destruct o; [reflexivity|exact I..]. Qed.

Lemma wbk_foreach {X S} own (f : X -> S -> prog S) l : (forall x s, wbk own (f x s)) -> forall s, wbk own (pforeach l f s).
Proof. intros F. induction l as [|x l IH]; intros s; cbn [pforeach]; [apply wbk_done|]. apply wbk_bind; [apply F|exact IH]. Qed.

Lemma wbk_resetGrow growcap own b n : In b own -> wbk own (resetGrowP growcap b n).
Proof. intros H. unfold wbk, resetGrowP. cbn. split; [exact H|]. intros c. destruct (n <=? c); cbn; [reflexivity|split; [exact H|reflexivity]]. Qed.
Lemma wbk_bytes own b n : In b own -> wbk own (bytesP b n).
Proof. intros H. unfold wbk, bytesP. cbn. split; [exact H|]. intros c. destruct (n <=? c); cbn; [reflexivity|exact I]. Qed.
Lemma wbk_loadW own b n i : In b own -> wbk own (loadW b n i).
Proof. intros H. unfold loadW. destruct (i <? n); [|apply wbk_done]. unfold wbk. cbn. split; [exact H|reflexivity]. Qed.
Lemma wbk_storeW own b n i v : In b own -> wbk own (storeW b n i v).
Proof. intros H. unfold storeW. destruct (i <? n); [|apply wbk_done]. unfold wbk. cbn. split; [exact H|reflexivity]. Qed.
Lemma wbk_sliceW own n s e : wbk own (sliceW n s e).
Proof. unfold sliceW. destruct ((s <=? e) && (e <=? n)); apply wbk_done. Qed.
Lemma wbk_loadN own b l : In b own -> forall s, wbk own (loadN b s l).
Proof.
  intros H. induction l as [|l IH]; intros s; cbn [loadN]; [apply wbk_done|]. unfold wbk. cbn [wbQ]. split; [exact H|]. intros v.
  exact (wbk_bind own (loadN b (S s) l) (fun r => pret (v :: r)) (IH (S s)) (fun a => wbk_done own (Ret (v :: a)))).
Qed.
Lemma wbk_storeN own b l : In b own -> forall s, wbk own (storeN b s l).
Proof. intros H. induction l as [|v l IH]; intros s; cbn [storeN]; [apply wbk_done|]. unfold wbk. cbn [wbQ]. split; [exact H|]. apply IH. Qed.

Lemma remove_head b (own : list nat) : ~ In b own -> remove Nat.eq_dec b (b :: own) = own.
Proof. intros H. cbn [remove]. destruct (Nat.eq_dec b b); [|congruence]. apply notin_remove. exact H. Qed.

Lemma wbk_get {A} own pl (k : nat -> prog A) : (forall b, ~ In b own -> wbQ (b :: own) (k b) (fun own' o => match o with Ret _ => own' = own | _ => True end)) -> wbk own (PGet pl k).
Proof. intros H. exact H. Qed.

(** a piece that keeps [own], followed by a rest with its own end condition *)
Lemma wbQ_bind_k {A B} own (m : prog A) (f : A -> prog B) (Q : list nat -> outcome B -> Prop) : wbk own m -> (forall own' o, (forall a, o <> Ret a) -> Q own' o) -> (forall a, wbQ own (f a) Q) -> wbQ own (pbind m f) Q.
Proof.
  intros W QF F. unfold pbind. apply wbQ_seq. eapply wbQ_mono; [|exact W]. intros own' [a|e|p| |] H; cbn [wbQ].
  - subst own'. apply F.
  - apply QF. discriminate.
  - apply QF. discriminate.
  - apply QF. discriminate.
  - apply QF. discriminate.
Qed.

Ltac piece := apply wbQ_bind_k; [|intros ? o Ho; destruct o as [a|?|?| |]; [exfalso; apply (Ho a); reflexivity|exact I..]|].

Lemma wbk_evaluate ar growcap own cb n rowLen x out : In cb own -> wbk own (evaluateP ar growcap cb n rowLen x out).
Proof.
  intros Hc. unfold evaluateP. destruct (rowLen =? 0); [apply wbk_done|]. apply wbk_get. intros rb Hrb.
  assert (Ir : In rb (rb :: own)) by (left; reflexivity). assert (Ic : In cb (rb :: own)) by (right; exact Hc).
  piece; [apply wbk_resetGrow, Ir|]. intros _. piece; [apply wbk_bytes, Ir|]. intros _.
  destruct (n / rowLen =? 0); [exact I|]. cbv zeta.
  piece; [apply wbk_sliceW|]. intros _. piece; [apply wbk_loadN, Ic|]. intros top. piece; [apply wbk_storeN, Ir|]. intros _.
  piece.
  - apply wbk_foreach. intros i loc. apply wbk_bind; [apply wbk_sliceW|]. intros _.
    apply wbk_bind; [destruct loc; [apply wbk_done|apply wbk_loadN, Ir]|]. intros result. apply wbk_bind; [apply wbk_loadN, Ic|]. intros ci.
    apply wbk_bind; [apply wbk_done|]. intros m. apply wbk_bind; [apply wbk_done|]. intros r.
    destruct ar; try apply wbk_done. apply wbk_bind; [apply wbk_storeN, Ir|]. intros _. apply wbk_bind; [apply wbk_storeN, Ir|]. intros _. apply wbk_done.
  - intros loc. piece; [destruct loc; [apply wbk_done|apply wbk_loadN, Ir]|]. intros result. piece; [apply wbk_done|]. intros w.
    cbn [wbQ pret]. split; [exact Ir|]. apply remove_head, Hrb.
Qed.

Lemma wbk_splitRest ar growcap mk xs buff secret parts threshold own :
  (forall degree b n own, In b own -> wbk own (mk degree b n)) -> wbk own (splitRestP ar growcap mk xs buff secret parts threshold).
Proof.
  intros M. unfold splitRestP. cbv zeta. apply wbk_get. intros polB Hp. set (len := (Z.to_nat (threshold - 1) + 1) * length secret).
  piece; [apply wbk_resetGrow; left; reflexivity|]. intros _. piece; [apply wbk_bytes; left; reflexivity|]. intros _.
  piece; [apply M; left; reflexivity|]. intros _. cbn [wbQ]. intros trB Ht.
  piece; [apply wbk_resetGrow; left; reflexivity|]. intros _. piece; [apply wbk_bytes; left; reflexivity|]. intros _.
  piece.
  { unfold transposeMatrixBufferP. destruct (Z.to_nat (threshold - 1) + 1 =? 0); [apply wbk_done|]. apply wbk_bind; [|intros _; apply wbk_done].
    apply wbk_foreach. intros i (r & c). apply wbk_bind; [apply wbk_loadW; right; left; reflexivity|]. intros v.
    apply wbk_bind; [apply wbk_storeW; left; reflexivity|]. intros _. cbv zeta. destruct (r + 1 =? _); apply wbk_done. }
  intros _. piece.
  { unfold evalLoopP. apply wbk_foreach. intros i bf. cbv zeta. apply wbk_bind; [apply wbk_done|]. intros w. apply wbk_bind; [apply wbk_done|]. intros x.
    apply wbk_bind; [apply wbk_done|]. intros o. apply wbk_bind; [apply wbk_evaluate; left; reflexivity|]. intros o'. apply wbk_done. }
  intros bf. piece; [apply wbk_done|]. intros out. cbn [wbQ pret].
  rewrite (remove_head trB) by exact Ht. rewrite (remove_head polB) by exact Hp. repeat split; left; reflexivity.
Qed.

Lemma wbk_setIntercepts intercepts degree b n own : In b own -> wbk own (setInterceptsP intercepts degree b n).
Proof.
  intros H. unfold setInterceptsP. apply wbk_foreach. intros p _. cbv zeta. apply wbk_bind; [apply wbk_sliceW|]. intros _. apply wbk_bind; [apply wbk_done|]. intros ip.
  destruct (0 <? _); [|apply wbk_done]. unfold wbk. cbn. split; [exact H|reflexivity].
Qed.

Lemma wbk_call ar growcap c own : wbk own (callProg ar growcap c).
Proof.
  destruct c; cbn [callProg].
  - unfold SplitProg. destruct (checkArgs secret parts threshold); [apply wbk_done|]. apply wbk_bind; [apply wbk_done|]. intros buff. apply wbk_splitRest.
    intros degree b n own' H. unfold makePolynomialsWithBuffP. apply wbk_bind; [apply wbk_storeN, H|]. intros _. apply wbk_setIntercepts, H.
  - unfold SplitWithRandomizerProg. destruct (checkArgs secret parts threshold); [apply wbk_done|]. apply wbk_bind; [apply wbk_done|]. intros xs.
    apply wbk_bind; [apply wbk_done|]. intros buff. apply wbk_splitRest.
    intros degree b n own' H. unfold makePolynomialsWithBuffAndRandomizerP. apply wbk_bind; [|intros _; apply wbk_setIntercepts, H].
    apply wbk_foreach. intros j _. apply wbk_bind; [apply wbk_loadW, H|]. intros v. apply wbk_storeW, H.
Qed.

Lemma wb_goroutine ar growcap calls : forall own results, well_behaved own (goroutine ar growcap calls results).
Proof.
  intros own results. apply wbQ_wb with (Q := fun _ _ => True). revert own results. induction calls as [|c calls IH]; intros own results; cbn [goroutine]; [exact I|].
  apply wbQ_seq. eapply wbQ_mono; [|apply wbk_call]. intros own' o _. destruct o; try exact I; apply IH.
Qed.

(** ** running alone: weakest preconditions *)
Fixpoint aw {A} (own : list nat) (h : nat -> list byte) (p : prog A) (Post : list nat -> (nat -> list byte) -> outcome A -> Prop) : Prop :=
  match p with
  | PDone o => Post own h o
  | PGet _ k => forall b c, ~ In b own -> aw (b :: own) (setBuf h b c) (k b) Post
  | PPut _ b k => aw (remove Nat.eq_dec b own) h k Post
  | PCap b k => aw own h (k (length (h b))) Post
  | PAlloc b n k => aw own (setBuf h b (zeros n)) k Post
  | PLoad b i k => match nth_error (h b) i with Some v => aw own h (k v) Post | None => Post own h (Panic PIndex) end
  | PStore b i v k => if i <? length (h b) then aw own (setBuf h b (setNth (h b) i v)) k Post else Post own h (Panic PIndex)
  end.

Lemma aw_sound {A} own h (p : prog A) own' h' o : alone own h p own' h' o -> forall Post, aw own h p Post -> Post own' h' o.
Proof.
  induction 1; intros Post W; cbn [aw] in W; try (apply IHalone; auto; fail); auto.
  - rewrite H in W. apply IHalone, W.
  - rewrite H in W. exact W.
  - rewrite (proj2 (Nat.ltb_lt _ _) H) in W. apply IHalone, W.
  - rewrite (proj2 (Nat.ltb_ge _ _) H) in W. exact W.
Qed.

Lemma aw_complete {A} (p : prog A) : forall own h (Post : list nat -> (nat -> list byte) -> outcome A -> Prop), (forall own' h' o, alone own h p own' h' o -> Post own' h' o) -> aw own h p Post.
Proof.
  induction p; cbn [aw]; intros own h Post W.
  - apply W. constructor.
  - intros b c Hb. apply H. intros. apply W. econstructor; eassumption.
  - apply IHp. intros. apply W. constructor. assumption.
  - apply H. intros. apply W. constructor. assumption.
  - apply IHp. intros. apply W. constructor. assumption.
  - destruct (nth_error (h b) i) eqn:E; [apply H; intros; apply W; econstructor; eassumption|apply W; constructor; exact E].
  - destruct (Nat.ltb_spec i (length (h b))); [apply IHp; intros; apply W; constructor; assumption|apply W; constructor; assumption].
Qed.

Lemma aw_mono {A} (p : prog A) : forall own h (P Q : list nat -> (nat -> list byte) -> outcome A -> Prop), (forall o' h' x, P o' h' x -> Q o' h' x) -> aw own h p P -> aw own h p Q.
Proof.
  induction p; cbn [aw]; intros own h P Q M W; eauto.
  - destruct (nth_error (h b) i); eauto.
  - destruct (i <? length (h b)); eauto.
Qed.

Lemma aw_seq {A B} (m : prog A) (f : outcome A -> prog B) Post : f (Panic PIndex) = PDone (Panic PIndex) ->
  forall own h, aw own h m (fun own' h' o => aw own' h' (f o) Post) -> aw own h (pseq m f) Post.
Proof.
  intros PP. induction m; cbn [pseq aw]; intros own h W; eauto.
  - destruct (nth_error (h b) i); eauto. rewrite PP in W. exact W.
  - destruct (i <? length (h b)); eauto. rewrite PP in W. exact W.
Qed.

Definition post A := list nat -> (nat -> list byte) -> outcome A -> Prop.

Lemma aw_bind {A B} own h (m : prog A) (f : A -> prog B) (Post : post B) :
  aw own h m (fun own' h' o => match o with Ret a => aw own' h' (f a) Post | _ => Post own' h' (pfail o) end) -> aw own h (pbind m f) Post.
Proof. intros W. unfold pbind. apply aw_seq; [reflexivity|]. eapply aw_mono; [|exact W]. intros own' h' [a|e|p| |] H; exact H. Qed.

(** [m] surely returns [a] with the heap described by [H] and holds what it held *)
Definition awR {A} own h (m : prog A) (a : A) (H : (nat -> list byte) -> Prop) : Prop :=
  aw own h m (fun own' h' o => o = Ret a /\ own' = own /\ H h').

Lemma aw_bind_R {A B} own h (m : prog A) (f : A -> prog B) (Post : post B) a H :
  awR own h m a H -> (forall h', H h' -> aw own h' (f a) Post) -> aw own h (pbind m f) Post.
Proof. intros W F. apply aw_bind. eapply aw_mono; [|exact W]. intros own' h' o (-> & -> & Hh). apply F, Hh. Qed.

Lemma aw_bind_done {A B} own h (o : outcome A) (f : A -> prog B) (Post : post B) :
  match o with Ret a => aw own h (f a) Post | _ => Post own h (pfail o) end -> aw own h (pbind (PDone o) f) Post.
Proof. intros W. apply aw_bind. exact W. Qed.

(** a loop simulates a loop of the list model *)
Definition follows {T S} (own : list nat) (R : S -> (nat -> list byte) -> T -> Prop) (g : outcome T) : post S :=
  fun own' h' o => match g with Ret t => exists s, o = Ret s /\ own' = own /\ R s h' t | _ => o = pfail g end.

Lemma aw_foreach {X S T} own (R : S -> (nat -> list byte) -> T -> Prop) (f : X -> S -> prog S) (g : X -> T -> outcome T) : forall l,
  (forall x s h t, In x l -> R s h t -> aw own h (f x s) (follows own R (g x t))) ->
  forall s h t, R s h t -> aw own h (pforeach l f s) (follows own R (foreach l g t)).
Proof.
  induction l as [|x l IH]; intros F s h t Rs; cbn [pforeach foreach].
  - cbn. exists s. repeat split; assumption.
  - apply aw_bind. eapply aw_mono; [|apply (F x s h t); [left; reflexivity|exact Rs]]. intros own' h' o Ho. unfold follows in Ho.
    destruct (g x t) as [t'|e|p| |]; cbn [bind].
    + destruct Ho as (s' & -> & -> & R'). apply IH; [intros; apply F; [right|]; assumption|exact R'].
    + subst o. cbn. reflexivity.
    + subst o. cbn. reflexivity.
    + subst o. cbn. reflexivity.
    + subst o. cbn. reflexivity.
Qed.

(** other buffers unchanged *)
Definition frame (b : nat) (h h' : nat -> list byte) : Prop := forall b', b' <> b -> h' b' = h b'.

Lemma setBuf_same h b c : setBuf h b c b = c.
Proof. unfold setBuf. rewrite Nat.eqb_refl. reflexivity. Qed.
Lemma setBuf_other h b c b' : b' <> b -> setBuf h b c b' = h b'.
Proof. intros H. unfold setBuf. destruct (Nat.eqb_spec b' b); [congruence|reflexivity]. Qed.
Lemma setNth_set_nth {A} (l : list A) i v : i < length l -> setNth l i v = set_nth l i v.
Proof. intros H. unfold setNth, set_nth. rewrite (proj2 (Nat.ltb_lt _ _) H). reflexivity. Qed.

Lemma awR_resetGrow growcap own h b n : grow_ok growcap ->
  awR own h (resetGrowP growcap b n) tt (fun h' => h' b = resetGrow growcap (h b) n /\ n <= length (h' b) /\ frame b h h').
Proof.
  intros G. unfold awR, resetGrowP, resetGrow. cbn [aw]. destruct (Nat.leb_spec n (length (h b))) as [L|L]; cbn [aw pret].
  - repeat split; auto.
  - repeat split; rewrite ?setBuf_same; auto; [rewrite zeros_length; apply G, L|intros b' Hb'; apply setBuf_other, Hb'].
Qed.

Lemma awR_bytes own h b n : n <= length (h b) -> awR own h (bytesP b n) tt (fun h' => h' = h).
Proof. intros L. unfold awR, bytesP. cbn [aw]. rewrite (proj2 (Nat.leb_le _ _) L). cbn. auto. Qed.

Lemma skipn_nth {A} (l : list A) : forall s d, s < length l -> skipn s l = nth s l d :: skipn (S s) l.
Proof. induction l as [|a l IH]; intros [|s] d H; cbn [length] in H; try lia; [reflexivity|]. cbn [skipn nth]. apply IH. lia. Qed.

Lemma awR_loadN own h b l : forall s, s + l <= length (h b) -> awR own h (loadN b s l) (firstn l (skipn s (h b))) (fun h' => h' = h).
Proof.
  induction l as [|l IH]; intros s L; cbn [loadN]; unfold awR; [cbn; auto|]. cbn [aw].
  rewrite (nth_error_nth' _ x00) by lia. eapply aw_bind_R; [apply IH; lia|]. intros h' ->. cbn [aw pret]. split; [|auto]. f_equal.
  rewrite (skipn_nth (h b) s x00) by lia. reflexivity.
Qed.

Lemma splice_cons {A} (l : list A) s v r : s + S (length r) <= length l -> splice (set_nth l s v) (S s) r = splice l s (v :: r).
Proof.
  intros H. apply nth_ext with v v.
  - rewrite !splice_length; rewrite ?set_nth_length; cbn [length]; lia.
  - intros i Hi. rewrite splice_length in Hi by (rewrite set_nth_length; lia). rewrite set_nth_length in Hi by lia.
    rewrite !nth_splice by (rewrite ?set_nth_length; cbn [length]; lia). rewrite nth_set_nth by lia. cbn [length].
    destruct (Nat.eqb_spec i s) as [->|N].
    + destruct (Nat.leb_spec (S s) s); [lia|]. cbn [andb]. rewrite Nat.leb_refl, (proj2 (Nat.ltb_lt _ _)), Nat.sub_diag by lia. reflexivity.
    + destruct (Nat.leb_spec (S s) i), (Nat.leb_spec s i); try lia; cbn [andb]; [|reflexivity].
      destruct (Nat.ltb_spec i (S s + length r)), (Nat.ltb_spec i (s + S (length r))); try lia; [|reflexivity].
      replace (i - s) with (S (i - S s)) by lia. reflexivity.
Qed.

Lemma awR_storeN own b l : forall h s, s + length l <= length (h b) ->
  awR own h (storeN b s l) tt (fun h' => h' b = splice (h b) s l /\ frame b h h').
Proof.
  induction l as [|v l IH]; intros h s L; cbn [storeN length] in *; unfold awR.
  - cbn. repeat split; auto. unfold splice. cbn [app length]. rewrite Nat.add_0_r, firstn_skipn. reflexivity.
  - cbn [aw]. rewrite (proj2 (Nat.ltb_lt s (length (h b)))) by lia. rewrite setNth_set_nth by lia.
    eapply aw_mono; [|apply IH; rewrite setBuf_same, set_nth_length; lia]. intros own' h' o (-> & -> & H1 & H2). rewrite setBuf_same in H1. repeat split.
    + rewrite H1. apply splice_cons. exact L.
    + intros b' Hb'. rewrite H2 by exact Hb'. apply setBuf_other, Hb'.
Qed.

(** bytes of a window *)
Lemma nth_error_window (l : list byte) n i : i < n -> n <= length l -> nth_error l i = Some (nth i (firstn n l) x00).
Proof. intros H L. rewrite nth_firstn by exact H. apply nth_error_nth'. lia. Qed.

Lemma firstn_set_nth (l : list byte) n i v : i < n -> n <= length l -> firstn n (set_nth l i v) = set_nth (firstn n l) i v.
Proof.
  intros H L. unfold set_nth. rewrite firstn_app. rewrite firstn_firstn, Nat.min_r by lia. rewrite firstn_length, Nat.min_l by lia. rewrite firstn_firstn, Nat.min_l by lia.
  f_equal. replace (n - i) with (S (n - S i)) by lia. cbn [firstn]. f_equal. rewrite skipn_firstn_comm. reflexivity.
Qed.

Lemma aw_loadW {B} own h b n i (f : byte -> prog B) (Post : post B) : n <= length (h b) ->
  match idx (firstn n (h b)) i with Ret v => aw own h (f v) Post | _ => Post own h (Panic PIndex) end -> aw own h (pbind (loadW b n i) f) Post.
Proof.
  intros L W. assert (Lf : length (firstn n (h b)) = n) by (rewrite firstn_length; lia). apply aw_bind. unfold loadW. destruct (Nat.ltb_spec i n) as [H|H].
  - rewrite (idx_ok _ i x00) in W by lia. cbn [aw]. rewrite (nth_error_window _ n) by assumption. cbn [aw pret]. exact W.
  - rewrite idx_panic in W by lia. cbn [aw]. exact W.
Qed.

Lemma aw_storeW own h b n i v : n <= length (h b) ->
  aw own h (storeW b n i v) (follows own (fun (_ : unit) h' w => firstn n (h' b) = w /\ length (h' b) = length (h b) /\ frame b h h') (upd (firstn n (h b)) i v)).
Proof.
  intros L. assert (Lf : length (firstn n (h b)) = n) by (rewrite firstn_length; lia). unfold storeW. destruct (Nat.ltb_spec i n) as [H|H].
  - rewrite upd_ok by lia. cbn [aw]. rewrite (proj2 (Nat.ltb_lt i (length (h b)))) by lia. cbn [aw pret follows]. exists tt. repeat split.
    + rewrite setBuf_same, setNth_set_nth by lia. apply firstn_set_nth; assumption.
    + rewrite setBuf_same, setNth_length. reflexivity.
    + intros b' Hb'. apply setBuf_other, Hb'.
  - rewrite upd_panic by lia. cbn. reflexivity.
Qed.

(** window contents after a run of byte operations on one buffer *)
Definition window (b n : nat) (h0 : nat -> list byte) (w : list byte) (h : nat -> list byte) : Prop :=
  firstn n (h b) = w /\ length (h b) = length (h0 b) /\ frame b h0 h.

Lemma window_refl b n h : window b n h (firstn n (h b)) h.
Proof. repeat split. Qed.

Lemma window_trans b n h0 w1 h1 w2 h2 : window b n h0 w1 h1 -> window b n h1 w2 h2 -> window b n h0 w2 h2.
Proof. intros (A1 & A2 & A3) (B1 & B2 & B3). split; [exact B1|]. split; [congruence|]. intros b' Hb'. rewrite B3, A3 by exact Hb'. reflexivity. Qed.

Lemma follows_weaken {T S} own (R R' : S -> (nat -> list byte) -> T -> Prop) g own' h' o : (forall s h t, R s h t -> R' s h t) -> follows own R g own' h' o -> follows own R' g own' h' o.
Proof. unfold follows. intros W. destruct g; auto. intros (s & -> & -> & H). exists s. repeat split; auto. Qed.

Lemma splice_upd0 (w : list byte) s e ip : s < e -> e <= length w ->
  splice w s (set_nth (firstn (e - s) (skipn s w)) 0 ip) = set_nth w s ip.
Proof.
  intros H L. assert (Lw : length (firstn (e - s) (skipn s w)) = e - s) by (rewrite firstn_length, skipn_length; lia).
  assert (Ls : length (set_nth (firstn (e - s) (skipn s w)) 0 ip) = e - s) by (rewrite set_nth_length; lia).
  apply nth_ext with x00 x00; [rewrite splice_length, set_nth_length; lia|].
  intros i Hi. rewrite splice_length in Hi by lia. rewrite nth_splice by lia. rewrite Ls. rewrite (nth_set_nth w) by lia.
  destruct (Nat.leb_spec s i), (Nat.ltb_spec i (s + (e - s))); cbn [andb]; try (destruct (Nat.eqb_spec i s); [lia|reflexivity]).
  rewrite nth_set_nth by lia. destruct (Nat.eqb_spec (i - s) 0), (Nat.eqb_spec i s); try lia; [reflexivity|].
  rewrite nth_firstn, nth_skipn by lia. f_equal. lia.
Qed.

Lemma aw_setIntercepts intercepts degree b n own h : n <= length (h b) ->
  aw own h (setInterceptsP intercepts degree b n) (follows own (fun (_ : unit) h' w => window b n h w h') (setIntercepts intercepts degree (firstn n (h b)))).
Proof.
  intros L. unfold setInterceptsP, setIntercepts. apply aw_foreach; [|apply window_refl].
  intros p [] h1 w Hp W. cbv zeta. set (s := (degree + 1) * p). set (e := s + degree + 1).
  destruct W as (W1 & W2 & W3). assert (Lw : length w = n) by (rewrite <- W1, firstn_length; lia).
  unfold sliceW, slice. rewrite Lw. destruct ((s <=? e) && (e <=? n)) eqn:C; [|cbn; reflexivity].
  apply andb_true_iff in C as (C1 & C2). apply Nat.leb_le in C1, C2. cbn [bind].
  apply aw_bind_done. apply aw_bind_done. destruct (idx intercepts p) as [ip|?|?| |]; cbn [bind]; [|reflexivity..].
  assert (Le : length (firstn (e - s) (skipn s w)) = e - s) by (rewrite firstn_length, skipn_length; lia).
  assert (se : s < e) by (unfold e; lia). destruct (Nat.ltb_spec 0 (e - s)) as [H|H]; [|lia].
  rewrite upd_ok by lia. cbn [bind aw]. rewrite (proj2 (Nat.ltb_lt s (length (h1 b)))) by lia. cbn [aw pret follows]. exists tt.
  split; [reflexivity|]. split; [reflexivity|]. split; [|split].
  - rewrite setBuf_same, setNth_set_nth, firstn_set_nth, W1 by lia. symmetry. apply splice_upd0; lia.
  - rewrite setBuf_same, setNth_length. exact W2.
  - intros b' Hb'. rewrite setBuf_other by exact Hb'. apply W3, Hb'.
Qed.

Lemma firstn_splice_0 (l : list byte) sub : length sub <= length l -> firstn (length sub) (splice l 0 sub) = sub.
Proof. intros H. unfold splice. cbn [firstn app]. rewrite firstn_app, Nat.sub_diag, firstn_O, app_nil_r. apply firstn_all. Qed.

(** shamir/polynomial.go:17-34 *)
Lemma aw_makePolynomials intercepts degree b n stream own h : n <= length (h b) ->
  aw own h (makePolynomialsWithBuffP intercepts degree b n stream)
    (follows own (fun (_ : unit) h' w => window b n h w h') (makePolynomialsWithBuff intercepts degree (firstn n (h b)) stream)).
Proof.
  intros L. unfold makePolynomialsWithBuffP, makePolynomialsWithBuff. rewrite firstn_length, Nat.min_l by exact L.
  eapply aw_bind_R; [apply awR_storeN; rewrite take_stream_length; lia|]. intros h1 (H1 & H2).
  assert (Lh : length (h1 b) = length (h b)) by (rewrite H1, splice_length; rewrite ?take_stream_length; lia).
  assert (F : firstn n (h1 b) = take_stream stream n).
  { rewrite H1. rewrite <- (take_stream_length stream n) at 1. apply firstn_splice_0. rewrite take_stream_length. exact L. }
  rewrite <- F. eapply aw_mono; [|apply aw_setIntercepts; lia]. intros own' h' o. apply follows_weaken. intros _ h2 w (W1 & W2 & W3).
  split; [exact W1|]. split; [congruence|]. intros b' Hb'. rewrite W3, H2 by exact Hb'. reflexivity.
Qed.

Lemma Read_loop ks (w : list byte) : foreach (seq 0 (length w)) (fun j w => do v <- idx w j; upd w j (bxor v (ks j))) w = Ret (Read ks w).
Proof.
  rewrite (foreach_upd_map x00 _ (fun j v => bxor v (ks j))); [|reflexivity|].
  - f_equal. unfold Read. assert (Q : forall off, map (fun i => bxor (nth i w x00) (ks (off + i))) (seq 0 (length w)) = xorStreamFrom ks off w).
    { induction w as [|a w IH]; intros off; [reflexivity|]. cbn [length seq map xorStreamFrom nth]. rewrite Nat.add_0_r. f_equal.
      rewrite <- IH, <- seq_shift, map_map. apply map_ext. intros i. cbn [nth]. do 2 f_equal. lia. }
    apply (Q 0).
  - intros i o Hi Lo. rewrite (idx_ok _ _ x00) by lia. cbn [bind]. apply upd_ok. lia.
Qed.

Lemma Read_length ks w : length (Read ks w) = length w.
Proof. unfold Read. generalize 0 as off. induction w as [|a w IH]; intros off; [reflexivity|]. cbn. rewrite IH. reflexivity. Qed.

(** shamir/polynomial.go:36-55 *)
Lemma aw_makePolynomialsRandomizer intercepts degree b n ks own h : n <= length (h b) ->
  aw own h (makePolynomialsWithBuffAndRandomizerP intercepts degree b n ks)
    (follows own (fun (_ : unit) h' w => window b n h w h') (makePolynomialsWithBuffAndRandomizer intercepts degree (firstn n (h b)) ks)).
Proof.
  intros L. unfold makePolynomialsWithBuffAndRandomizerP, makePolynomialsWithBuffAndRandomizer.
  assert (Lf : length (firstn n (h b)) = n) by (rewrite firstn_length; lia).
  assert (LOOP : aw own h (pforeach (seq 0 n) (fun j _ => pdo v <- loadW b n j; storeW b n j (bxor v (ks j))) tt)
    (follows own (fun (_ : unit) h' w => window b n h w h') (Ret (Read ks (firstn n (h b)))))).
  { rewrite <- Read_loop, Lf. apply aw_foreach; [|apply window_refl].
    intros j [] h1 w _ W. pose proof W as (W1 & W2 & W3). apply aw_loadW; [lia|]. rewrite W1. destruct (idx w j) as [v|?|?| |] eqn:E; cbn [bind].
    - rewrite <- W1. eapply aw_mono; [|apply aw_storeW; lia]. intros own' h' o. apply follows_weaken. intros _ h2 w2 W'. eapply window_trans; [exact W|exact W'].
    - unfold idx in E. destruct (nth_error w j); discriminate.
    - unfold idx in E. destruct (nth_error w j); [discriminate|]. injection E as <-. cbn. reflexivity.
    - unfold idx in E. destruct (nth_error w j); discriminate.
    - unfold idx in E. destruct (nth_error w j); discriminate. }
  apply aw_bind. eapply aw_mono; [|exact LOOP]. intros own' h1 o (x & -> & -> & W). pose proof W as (W1 & W2 & W3). rewrite <- W1.
  eapply aw_mono; [|apply aw_setIntercepts; lia]. intros own' h' o. apply follows_weaken. intros _ h2 w W'. eapply window_trans; [exact W|exact W'].
Qed.

Lemma idx_cases {A} (l : list A) i : (exists v, idx l i = Ret v) \/ idx l i = Panic PIndex.
Proof. unfold idx. destruct (nth_error l i); [left; eexists; reflexivity|right; reflexivity]. Qed.

(** shamir/polynomial.go:110-122 *)
Lemma aw_transpose dest source n rowLen own h : dest <> source -> n <= length (h dest) -> n <= length (h source) ->
  aw own h (transposeMatrixBufferP dest source n rowLen)
    (follows own (fun (_ : unit) h' w => window dest n h w h') (transposeMatrixBuffer (firstn n (h dest)) (firstn n (h source)) rowLen)).
Proof.
  intros Ne Ld Ls. unfold transposeMatrixBufferP, transposeMatrixBuffer. destruct (rowLen =? 0); [cbn; reflexivity|].
  rewrite firstn_length, Nat.min_l by exact Ls. set (src := firstn n (h source)). cbv zeta.
  apply aw_bind.
  match goal with |- context [bind (foreach (seq 0 n) ?g ?t) _] => set (G := g) end.
  assert (LOOP : forall (f : nat -> nat * nat -> prog (nat * nat)),
    f = (fun i '(curSourceRow, curSourceCol) => pdo v <- loadW source n (rowLen * curSourceRow + curSourceCol); pdo _ <- storeW dest n i v;
          if curSourceRow + 1 =? n / rowLen then pret (0, curSourceCol + 1) else pret (curSourceRow + 1, curSourceCol)) ->
    aw own h (pforeach (seq 0 n) f (0, 0)) (follows own (fun (rc : nat * nat) h' (t : list byte * nat * nat) => rc = (snd (fst t), snd t) /\ window dest n h (fst (fst t)) h')
      (foreach (seq 0 n) G (firstn n (h dest), 0, 0)))).
  { intros f ->. apply aw_foreach; [|split; [reflexivity|apply window_refl]].
    intros i (r & c) h1 ((w & r') & c') _ (E & W). cbn [fst snd] in E, W. injection E as -> ->. pose proof W as (W1 & W2 & W3).
    assert (Hs : h1 source = h source) by (apply W3; congruence).
    apply aw_loadW; [rewrite Hs; exact Ls|]. rewrite Hs. fold src. unfold G. cbv beta iota zeta.
    destruct (idx_cases src (rowLen * r' + c')) as [(v & ->)| ->]; cbn [bind]; [|reflexivity].
    apply aw_bind. eapply aw_mono; [|apply aw_storeW; lia]. intros own' h2 o Ho. rewrite W1 in Ho. unfold follows in Ho.
    destruct (upd w i v) as [w2|?|?| |]; cbn [bind]; try (subst o; cbn; reflexivity).
    destruct Ho as ([] & -> & -> & W'). assert (W2' : window dest n h w2 h2) by (eapply window_trans; [exact W|exact W']).
    destruct (r' + 1 =? n / rowLen); cbn [aw pret follows]; (eexists; split; [reflexivity|split; [reflexivity|split; [reflexivity|exact W2']]]). }
  eapply aw_mono; [|apply LOOP; reflexivity]. intros own' h' o Ho. unfold follows in Ho. destruct (foreach (seq 0 n) G (firstn n (h dest), 0, 0)) as [((w & r) & c)|?|?| |]; cbn [bind].
  - destruct Ho as (rc & -> & -> & _ & W). cbn. exists tt. repeat split; apply W.
  - subst o. reflexivity.
  - subst o. reflexivity.
  - subst o. reflexivity.
  - subst o. reflexivity.
Qed.

Lemma slice_window (l : list byte) n s e : s <= e -> e <= n -> n <= length l -> firstn (e - s) (skipn s (firstn n l)) = firstn (e - s) (skipn s l).
Proof.
  intros A B C. apply nth_ext with x00 x00; [rewrite !firstn_length, !skipn_length, firstn_length; lia|].
  intros i Hi. rewrite firstn_length, skipn_length, firstn_length in Hi. rewrite !nth_firstn, !nth_skipn, nth_firstn by lia. reflexivity.
Qed.

Definition keeps (own : list nat) (h h' : nat -> list byte) : Prop := forall b, In b own -> h' b = h b.

(** shamir/polynomial.go:155-174 *)
Lemma aw_evaluate ar growcap cb n rowLen x out own h : grow_ok growcap -> In cb own -> n <= length (h cb) ->
  aw own h (evaluateP ar growcap cb n rowLen x out)
    (follows own (fun (r : list byte) h' t => r = t /\ keeps own h h')
       (evaluatePolynomialsAtWithCoefficientsBuffer ar growcap [] (firstn n (h cb)) rowLen x out)).
Proof.
  intros G Hc L. unfold evaluateP, evaluatePolynomialsAtWithCoefficientsBuffer. destruct (rowLen =? 0) eqn:R0; [cbn; reflexivity|]. apply Nat.eqb_neq in R0.
  assert (Lf : length (firstn n (h cb)) = n) by (rewrite firstn_length; lia). rewrite Lf.
  assert (Lg : rowLen <= length (resetGrow growcap [] rowLen)).
  { unfold resetGrow. destruct (Nat.leb_spec rowLen (length (@nil byte))) as [X|X]; [exact X|]. rewrite zeros_length. apply G. exact X. }
  rewrite (slice_ok (resetGrow growcap [] rowLen)) by (try lia; exact Lg). cbn [bind].
  cbn [aw]. intros rb c Hrb. set (h0 := setBuf h rb c).
  assert (Ncb : cb <> rb) by (intros ->; contradiction).
  eapply aw_bind_R; [apply awR_resetGrow, G|]. intros h1 (_ & L1 & F1).
  eapply aw_bind_R; [apply awR_bytes, L1|]. intros ? ->.
  destruct (n / rowLen =? 0); [cbn; reflexivity|]. cbv zeta. set (degree := n / rowLen - 1).
  assert (Hcb1 : h1 cb = h cb) by (rewrite F1 by exact Ncb; apply setBuf_other, Ncb).
  assert (K1 : keeps own h h1) by (intros b Hb; assert (b <> rb) by (intros ->; contradiction); rewrite F1 by assumption; apply setBuf_other; assumption).
  clearbody degree. clear F1 h0.
  (* a row of the coefficient buffer *)
  assert (ROW : forall (B : Type) (f : list byte -> prog B) (Post : post B) ow hh i, hh cb = h cb -> 
     match slice (firstn n (h cb)) (i * rowLen) (i * rowLen + rowLen) with Ret r => length r = rowLen -> aw ow hh (f r) Post | _ => Post ow hh (Panic PSlice) end ->
     aw ow hh (pdo _ <- sliceW n (i * rowLen) (i * rowLen + rowLen); pdo r <- loadN cb (i * rowLen) rowLen; f r) Post).
  { intros B f Post ow hh i E W. unfold slice in W. rewrite Lf in W. unfold sliceW. destruct ((i * rowLen <=? i * rowLen + rowLen) && (i * rowLen + rowLen <=? n)) eqn:C; [|apply aw_bind_done; exact W].
    apply andb_true_iff in C as (C1 & C2). apply Nat.leb_le in C1, C2. apply aw_bind_done.
    eapply aw_bind_R; [apply awR_loadN; rewrite E; lia|]. intros ? ->. rewrite E. rewrite slice_window in W by lia.
    replace (i * rowLen + rowLen - i * rowLen) with rowLen in W by lia. apply W. rewrite firstn_length, skipn_length. lia. }
  apply ROW; [exact Hcb1|]. destruct (slice (firstn n (h cb)) (degree * rowLen) (degree * rowLen + rowLen)) as [top|?|?| |] eqn:St; cbn [bind].
  2,3,4,5: unfold slice in St; destruct ((degree * rowLen <=? _) && _); try discriminate; injection St as <-; reflexivity.
  intros Lt. rewrite Nat.sub_0_r. rewrite gocopy_same by (rewrite firstn_length, skipn_length; lia).
  eapply aw_bind_R; [apply awR_storeN; lia|]. intros h2 (S2 & F2).
  apply aw_bind.
  set (R := fun (loc : option (list byte)) (h' : nat -> list byte) (t : list byte) =>
     (match loc with Some r => r | None => firstn rowLen (h' rb) end) = t /\ length t = rowLen /\ rowLen <= length (h' rb) /\ h' cb = h cb /\ keeps own h h').
  match goal with |- context [bind (foreach (rev (seq 0 degree)) ?g top) _] => set (Gf := g) end.
  match goal with |- context [pforeach (rev (seq 0 degree)) ?f None] => set (Pf := f) end.
  assert (LOOP : aw (rb :: own) h2 (pforeach (rev (seq 0 degree)) Pf None) (follows (rb :: own) R (foreach (rev (seq 0 degree)) Gf top))).
  { apply aw_foreach.
    - intros i loc h' t _ (E & Lt' & Lr & Ec & Kp). unfold Pf, Gf.
      apply aw_bind. unfold sliceW. unfold slice. rewrite Lf.
      destruct ((i * rowLen <=? i * rowLen + rowLen) && (i * rowLen + rowLen <=? n)) eqn:C; [|cbn; reflexivity].
      apply andb_true_iff in C as (C1 & C2). apply Nat.leb_le in C1, C2. cbn [aw pret bind].
      rewrite slice_window by lia. replace (i * rowLen + rowLen - i * rowLen) with rowLen by lia.
      assert (LL : awR (rb :: own) h' (match loc with Some r => pret r | None => loadN rb 0 rowLen end) t (fun h'' => h'' = h')).
      { destruct loc as [r|]; [subst r; unfold awR; cbn; auto|]. rewrite <- E. apply (awR_loadN _ _ _ _ 0). exact Lr. }
      eapply aw_bind_R; [exact LL|]. intros ? ->.
      eapply aw_bind_R; [apply awR_loadN; rewrite Ec; lia|]. intros ? ->. rewrite Ec. set (ci := firstn rowLen (skipn (i * rowLen) (h cb))).
      assert (Lci : length ci = rowLen) by (unfold ci; rewrite firstn_length, skipn_length; lia).
      rewrite MulConstVector_ok. cbn [bind]. rewrite AddVector_ok by (rewrite map_length; congruence).
      apply aw_bind_done. apply aw_bind_done. rewrite ?AddVector_ok by (rewrite map_length; congruence). set (m := map (gmul x) t). set (r := xor_bytes ci m).
      assert (Lm : length m = rowLen) by (unfold m; rewrite map_length; exact Lt').
      assert (Lrr : length r = rowLen) by (unfold r; rewrite xor_bytes_length; congruence).
      destruct ar; [|cbn [aw pret follows]; exists (Some r); repeat split; assumption..].
      eapply aw_bind_R; [apply awR_storeN; lia|]. intros h3 (S3 & F3). 
      assert (L3 : length (h3 rb) = length (h' rb)) by (rewrite S3, splice_length; lia).
      eapply aw_bind_R; [apply awR_storeN; lia|]. intros h4 (S4 & F4). cbn [aw pret follows]. exists None. split; [reflexivity|]. split; [reflexivity|].
      unfold R. split; [rewrite S4; rewrite <- Lrr at 1; apply firstn_splice_0; lia|]. split; [exact Lrr|]. split; [rewrite S4, splice_length; lia|].
      split; [rewrite F4, F3 by exact Ncb; exact Ec|]. intros b Hb. assert (b <> rb) by (intros ->; contradiction). rewrite F4, F3 by assumption. apply Kp, Hb.
    - unfold R. split; [rewrite S2; rewrite <- Lt at 1; apply firstn_splice_0; lia|]. split; [exact Lt|]. split; [rewrite S2, splice_length; lia|].
      split; [rewrite F2 by exact Ncb; exact Hcb1|]. intros b Hb. assert (b <> rb) by (intros ->; contradiction). rewrite F2 by assumption. apply K1, Hb. }
  eapply aw_mono; [|exact LOOP]. intros own' h3 o Ho. unfold follows in Ho. destruct (foreach (rev (seq 0 degree)) Gf top) as [res|?|?| |]; cbn [bind]; try (subst o; reflexivity).
  destruct Ho as (loc & -> & -> & E & Lres & Lr & Ec & Kp).
  assert (LL : awR (rb :: own) h3 (match loc with Some r => pret r | None => loadN rb 0 rowLen end) res (fun h'' => h'' = h3)).
  { destruct loc as [r|]; [subst r; unfold awR; cbn; auto|]. rewrite <- E. apply (awR_loadN _ _ _ _ 0). exact Lr. }
  eapply aw_bind_R; [exact LL|]. intros ? ->. apply aw_bind_done. destruct (slice out 0 rowLen) as [w|?|?| |]; cbn [bind]; try reflexivity.
  cbn [aw pret]. rewrite remove_head by exact Hrb. cbn [follows]. eexists. repeat split. exact Kp.
Qed.


(** shamir/shamir.go:97-100, 229-232 *)
Lemma aw_evalLoop ar growcap cb n N parts xs own buff h : grow_ok growcap -> In cb own -> n <= length (h cb) ->
  aw own h (evalLoopP ar growcap cb n N parts xs buff)
    (follows own (fun (r : list byte) h' t => r = t /\ keeps own h h')
       (evalLoop ar growcap (fun _ => []) (firstn n (h cb)) N parts xs buff)).
Proof.
  intros G Hc L. unfold evalLoopP, evalLoop. apply aw_foreach; [|split; [reflexivity|intros b _; reflexivity]].
  intros i bf h1 t _ (-> & K). cbv zeta. apply aw_bind_done. destruct (slice t ((N + 1) * i) ((N + 1) * i + N + 1)) as [w|?|?| |]; cbn [bind]; [|reflexivity..].
  apply aw_bind_done. destruct (tagOf xs i) as [x|?|?| |]; cbn [bind]; [|reflexivity..].
  apply aw_bind_done. destruct (slice w 0 N) as [o|?|?| |]; cbn [bind]; [|reflexivity..].
  apply aw_bind. rewrite <- (K cb Hc). eapply aw_mono; [|apply aw_evaluate; [exact G|exact Hc|rewrite K by exact Hc; exact L]].
  intros own' h2 oo Ho. unfold follows in Ho.
  destruct (evaluatePolynomialsAtWithCoefficientsBuffer ar growcap [] (firstn n (h1 cb)) N x o) as [o'|?|?| |]; cbn [bind]; try (subst oo; cbn; reflexivity).
  destruct Ho as (r & -> & -> & -> & K2). cbn [aw pret follows]. eexists. split; [reflexivity|]. split; [reflexivity|]. split; [reflexivity|].
  intros b Hb. rewrite K2, K by exact Hb. reflexivity.
Qed.

(** shamir/shamir.go:67-103, 199-235 on lists *)
Definition splitTail ar growcap (mk : nat -> list byte -> outcome (list byte)) xs buff (polB trB : bbuf) (secret : list byte) (parts threshold : Z) : outcome (list (list byte)) :=
  let N := length secret in
  let n := Z.to_nat parts in
  let degree := Z.to_nat (threshold - 1) in
  do polBuff <- slice (resetGrow growcap polB ((degree + 1) * N)) 0 ((degree + 1) * N);
  do polynomials <- mk degree polBuff;
  do coefficientBuff <- slice (resetGrow growcap trB (length polynomials)) 0 (length polynomials);
  do coefficientBuff <- transposeMatrixBuffer coefficientBuff polynomials (degree + 1);
  do buff <- evalLoop ar growcap (fun _ => []) coefficientBuff N n xs buff;
  windows N n buff.

Lemma resetGrow_len growcap b n : grow_ok growcap -> n <= length (resetGrow growcap b n).
Proof. intros G. unfold resetGrow. destruct (Nat.leb_spec n (length b)); [assumption|]. rewrite zeros_length. apply G. assumption. Qed.

Lemma aw_splitRest ar growcap mkP mk xs buff secret parts threshold own h : grow_ok growcap ->
  (forall degree b n own h, n <= length (h b) -> aw own h (mkP degree b n) (follows own (fun (_ : unit) h' w => window b n h w h') (mk degree (firstn n (h b))))) ->
  aw own h (splitRestP ar growcap mkP xs buff secret parts threshold)
    (fun own' h' o => exists polB trB, o = splitTail ar growcap mk xs buff polB trB secret parts threshold /\ ((exists r, o = Ret r) -> own' = own)).
Proof.
  intros G M. unfold splitRestP. cbv zeta. set (N := length secret). set (n := Z.to_nat parts). set (degree := Z.to_nat (threshold - 1)). set (len := (degree + 1) * N).
  cbn [aw]. intros pb pc Hpb. set (h0 := setBuf h pb pc).
  eapply aw_bind_R; [apply awR_resetGrow, G|]. intros h1 (E1 & L1 & F1). eapply aw_bind_R; [apply awR_bytes, L1|]. intros ? ->.
  unfold h0 in E1. rewrite setBuf_same in E1.
  apply aw_bind. eapply aw_mono; [|apply M; exact L1]. intros own' h2 o Ho.
  assert (ST : forall trB, splitTail ar growcap mk xs buff pc trB secret parts threshold =
     do polynomials <- mk degree (firstn len (h1 pb));
     do coefficientBuff <- slice (resetGrow growcap trB (length polynomials)) 0 (length polynomials);
     do coefficientBuff <- transposeMatrixBuffer coefficientBuff polynomials (degree + 1);
     do buff <- evalLoop ar growcap (fun _ => []) coefficientBuff N n xs buff;
     windows N n buff).
  { intros trB. unfold splitTail. cbv zeta. fold N n degree len. rewrite slice_ok by (try lia; apply resetGrow_len, G). cbn [bind]. rewrite Nat.sub_0_r. cbn [skipn]. rewrite E1. reflexivity. }
  unfold follows in Ho. destruct (mk degree (firstn len (h1 pb))) as [w|?|?| |] eqn:Em; cbn [bind] in ST.
  2,3,4,5: subst o; exists pc, []; rewrite ST; cbn; split; [reflexivity|intros (r & Hr); discriminate].
  destruct Ho as (x & -> & -> & W1 & W2 & W3). cbn [aw]. intros tb tc Htb. set (h3 := setBuf h2 tb tc).
  assert (Lw : length w = len) by (rewrite <- W1, firstn_length; lia).
  assert (Ntp : pb <> tb) by (intros ->; apply Htb; left; reflexivity).
  eapply aw_bind_R; [apply awR_resetGrow, G|]. intros h4 (E4 & L4 & F4). eapply aw_bind_R; [apply awR_bytes, L4|]. intros ? ->.
  unfold h3 in E4. rewrite setBuf_same in E4.
  assert (P4 : h4 pb = h2 pb) by (rewrite F4 by exact Ntp; unfold h3; apply setBuf_other, Ntp).
  assert (S4 : slice (resetGrow growcap tc (length w)) 0 (length w) = Ret (firstn len (h4 tb))).
  { rewrite slice_ok by (try lia; apply resetGrow_len, G). rewrite Nat.sub_0_r, Lw, E4. reflexivity. }
  apply aw_bind. eapply aw_mono; [|apply aw_transpose; [congruence|exact L4|rewrite P4; lia]]. rewrite P4, W1.
  intros own' h5 o Ho. unfold follows in Ho. specialize (ST tc). rewrite S4 in ST. cbn [bind] in ST.
  destruct (transposeMatrixBuffer (firstn len (h4 tb)) w (degree + 1)) as [cf|?|?| |]; cbn [bind] in ST.
  2,3,4,5: subst o; exists pc, tc; rewrite ST; cbn; split; [reflexivity|intros (r & Hr); discriminate].
  destruct Ho as (y & -> & -> & V1 & V2 & V3).
  apply aw_bind. eapply aw_mono; [|apply aw_evalLoop; [exact G|left; reflexivity|lia]]. rewrite V1. intros own' h6 o Ho. unfold follows in Ho.
  destruct (evalLoop ar growcap (fun _ => []) cf N n xs buff) as [bf|?|?| |]; cbn [bind] in ST.
  2,3,4,5: subst o; exists pc, tc; rewrite ST; cbn; split; [reflexivity|intros (r & Hr); discriminate].
  destruct Ho as (r & -> & -> & -> & K). apply aw_bind_done. destruct (windows N n bf) as [out|?|?| |].
  2,3,4,5: exists pc, tc; rewrite ST; cbn; split; [reflexivity|intros (r & Hr); discriminate].
  cbn [aw pret]. exists pc, tc. split; [symmetry; exact ST|]. intros _. rewrite !remove_head; [reflexivity|exact Hpb|]. exact Htb.
Qed.

Lemma Split_tail ar growcap perm stream polB trB secret parts threshold :
  Split ar growcap perm stream polB trB (fun _ => []) secret parts threshold =
  match checkArgs secret parts threshold with
  | Some e => Fail e
  | None => do buff <- layoutFlat (length secret) (Z.to_nat parts) (map i2b perm);
            splitTail ar growcap (fun degree w => makePolynomialsWithBuff secret degree w stream) (map i2b perm) buff polB trB secret parts threshold
  end.
Proof.
  unfold Split, SplitBufs, splitTail. destruct (checkArgs secret parts threshold); [reflexivity|]. cbv zeta.
  repeat match goal with |- context [bind ?m _] => lazymatch m with bind _ _ => fail | _ => destruct m; cbn [bind]; try reflexivity end end.
Qed.

Lemma SplitWithRandomizer_tail fuel ar growcap ks polB trB secret parts threshold :
  SplitWithRandomizer fuel ar growcap ks polB trB (fun _ => []) secret parts threshold =
  match checkArgs secret parts threshold with
  | Some e => Fail e
  | None => do xs <- GetUniqueBytes fuel ks (z2b parts);
            do buff <- layoutFlat (length secret) (Z.to_nat parts) xs;
            splitTail ar growcap (fun degree w => makePolynomialsWithBuffAndRandomizer secret degree w ks) xs buff polB trB secret parts threshold
  end.
Proof.
  unfold SplitWithRandomizer, SplitWithRandomizerBufs, splitTail. destruct (checkArgs secret parts threshold); [reflexivity|]. cbv zeta.
  repeat match goal with |- context [bind ?m _] => lazymatch m with bind _ _ => fail | _ => destruct m; cbn [bind]; try reflexivity end end.
Qed.

(** what a call returns when it is made alone, on some pool *)
Definition callsTo ar growcap (c : ccall) (o : outcome (list (list byte))) : Prop :=
  exists polB trB, o = match c with
  | CSplit perm stream secret parts threshold => Split ar growcap perm stream polB trB (fun _ => []) secret parts threshold
  | CSplitWithRandomizer fuel ks secret parts threshold => SplitWithRandomizer fuel ar growcap ks polB trB (fun _ => []) secret parts threshold
  end.

Lemma aw_call ar growcap c own h : grow_ok growcap -> aw own h (callProg ar growcap c) (fun own' h' o => callsTo ar growcap c o).
Proof.
  intros G. destruct c; cbn [callProg]; unfold callsTo.
  - unfold SplitProg. destruct (checkArgs secret parts threshold) eqn:Ck.
    { exists [], []. rewrite Split_tail, Ck. reflexivity. }
    apply aw_bind_done. destruct (layoutFlat (length secret) (Z.to_nat parts) (map i2b perm)) as [buff|?|?| |] eqn:El.
    2,3,4,5: exists [], []; rewrite Split_tail, Ck, El; reflexivity.
    eapply aw_mono; [|apply aw_splitRest with (mk := fun degree w => makePolynomialsWithBuff secret degree w stream); [exact G|intros; apply aw_makePolynomials; assumption]].
    intros own' h' o (polB & trB & -> & _). exists polB, trB. rewrite Split_tail, Ck, El. reflexivity.
  - unfold SplitWithRandomizerProg. destruct (checkArgs secret parts threshold) eqn:Ck.
    { exists [], []. rewrite SplitWithRandomizer_tail, Ck. reflexivity. }
    apply aw_bind_done. destruct (GetUniqueBytes fuel ks (z2b parts)) as [xs|?|?| |] eqn:Eu.
    2,3,4,5: exists [], []; rewrite SplitWithRandomizer_tail, Ck, Eu; reflexivity.
    apply aw_bind_done. destruct (layoutFlat (length secret) (Z.to_nat parts) xs) as [buff|?|?| |] eqn:El.
    2,3,4,5: exists [], []; rewrite SplitWithRandomizer_tail, Ck, Eu; cbn [bind]; rewrite El; reflexivity.
    eapply aw_mono; [|apply aw_splitRest with (mk := fun degree w => makePolynomialsWithBuffAndRandomizer secret degree w ks); [exact G|intros; apply aw_makePolynomialsRandomizer; assumption]].
    intros own' h' o (polB & trB & -> & _). exists polB, trB. rewrite SplitWithRandomizer_tail, Ck, Eu. cbn [bind]. rewrite El. reflexivity.
Qed.

(** a goroutine records, call by call, what the calls return alone; it ends early only when a call neither returns nor fails *)
Lemma aw_goroutine ar growcap : grow_ok growcap -> forall calls results own h,
  aw own h (goroutine ar growcap calls results) (fun _ _ o =>
    match o with
    | Ret out => exists new, out = results ++ new /\ Forall2 (callsTo ar growcap) calls new
    | _ => exists c, In c calls /\ exists o', callsTo ar growcap c o' /\ o = pfail o' /\ (forall r, o' <> Ret r) /\ (forall e, o' <> Fail e)
    end).
Proof.
  intros G. induction calls as [|c calls IH]; intros results own h; cbn [goroutine].
  - cbn. exists []. rewrite app_nil_r. split; [reflexivity|constructor].
  - apply aw_seq; [reflexivity|]. eapply aw_mono; [|apply aw_call, G]. intros own' h' o Ho.
    assert (REC : aw own' h' (goroutine ar growcap calls (results ++ [o])) (fun _ _ o0 =>
      match o0 with
      | Ret out => exists new, out = results ++ new /\ Forall2 (callsTo ar growcap) (c :: calls) new
      | _ => exists c0, In c0 (c :: calls) /\ exists o', callsTo ar growcap c0 o' /\ o0 = pfail o' /\ (forall r, o' <> Ret r) /\ (forall e, o' <> Fail e)
      end)).
    { eapply aw_mono; [|apply IH]. intros o1 h1 x Hx. cbn beta in Hx. destruct x as [out|?|?| |].
      { destruct Hx as (new & -> & F). exists (o :: new). rewrite <- app_assoc. split; [reflexivity|]. constructor; assumption. }
      all: destruct Hx as (c0 & Hc0 & R); exists c0; split; [right; exact Hc0|exact R]. }
    destruct o as [r|e|p| |]; try exact REC; cbn [aw pfail bind].
    all: exists c; split; [left; reflexivity|]; eexists; split; [exact Ho|]; repeat split; discriminate.
Qed.
