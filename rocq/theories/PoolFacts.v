(** Every call of the library puts back the buffers it took, each into its own pool (C74). *)
From Coq Require Import List NArith ZArith Lia Arith Bool Permutation.
From Coq.Init Require Import Byte.
From Verif Require Import GoSem Bytes Spec GoFacts Galois Vector VectorFacts Csprng Pool Polynomial Shamir Libs Krawczyk Concurrency SpecConc ConcFacts ConcAll SpecConcAll SpecPools.
Import ListNotations.

(** what a goroutine holds: pool and buffer *)
Definition lent := list (nat * nat).
Definition pair_dec : forall a b : nat * nat, {a = b} + {a <> b}.
Proof. decide equality; apply Nat.eq_dec. Defined.
Fixpoint rem1 (x : nat * nat) (l : lent) : lent :=
  match l with [] => [] | y :: r => if pair_dec x y then r else y :: rem1 x r end.
Definition inPool (pl : nat) (l : lent) : lent := filter (fun e => fst e =? pl) l.

Lemma rem1_head x l : rem1 x (x :: l) = l.
Proof. cbn [rem1]. destruct (pair_dec x x); congruence. Qed.
Lemma rem1_perm x l : In x l -> Permutation l (x :: rem1 x l).
Proof.
  induction l as [|y l IH]; intros H; [destruct H|]. cbn [rem1]. destruct (pair_dec x y) as [->|N]; [reflexivity|].
  destruct H as [H|H]; [congruence|]. rewrite (IH H) at 1. apply perm_swap.
Qed.

Lemma filter_perm {A} (f : A -> bool) l l' : Permutation l l' -> Permutation (filter f l) (filter f l').
Proof.
  induction 1 as [|x l l' H IH|x y l|l l' l'' H1 IH1 H2 IH2]; cbn [filter]; [constructor| | |etransitivity; eassumption].
  - destruct (f x); [constructor|]; exact IH.
  - destruct (f x), (f y); try reflexivity. apply perm_swap.
Qed.

(** a program that, whatever buffers it gets and whatever they contain, never holds more than [lim] says and puts back only what it holds,
    with a condition at the end *)
Section Logic.
  Variable lim : nat -> nat.
  Fixpoint pq {A} (held : lent) (p : prog A) (Q : lent -> outcome A -> Prop) : Prop :=
    match p with
    | PDone o => Q held o
    | PGet pl k => length (inPool pl held) < lim pl /\ forall b, pq ((pl, b) :: held) (k b) Q
    | PPut pl b k => In (pl, b) held /\ pq (rem1 (pl, b) held) k Q
    | PCap b k => forall n, pq held (k n) Q
    | PAlloc b _ k => pq held k Q
    | PLoad b _ k => forall v, pq held (k v) Q
    | PStore b _ _ k => pq held k Q
    end.

  Lemma pq_mono {A} (p : prog A) : forall held (Q Q' : lent -> outcome A -> Prop), (forall o' x, Q o' x -> Q' o' x) -> pq held p Q -> pq held p Q'.
  Proof. induction p; cbn; intros held Q Q' M W; intuition eauto. Qed.
  Lemma pq_seq {A B} (m : prog A) (f : outcome A -> prog B) Q : forall held, pq held m (fun held' o => pq held' (f o) Q) -> pq held (pseq m f) Q.
  Proof. induction m; cbn; intros held W; intuition eauto. Qed.

  (** ends with what it began with, when it returns or fails *)
  Definition kept {A} (held : lent) : lent -> outcome A -> Prop := fun h o => match o with Ret _ | Fail _ => h = held | _ => True end.
  (** does so when it returns, and does not fail *)
  Definition sure {A} (held : lent) : lent -> outcome A -> Prop := fun h o => match o with Ret _ => h = held | Fail _ => False | _ => True end.

  Lemma pq_bind_kept {A B} held (m : prog A) (f : A -> prog B) : pq held m (kept held) -> (forall a, pq held (f a) (kept held)) -> pq held (pbind m f) (kept held).
  Proof. intros W F. unfold pbind. apply pq_seq. eapply pq_mono; [|exact W]. intros h [a|e|p| |] H; cbn in *; try exact I; [subst h; apply F|exact H]. Qed.
  Lemma pq_bind_sure {A B} held h0 (m : prog A) (f : A -> prog B) : pq held m (sure held) -> (forall a, pq held (f a) (sure h0)) -> pq held (pbind m f) (sure h0).
  Proof. intros W F. unfold pbind. apply pq_seq. eapply pq_mono; [|exact W]. intros h [a|e|p| |] H; cbn in *; try exact I; [subst h; apply F|destruct H]. Qed.
  Lemma pq_done {A} held (o : outcome A) : pq held (PDone o) (kept held).
  Proof. destruct o; cbn; trivial. Qed.
  Definition noFail {A} (o : outcome A) : Prop := match o with Fail _ => False | _ => True end.
  Lemma pq_done_sure {A} held (o : outcome A) : noFail o -> pq held (PDone o) (sure held).
  Proof. destruct o; cbn; trivial; contradiction. Qed.
  Lemma pq_sure_kept {A} held (p : prog A) : pq held p (sure held) -> pq held p (kept held).
  Proof. apply pq_mono. intros h [a|e|q| |]; cbn; trivial. contradiction. Qed.
  Lemma pq_foreach_sure {X S} held (f : X -> S -> prog S) l : (forall x s, pq held (f x s) (sure held)) -> forall s, pq held (pforeach l f s) (sure held).
  Proof. intros F. induction l as [|x l IH]; intros s; cbn [pforeach]; [reflexivity|]. apply pq_bind_sure; [apply F|exact IH]. Qed.
  Lemma pq_foreach {X S} held (f : X -> S -> prog S) l : (forall x s, pq held (f x s) (kept held)) -> forall s, pq held (pforeach l f s) (kept held).
  Proof. intros F. induction l as [|x l IH]; intros s; cbn [pforeach]; [reflexivity|]. apply pq_bind_kept; [apply F|exact IH]. Qed.

  Lemma pq_resetGrow growcap held b n : pq held (resetGrowP growcap b n) (sure held).
  Proof. unfold resetGrowP. cbn. intros c. destruct (n <=? c); reflexivity. Qed.
  Lemma pq_bytes held b n : pq held (bytesP b n) (sure held).
  Proof. unfold bytesP. cbn. intros c. destruct (n <=? c); cbn; trivial. Qed.
  Lemma pq_loadW held b n i : pq held (loadW b n i) (sure held).
  Proof. unfold loadW. destruct (i <? n); cbn; trivial. Qed.
  Lemma pq_storeW held b n i v : pq held (storeW b n i v) (sure held).
  Proof. unfold storeW. destruct (i <? n); cbn; trivial. Qed.
  Lemma pq_sliceW held n s e : pq held (sliceW n s e) (sure held).
  Proof. unfold sliceW. destruct ((s <=? e) && (e <=? n)); cbn; trivial. Qed.
  Lemma pq_loadN held b l : forall s, pq held (loadN b s l) (sure held).
  Proof.
    induction l as [|l IH]; intros s; cbn [loadN]; [reflexivity|]. cbn [pq]. intros v.
    exact (pq_bind_sure held held (loadN b (S s) l) (fun r => pret (v :: r)) (IH (S s)) (fun a => eq_refl)).
  Qed.
  Lemma pq_storeN held b l : forall s, pq held (storeN b s l) (sure held).
  Proof. induction l as [|v l IH]; intros s; cbn [storeN]; [reflexivity|]. cbn [pq]. apply IH. Qed.
End Logic.
Arguments pq lim {A} held p Q.

Ltac sures := apply pq_bind_sure.

Lemma noFail_bind {A B} (o : outcome A) (f : A -> outcome B) : noFail o -> (forall a, noFail (f a)) -> noFail (bind o f).
Proof. destruct o; cbn; auto. Qed.
Lemma noFail_idx {A} (l : list A) i : noFail (idx l i).
Proof. unfold idx. destruct (nth_error l i); exact I. Qed.
Lemma noFail_upd {A} (l : list A) i v : noFail (upd l i v).
Proof. unfold upd. destruct (i <? length l); exact I. Qed.
Lemma noFail_slice {A} (l : list A) s e : noFail (slice l s e).
Proof. unfold slice. destruct (_ && _); exact I. Qed.
Lemma noFail_foreach {X S} (f : X -> S -> outcome S) l : (forall x s, noFail (f x s)) -> forall s, noFail (foreach l f s).
Proof. intros H. induction l as [|x l IH]; intros s; cbn [foreach]; [exact I|]. apply noFail_bind; [apply H|exact IH]. Qed.

Ltac nf := repeat first [apply noFail_idx | apply noFail_upd | apply noFail_slice | apply noFail_bind; [|intros ?] | apply noFail_foreach; intros ? ? | exact I].

Lemma noFail_uint64 l k : noFail (uint64_at l k).
Proof. unfold uint64_at. nf. Qed.
Lemma noFail_addBatch fuel : forall a b, noFail (addBatch fuel a b).
Proof.
  induction fuel as [|f IH]; intros a b; cbn [addBatch]; destruct (32 <=? length b); try exact I; [nf| |nf].
  apply noFail_bind; [apply noFail_slice|]. intros inS. do 8 (apply noFail_bind; [apply noFail_uint64|]; intros ?). cbv zeta.
  apply noFail_bind; [apply noFail_slice|]. intros b'. apply noFail_bind; [apply noFail_slice|]. intros a'. apply noFail_bind; [apply IH|]. intros r. exact I.
Qed.
Lemma noFail_blockLoop bs f i o : noFail (blockLoop bs f i o).
Proof. unfold blockLoop. apply noFail_foreach. intros k s. destruct (_ && _); exact I. Qed.
Lemma noFail_xorTail i o : noFail (xorTail i o).
Proof. unfold xorTail. nf. Qed.
Lemma noFail_pair {A B C D} (o : outcome (A * B * C)) (f : A -> B -> C -> outcome D) : noFail o -> (forall a b c, noFail (f a b c)) -> noFail (do '(a, b, c) <- o; f a b c).
Proof. intros H F. apply noFail_bind; [exact H|]. intros ((a & b) & c). apply F. Qed.
Lemma noFail_AddVector ar a b : noFail (AddVector ar a b).
Proof.
  destruct ar as [|sse2 s3 a2|]; cbn [AddVector].
  - unfold AddVectorGeneric, AddVectorBatchGeneric. destruct (negb _); [exact I|]. destruct (256 <=? _); [apply noFail_addBatch|nf].
  - unfold AddVector_amd64. destruct sse2; [|apply noFail_xorTail]. apply noFail_pair.
    + destruct (128 <=? _); [|exact I]. apply noFail_bind; [apply noFail_blockLoop|]. intros o. nf.
    + intros p1 i1 o1. apply noFail_pair.
      * destruct (16 <=? _); [|exact I]. apply noFail_bind; [apply noFail_blockLoop|]. intros o. nf.
      * intros p2 i2 o2. apply noFail_bind; [apply noFail_xorTail|]. intros ?. exact I.
  - unfold AddVector_arm64. apply noFail_bind; [apply noFail_blockLoop|]. intros o. nf.
Qed.
Lemma noFail_MulConstVector ar x a : noFail (MulConstVector ar x a).
Proof. rewrite MulConstVector_ok. exact I. Qed.
Lemma noFail_tagOf xs i : noFail (tagOf xs i).
Proof. unfold tagOf. nf. Qed.
Lemma noFail_windows N n b : noFail (windows N n b).
Proof. unfold windows. nf. Qed.

(** ** the functions of the library *)
Lemma pq_evaluate ar growcap held cb n rowLen x out : length (inPool 1 held) < 1 -> pq most held (evaluateP ar growcap cb n rowLen x out) (sure held).
Proof.
  intros Hp. unfold evaluateP. destruct (rowLen =? 0); [exact I|]. cbn [pq]. split; [exact Hp|]. intros rb.
  set (h := (polynomialBufferPool, rb) :: held).
  apply (pq_bind_sure _ h); [apply pq_resetGrow|]. intros _. apply (pq_bind_sure _ h); [apply pq_bytes|]. intros _.
  destruct (n / rowLen =? 0); [exact I|]. cbv zeta.
  apply (pq_bind_sure _ h); [apply pq_sliceW|]. intros _. apply (pq_bind_sure _ h); [apply pq_loadN|]. intros top. apply (pq_bind_sure _ h); [apply pq_storeN|]. intros _.
  apply (pq_bind_sure _ h).
  - apply pq_foreach_sure. intros i loc. apply (pq_bind_sure _ h); [apply pq_sliceW|]. intros _.
    apply (pq_bind_sure _ h); [destruct loc; [reflexivity|apply pq_loadN]|]. intros result. apply (pq_bind_sure _ h); [apply pq_loadN|]. intros ci.
    apply (pq_bind_sure _ h); [apply pq_done_sure, noFail_MulConstVector|]. intros m. apply (pq_bind_sure _ h); [apply pq_done_sure, noFail_AddVector|]. intros r.
    destruct ar; try reflexivity. apply (pq_bind_sure _ h); [apply pq_storeN|]. intros _. apply (pq_bind_sure _ h); [apply pq_storeN|]. intros _. reflexivity.
  - intros loc. apply (pq_bind_sure _ h); [destruct loc; [reflexivity|apply pq_loadN]|]. intros result. apply (pq_bind_sure _ h); [apply pq_done_sure, noFail_slice|]. intros w.
    cbn [pq pret]. split; [left; reflexivity|]. apply rem1_head.
Qed.

Lemma pq_evaluateAt ar growcap held coefficients x out : length (inPool 1 held) < 1 -> pq most held (evaluateAtP ar growcap coefficients x out) (sure held).
Proof.
  intros Hp. unfold evaluateAtP. apply (pq_bind_sure _ held); [apply pq_done_sure, noFail_idx|]. intros c0. cbv zeta. cbn [pq]. split; [exact Hp|]. intros rb.
  set (h := (polynomialBufferPool, rb) :: held).
  apply (pq_bind_sure _ h); [apply pq_resetGrow|]. intros _. apply (pq_bind_sure _ h); [apply pq_bytes|]. intros _.
  apply (pq_bind_sure _ h); [apply pq_done_sure, noFail_idx|]. intros top. apply (pq_bind_sure _ h); [apply pq_storeN|]. intros _.
  apply (pq_bind_sure _ h).
  - apply pq_foreach_sure. intros i loc. apply (pq_bind_sure _ h); [apply pq_done_sure, noFail_idx|]. intros ci.
    apply (pq_bind_sure _ h); [destruct loc; [reflexivity|apply pq_loadN]|]. intros result.
    apply (pq_bind_sure _ h); [apply pq_done_sure, noFail_MulConstVector|]. intros m. apply (pq_bind_sure _ h); [apply pq_done_sure, noFail_AddVector|]. intros r.
    destruct ar; try reflexivity. apply (pq_bind_sure _ h); [apply pq_storeN|]. intros _. apply (pq_bind_sure _ h); [apply pq_storeN|]. intros _. reflexivity.
  - intros loc. apply (pq_bind_sure _ h); [destruct loc; [reflexivity|apply pq_loadN]|]. intros result. apply (pq_bind_sure _ h); [apply pq_done_sure, noFail_slice|]. intros w.
    cbn [pq pret]. split; [left; reflexivity|]. apply rem1_head.
Qed.

Lemma pq_splitRest ar growcap mk xs buff secret parts threshold :
  (forall degree b n held, pq most held (mk degree b n) (sure held)) -> pq most [] (splitRestP ar growcap mk xs buff secret parts threshold) (sure []).
Proof.
  intros M. unfold splitRestP. cbv zeta. cbn [pq]. split; [cbn; lia|]. intros polB. set (len := (Z.to_nat (threshold - 1) + 1) * length secret).
  set (h1 := [(bPool, polB)]).
  apply (pq_bind_sure _ h1); [apply pq_resetGrow|]. intros _. apply (pq_bind_sure _ h1); [apply pq_bytes|]. intros _.
  apply (pq_bind_sure _ h1); [apply M|]. intros _. cbn [pq]. split; [cbn; lia|]. intros trB. set (h2 := (bPool, trB) :: h1).
  apply (pq_bind_sure _ h2); [apply pq_resetGrow|]. intros _. apply (pq_bind_sure _ h2); [apply pq_bytes|]. intros _.
  apply (pq_bind_sure _ h2).
  { unfold transposeMatrixBufferP. destruct (Z.to_nat (threshold - 1) + 1 =? 0); [exact I|]. apply (pq_bind_sure _ h2); [|intros _; reflexivity].
    apply pq_foreach_sure. intros i (r & c). apply (pq_bind_sure _ h2); [apply pq_loadW|]. intros v.
    apply (pq_bind_sure _ h2); [apply pq_storeW|]. intros _. cbv zeta. destruct (r + 1 =? _); reflexivity. }
  intros _. apply (pq_bind_sure _ h2).
  { unfold evalLoopP. apply pq_foreach_sure. intros i bf. cbv zeta. apply (pq_bind_sure _ h2); [apply pq_done_sure, noFail_slice|]. intros w.
    apply (pq_bind_sure _ h2); [apply pq_done_sure, noFail_tagOf|]. intros x. apply (pq_bind_sure _ h2); [apply pq_done_sure, noFail_slice|]. intros o.
    apply (pq_bind_sure _ h2); [apply pq_evaluate; cbn; lia|]. intros o'. reflexivity. }
  intros bf. apply (pq_bind_sure _ h2); [apply pq_done_sure, noFail_windows|]. intros out. cbn [pq pret].
  split; [left; reflexivity|]. unfold h2. rewrite rem1_head. split; [left; reflexivity|]. unfold h1. rewrite rem1_head. reflexivity.
Qed.

Lemma pq_setIntercepts intercepts degree b n held : pq most held (setInterceptsP intercepts degree b n) (sure held).
Proof.
  unfold setInterceptsP. apply pq_foreach_sure. intros p _. cbv zeta. apply (pq_bind_sure _ held); [apply pq_sliceW|]. intros _.
  apply (pq_bind_sure _ held); [apply pq_done_sure, noFail_idx|]. intros ip. destruct (0 <? _); [reflexivity|exact I].
Qed.

Lemma pq_Split ar growcap perm stream secret parts threshold : pq most [] (SplitProg ar growcap perm stream secret parts threshold) (kept []).
Proof.
  unfold SplitProg. destruct (checkArgs secret parts threshold); [reflexivity|]. apply pq_bind_kept; [apply pq_done|]. intros buff. apply pq_sure_kept, pq_splitRest.
  intros degree b n held. unfold makePolynomialsWithBuffP. apply (pq_bind_sure _ held); [apply pq_storeN|]. intros _. apply pq_setIntercepts.
Qed.
Lemma pq_SWR fuel ar growcap ks secret parts threshold : pq most [] (SplitWithRandomizerProg fuel ar growcap ks secret parts threshold) (kept []).
Proof.
  unfold SplitWithRandomizerProg. destruct (checkArgs secret parts threshold); [reflexivity|]. apply pq_bind_kept; [apply pq_done|]. intros xs. apply pq_bind_kept; [apply pq_done|]. intros buff.
  apply pq_sure_kept, pq_splitRest. intros degree b n held. unfold makePolynomialsWithBuffAndRandomizerP. apply (pq_bind_sure _ held); [|intros _; apply pq_setIntercepts].
  apply pq_foreach_sure. intros j _. apply (pq_bind_sure _ held); [apply pq_loadW|]. intros v. apply pq_storeW.
Qed.
Lemma pq_Old ar growcap ks secret parts threshold : pq most [] (SplitWithRandomizerOldProg ar growcap ks secret parts threshold) (kept []).
Proof.
  unfold SplitWithRandomizerOldProg. destruct (checkArgs secret parts threshold); [reflexivity|]. cbv zeta.
  do 4 (apply pq_bind_kept; [apply pq_done|]; intros ?). apply pq_bind_kept; [|intros ?; apply pq_done]. apply pq_foreach. intros i buff.
  do 2 (apply pq_bind_kept; [apply pq_done|]; intros ?). apply pq_bind_kept; [apply pq_sure_kept, pq_evaluateAt; cbn; lia|]. intros ?. reflexivity.
Qed.
Lemma pq_krSplitWith E zp key share secret parts threshold : (forall s p t, pq most [] (share s p t) (kept [])) -> pq most [] (krSplitWithProg E zp key share secret parts threshold) (kept []).
Proof.
  intros W. unfold krSplitWithProg. destruct (krCheck _ parts threshold); [reflexivity|]. apply pq_bind_kept; [apply pq_done|]. intros c.
  destruct (rsNew zp threshold (parts - threshold)); [reflexivity|]. cbv zeta. do 3 (apply pq_bind_kept; [apply pq_done|]; intros ?).
  apply pq_bind_kept; [apply W|]. intros ?. apply pq_done.
Qed.
Lemma pq_api b c : pq most [] (apiProg b c) (kept []).
Proof.
  destruct c; cbn [apiProg]; try apply pq_done; (apply pq_bind_kept; [|intros ?; reflexivity]).
  - apply pq_Split.
  - apply pq_SWR.
  - apply pq_Old.
  - apply pq_krSplitWith. intros. apply pq_Split.
  - apply pq_krSplitWith. intros. apply pq_SWR.
Qed.

(** the end condition of a goroutine: nothing is held unless a call has panicked or hangs *)
Definition clean {A} (h : lent) (o : outcome A) : Prop := fatal o \/ h = [].
Lemma pq_client b n next : forall results, pq most [] (client b n next results) clean.
Proof.
  induction n as [|n IH]; intros results; cbn [client]; [right; reflexivity|]. destruct (next results) as [c|]; [|right; reflexivity].
  apply pq_seq. eapply pq_mono; [|apply pq_api]. intros h o Ho. destruct o as [a|e|p| |]; cbn in Ho; subst; try apply IH; left; exact I.
Qed.
