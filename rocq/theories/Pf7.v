(** Proofs of the properties of the worker and of sequences of calls (C42, C44, C45). *)
From Coq Require Import List NArith ZArith Lia Arith Bool Permutation String.
From Coq.Init Require Import Byte.
From Verif Require Import GoSem Bytes Spec SpecKr Galois GF PolyFacts GoFacts VectorFacts Vector Csprng Pool Polynomial PolynomialFacts Shamir SplitFacts
  CombineFacts Secrecy CsprngFacts Derived RandomizerFacts Libs AES Krawczyk KrawczykFacts KrawczykCombine Worker Pf1 Pf4 Pf6.
Import ListNotations.

(*PROPS
From Coq Require Import List NArith ZArith Lia Arith Bool Permutation String.
From Coq.Init Require Import Byte.
From Verif Require Import GoSem Bytes Spec SpecKr Vector Csprng Pool Polynomial Shamir Libs AES Krawczyk Worker ExData Pf7.
Import ListNotations.
*)

Lemma eqb_shamir alg : (alg =? AlgShamir)%string = true <-> alg = "shamir"%string.
Proof. apply String.eqb_eq. Qed.
Lemma eqb_krawczyk alg : (alg =? AlgSSMS)%string = true <-> alg = "krawczyk"%string.
Proof. apply String.eqb_eq. Qed.

(** the three cases of the dispatch *)
Lemma worker_cases {A} alg (x y z : A) :
  (alg = "shamir"%string /\ (if negb (alg =? AlgShamir)%string && negb (alg =? AlgSSMS)%string then x else if (alg =? AlgShamir)%string then y else z) = y) \/
  (alg = "krawczyk"%string /\ (if negb (alg =? AlgShamir)%string && negb (alg =? AlgSSMS)%string then x else if (alg =? AlgShamir)%string then y else z) = z) \/
  (alg <> "shamir"%string /\ alg <> "krawczyk"%string /\
   (if negb (alg =? AlgShamir)%string && negb (alg =? AlgSSMS)%string then x else if (alg =? AlgShamir)%string then y else z) = x).
Proof.
  destruct (alg =? AlgShamir)%string eqn:E1.
  - left. split; [apply eqb_shamir, E1|reflexivity].
  - destruct (alg =? AlgSSMS)%string eqn:E2.
    + right. left. split; [apply eqb_krawczyk, E2|reflexivity].
    + right. right. split; [intros X; apply eqb_shamir in X; congruence|]. split; [intros X; apply eqb_krawczyk in X; congruence|reflexivity].
Qed.

(** C42: which errors Worker.Split returns. *)
Lemma C42_split_errors_pf : forall fuel E zp ar growcap w polB trB evBufs algorithm input n k e,
  grow_ok growcap ->
  (WorkerSplit fuel E zp ar growcap w polB trB evBufs algorithm input n k = Fail e <->
     (algorithm = "shamir"%string /\ arg_error input n k e) \/
     (algorithm = "krawczyk"%string /\ kr_arg_error zp input n k e) \/
     (algorithm <> "shamir"%string /\ algorithm <> "krawczyk"%string /\ e = EInvalidAlgorithm)).
Proof.
  intros fuel E zp ar growcap w polB trB evBufs algorithm input n k e G. unfold WorkerSplit.
  destruct (worker_cases algorithm (@Fail (list (list byte)) EInvalidAlgorithm) (SplitWithRandomizer fuel ar growcap w polB trB evBufs input n k)
    (krSplitWithRandomizer fuel E zp ar growcap w polB trB evBufs input n k)) as [(-> & X)|[(-> & X)|(N1 & N2 & X)]]; rewrite X.
  - rewrite C03_splitwithrandomizer_errors_pf by exact G. intuition discriminate.
  - rewrite C40_errors_pf by exact G. intuition discriminate.
  - split; [intros Y; injection Y as <-; auto|]. intros [(Y & _)|[(Y & _)|(_ & _ & ->)]]; [contradiction|contradiction|reflexivity].
Qed.

(** C42: which errors Worker.Combine returns: for an unknown name always the same one, for "shamir" exactly on unacceptable parts;
    otherwise it is the Combine of the chosen package. *)
Lemma C42_combine_dispatch_pf : forall E zp rd algorithm ss n k,
  let parts := map (fun s => match s with Some s => s | None => [] end) ss in
  (algorithm <> "shamir"%string -> algorithm <> "krawczyk"%string -> WorkerCombine E zp rd algorithm ss n k = Fail EInvalidAlgorithm) /\
  (WorkerCombine E zp rd "shamir" ss n k = Combine parts) /\
  (~ acceptable parts -> exists e, WorkerCombine E zp rd "shamir" ss n k = Fail e) /\
  (acceptable parts -> exists r, WorkerCombine E zp rd "shamir" ss n k = Ret r) /\
  (WorkerCombine E zp rd "krawczyk" ss n k = krCombine E zp rd ss n k).
Proof.
  intros E zp rd algorithm ss n k parts.
  assert (S : WorkerCombine E zp rd "shamir" ss n k = Combine parts) by reflexivity.
  split; [|split; [exact S|split; [|split; [|reflexivity]]]].
  - intros N1 N2. unfold WorkerCombine. destruct (worker_cases algorithm (@Fail (list byte) EInvalidAlgorithm) (Combine parts) (krCombine E zp rd ss n k)) as [(Y & _)|[(Y & _)|(_ & _ & X)]]; [contradiction|contradiction|exact X].
  - rewrite S. intros NA. destruct (C05_combine_contract_pf parts) as (_ & _ & _ & _ & A & [B|(r & B)]); [exact B|]. exfalso. apply NA.
    destruct (Combine_inv _ _ B) as (L & H1 & H2 & H3 & H4 & _ & ->). repeat split; assumption.
  - rewrite S. intros A. apply C05_combine_contract_pf in A as (r & B & _). exists r. exact B.
Qed.

(** C42: whatever Worker.Split returns, Worker.Combine puts together again. *)
Lemma C42_round_trip_pf : forall fuel E zp rd ar growcap w polB trB evBufs algorithm input n k shares,
  (forall i, 0 < rd i) -> grow_ok growcap ->
  WorkerSplit fuel E zp ar growcap w polB trB evBufs algorithm input n k = Ret shares ->
  List.length shares = Z.to_nat n /\
  forall ss is, selection (Z.to_nat n) (Z.to_nat k) is -> somes ss = pick [] shares is ->
    (algorithm = "shamir"%string -> ~ In None ss) ->
    WorkerCombine E zp rd algorithm ss n k = Ret input.
Proof.
  intros fuel E zp rd ar growcap w polB trB evBufs algorithm input n k shares Hrd G R. unfold WorkerSplit in R.
  destruct (worker_cases algorithm (@Fail (list (list byte)) EInvalidAlgorithm) (SplitWithRandomizer fuel ar growcap w polB trB evBufs input n k)
    (krSplitWithRandomizer fuel E zp ar growcap w polB trB evBufs input n k)) as [(-> & X)|[(-> & X)|(N1 & N2 & X)]]; rewrite X in R; clear X.
  - destruct (C18_randomizer_combine_pf _ _ _ _ _ _ _ _ _ _ _ G R) as (L & _ & _ & C). split; [exact L|].
    intros ss is Hi Hss HN. specialize (HN eq_refl). change (Combine (map (fun s => match s with Some s => s | None => [] end) ss) = Ret input).
    replace (map _ ss) with (somes ss); [rewrite Hss; apply C, Hi|]. clear - HN. induction ss as [|[s|] ss IH]; [reflexivity| |exfalso; apply HN; left; reflexivity].
    cbn [somes map]. f_equal. apply IH. intros F. apply HN. right. exact F.
  - destruct (C40_randomizer_combine_pf fuel E zp rd ar growcap w polB trB evBufs input n k shares Hrd G R) as (L & C). split; [exact L|].
    intros ss is Hi Hss _. exact (C ss is Hi Hss).
  - discriminate.
Qed.

(** C42: a worker draws the same tags, respectively the same key, in every call: two successful calls with the same number of
    parts give shares with the same tags. *)
Lemma C42_same_tags_pf : forall fuel fuel' E zp ar ar' growcap growcap' w polB polB' trB trB' evBufs evBufs' input input' n k k' shares shares',
  grow_ok growcap -> grow_ok growcap' ->
  WorkerSplit fuel E zp ar growcap w polB trB evBufs "shamir" input n k = Ret shares ->
  WorkerSplit fuel' E zp ar' growcap' w polB' trB' evBufs' "shamir" input' n k' = Ret shares' ->
  map tag shares = map tag shares'.
Proof.
  intros fuel fuel' E zp ar ar' growcap growcap' w polB polB' trB trB' evBufs evBufs' input input' n k k' shares shares' G G' R R'.
  change (SplitWithRandomizer fuel ar growcap w polB trB evBufs input n k = Ret shares) in R.
  change (SplitWithRandomizer fuel' ar' growcap' w polB' trB' evBufs' input' n k' = Ret shares') in R'.
  destruct (SWR_inv _ _ _ _ _ _ _ _ _ _ _ G R) as ((_ & H2 & H3 & H4) & xs & Ex & ->).
  destruct (SWR_inv _ _ _ _ _ _ _ _ _ _ _ G' R') as (_ & xs' & Ex' & ->). rewrite !map_tag_shares. f_equal.
  destruct (Nat.lt_ge_cases (b2i (z2b n)) 20) as [Hn|Hn].
  - exact (picks_unique _ _ _ _ (GetUniqueBytes_0 fuel w (z2b n) xs Hn Ex) (GetUniqueBytes_0 fuel' w (z2b n) xs' Hn Ex')).
  - unfold GetUniqueBytes in Ex, Ex'. unfold b2i in Hn. destruct (N.leb_spec 20 (b2n (z2b n))) as [X|X]; [|lia]. congruence.
Qed.

(*COPY
Example C42_run :
  match WorkerSplit 3 AES true ex_ar growcap117 (NewWorker AES ex_stream) [] [] ex_ev "shamir" ex_secret 5 3 with
  | Ret sh => WorkerCombine AES true (fun _ => 512) "shamir" (map Some (pick [] sh [3; 1; 0])) 5 3 = Ret ex_secret
  | _ => False end /\
  match WorkerSplit 3 AES true ex_ar growcap117 (NewWorker AES ex_stream) [] [] ex_ev "krawczyk" ex_secret 5 3 with
  | Ret sh => WorkerCombine AES true (fun _ => 512) "krawczyk" (None :: map Some (pick [] sh [3; 1; 0])) 5 3 = Ret ex_secret
  | _ => False end /\
  WorkerSplit 3 AES true ex_ar growcap117 (NewWorker AES ex_stream) [] [] ex_ev "rsa" ex_secret 5 3 = Fail EInvalidAlgorithm /\
  WorkerSplit 3 AES true ex_ar growcap117 (NewWorker AES ex_stream) [] [] ex_ev "shamir" ex_secret 5 1 = Fail EThresholdSmall.
Proof. split; [vm_compute; reflexivity|]. split; [vm_compute; reflexivity|]. split; vm_compute; reflexivity. Qed.
END*)

(** ** Histories *)
Lemma withPool_fst size pool (body : bbuf -> bbuf -> outcome (list (list byte) * bbuf * bbuf)) :
  exists polB trB, fst (withPool size pool body) = (do '(out, _, _) <- body polB trB; Ret out).
Proof.
  unfold withPool. destruct (poolGet pool []) as [polB p1]. destruct (poolGet p1 []) as [trB p2]. exists polB, trB.
  destruct (body polB trB) as [[[o a] b]|e|p| |]; reflexivity.
Qed.

(** C44: Split does not depend on what earlier calls left in the pool. *)
Lemma C44_split_pf : forall ar growcap size calls perm stream evBufs evBufs' secret parts threshold,
  grow_ok growcap -> Permutation perm (seq 0 255) ->
  let result pool ev := fst (runCall ar growcap size pool (CallSplit perm stream ev secret parts threshold)) in
  result (poolAfter ar growcap size calls) evBufs = result [] evBufs' /\
  (valid_args secret parts threshold -> exists shares, result (poolAfter ar growcap size calls) evBufs = Ret shares).
Proof.
  intros ar growcap size calls perm stream evBufs evBufs' secret parts threshold G P result.
  assert (A : forall pool ev, exists polB trB, result pool ev = Split ar growcap perm stream polB trB ev secret parts threshold).
  { intros pool ev. unfold result, runCall. destruct (withPool_fst size pool (fun polB trB => SplitBufs ar growcap perm stream polB trB ev secret parts threshold)) as (a & b & X).
    exists a, b. exact X. }
  destruct (A (poolAfter ar growcap size calls) evBufs) as (a & b & X). destruct (A [] evBufs') as (a' & b' & X'). rewrite X, X'. clear A X X'.
  destruct (checkArgs secret parts threshold) as [e|] eqn:Ck.
  - split; [|intros V; apply valid_checkArgs in V; congruence]. unfold Split, SplitBufs. rewrite Ck. reflexivity.
  - assert (Lp : (parts <= Z.of_nat (List.length perm))%Z).
    { apply Permutation_length in P. rewrite seq_length in P. rewrite P. apply checkArgs_None in Ck. lia. }
    rewrite !Split_ok by assumption. split; [reflexivity|]. intros _. eexists. reflexivity.
Qed.

(** C44: SplitWithRandomizer after any history: the same success or failure, the same tags, and shares that combine. *)
Lemma C44_randomizer_pf : forall ar growcap size calls fuel ks evBufs evBufs' secret parts threshold,
  grow_ok growcap ->
  let result pool ev := fst (runCall ar growcap size pool (CallSplitWithRandomizer fuel ks ev secret parts threshold)) in
  match result (poolAfter ar growcap size calls) evBufs, result [] evBufs' with
  | Ret shares, Ret shares' =>
      map tag shares = map tag shares' /\
      forall is, selection (Z.to_nat parts) (Z.to_nat threshold) is -> Combine (pick [] shares is) = Ret secret
  | o, o' => o = o'
  end.
Proof.
  intros ar growcap size calls fuel ks evBufs evBufs' secret parts threshold G result.
  assert (A : forall pool ev, exists polB trB, result pool ev = SplitWithRandomizer fuel ar growcap ks polB trB ev secret parts threshold).
  { intros pool ev. unfold result, runCall. destruct (withPool_fst size pool (fun polB trB => SplitWithRandomizerBufs fuel ar growcap ks polB trB ev secret parts threshold)) as (a & b & X).
    exists a, b. exact X. }
  destruct (A (poolAfter ar growcap size calls) evBufs) as (a & b & X). destruct (A [] evBufs') as (a' & b' & X'). rewrite X, X'. clear A X X' result.
  destruct (checkArgs secret parts threshold) as [e|] eqn:Ck.
  { unfold SplitWithRandomizer, SplitWithRandomizerBufs. rewrite Ck. reflexivity. }
  pose proof Ck as V. apply valid_checkArgs in V. destruct (GetUniqueBytes fuel ks (z2b parts)) as [xs|e|p| |] eqn:Ex.
  - pose proof (SWR_ok fuel ar growcap ks a b evBufs secret parts threshold xs G V Ex) as R.
    pose proof (SWR_ok fuel ar growcap ks a' b' evBufs' secret parts threshold xs G V Ex) as R'. rewrite R'.
    destruct (C18_randomizer_combine_pf _ _ _ _ _ _ _ _ _ _ _ G R) as (_ & _ & _ & C).
    rewrite R. split; [rewrite !map_tag_shares; reflexivity|exact C].
  - unfold SplitWithRandomizer, SplitWithRandomizerBufs. rewrite Ck, Ex. reflexivity.
  - unfold SplitWithRandomizer, SplitWithRandomizerBufs. rewrite Ck, Ex. reflexivity.
  - unfold SplitWithRandomizer, SplitWithRandomizerBufs. rewrite Ck, Ex. reflexivity.
  - unfold SplitWithRandomizer, SplitWithRandomizerBufs. rewrite Ck, Ex. reflexivity.
Qed.

(*COPY
(** a history that leaves two non-empty buffers; Split gives the same shares as on an empty pool, SplitWithRandomizer different ones *)
Example C44_run :
  let history := [CallSplit ex_perm ex_stream ex_ev ex_secret 5 3; CallSplitWithRandomizer 3 ex_stream ex_ev ex_secret 4 2;
                  CallSplit ex_perm ex_stream ex_ev [] 5 3] in
  let pool := poolAfter ex_ar growcap117 8 history in
  map (@List.length byte) pool = [64; 64] /\
  fst (runCall ex_ar growcap117 8 pool (CallSplit ex_perm ex_stream ex_ev ex_secret 5 3)) =
  fst (runCall ex_ar growcap117 8 [] (CallSplit ex_perm ex_stream ex_ev ex_secret 5 3)) /\
  fst (runCall ex_ar growcap117 8 pool (CallSplitWithRandomizer 3 ex_stream ex_ev ex_secret 5 3)) <>
  fst (runCall ex_ar growcap117 8 [] (CallSplitWithRandomizer 3 ex_stream ex_ev ex_secret 5 3)).
Proof. vm_compute. split; [reflexivity|]. split; [reflexivity|discriminate]. Qed.
END*)

(** C44: a sequence of calls leaves at most two buffers in the pool, and never more than its size. *)
Lemma C44_pool_bounded_pf : forall ar growcap size calls,
  List.length (poolAfter ar growcap size calls) <= 2 /\ List.length (poolAfter ar growcap size calls) <= size.
Proof.
  intros ar growcap size calls. unfold poolAfter.
  assert (W : forall pool body, List.length pool <= 2 /\ List.length pool <= size ->
     List.length (snd (withPool size pool body)) <= 2 /\ List.length (snd (withPool size pool body)) <= size).
  { intros pool body H. unfold withPool. destruct pool as [|x [|y pool]]; cbn [poolGet].
    - destruct (body [] []) as [[[o a] b]|e|p| |]; cbn [snd List.length]; try lia. unfold poolPut.
      destruct (Nat.ltb_spec (List.length (@nil bbuf)) size); rewrite ?app_length; cbn [List.length app] in *;
      match goal with |- context[if ?u <? ?v then _ else _] => destruct (Nat.ltb_spec u v) end; rewrite ?app_length; cbn [List.length] in *; lia.
    - destruct (body x []) as [[[o a] b]|e|p| |]; cbn [snd]; try exact H. unfold poolPut.
      destruct (Nat.ltb_spec (List.length (@nil bbuf)) size); rewrite ?app_length; cbn [List.length app] in *;
      match goal with |- context[if ?u <? ?v then _ else _] => destruct (Nat.ltb_spec u v) end; rewrite ?app_length; cbn [List.length] in *; lia.
    - destruct (body x y) as [[[o a] b]|e|p| |]; cbn [snd]; try exact H.
      assert (pool = []) by (destruct pool; [reflexivity|cbn in H; lia]). subst pool. unfold poolPut.
      destruct (Nat.ltb_spec (List.length (@nil bbuf)) size); rewrite ?app_length; cbn [List.length app] in *;
      match goal with |- context[if ?u <? ?v then _ else _] => destruct (Nat.ltb_spec u v) end; rewrite ?app_length; cbn [List.length] in *; lia. }
  assert (F : forall calls pool, List.length pool <= 2 /\ List.length pool <= size ->
     let q := fold_left (fun pool c => snd (runCall ar growcap size pool c)) calls pool in List.length q <= 2 /\ List.length q <= size).
  { clear calls. induction calls as [|c calls IH]; intros pool H; [exact H|]. cbn [fold_left]. apply IH. destruct c; apply W, H. }
  apply F. cbn. lia.
Qed.

(** ** C45 *)
(** the polynomials of the second of two SplitWithRandomizer calls *)
Lemma second_call fuel fuel' ar ar' growcap size ks ev ev' A B parts parts' threshold shares shares' pool' pool'' :
  grow_ok growcap -> 2 <= size -> List.length A = List.length B ->
  runCall ar growcap size [] (CallSplitWithRandomizer fuel ks ev A parts threshold) = (Ret shares, pool') ->
  runCall ar' growcap size pool' (CallSplitWithRandomizer fuel' ks ev' B parts' threshold) = (Ret shares', pool'') ->
  valid_args B parts' threshold /\
  exists xs buf, GetUniqueBytes fuel' ks (z2b parts') = Ret xs /\ List.length buf = Z.to_nat threshold * List.length B /\
    shares' = map (share_at (polysOf (Z.to_nat threshold) B buf)) (tagsOf (Z.to_nat parts') xs) /\
    forall i, i < List.length A -> nth i buf x00 = gadd (nth i A x00) (ks i).
Proof.
  intros G Hsz L R1 R2. cbn [runCall] in R1, R2. unfold withPool in R1. cbn [poolGet] in R1.
  destruct (SplitWithRandomizerBufs fuel ar growcap ks [] [] ev A parts threshold) as [[[o polB'] trB']|e|p| |] eqn:E1; try discriminate.
  injection R1 as <- Ep.
  assert (Epool : pool' = [trB'; polB']).
  { rewrite <- Ep. unfold poolPut. cbn [List.length]. destruct (Nat.ltb_spec 0 size); [|lia]. cbn [app List.length]. destruct (Nat.ltb_spec 1 size); [reflexivity|lia]. }
  clear Ep. subst pool'.
  assert (R1 : SplitWithRandomizer fuel ar growcap ks [] [] ev A parts threshold = Ret o) by (unfold SplitWithRandomizer; rewrite E1; reflexivity).
  destruct (SWR_inv _ _ _ _ _ _ _ _ _ _ _ G R1) as (V1 & xs1 & Ex1 & _). pose proof V1 as (Hs1 & H2 & H3 & H4).
  destruct (GetUniqueBytes_inv _ _ _ _ Ex1) as (Lx1 & _). rewrite b2i_z2b in Lx1 by lia.
  destruct (SplitWithRandomizerBufs_ok fuel ar growcap ks [] [] ev A parts threshold xs1 G (proj1 (valid_checkArgs _ _ _) V1) Ex1) as (a & b & Eab & _ & Lb & _ & Tb); [lia|].
  rewrite E1 in Eab. injection Eab as _ <- <-.
  unfold withPool in R2. cbn [poolGet] in R2.
  destruct (SplitWithRandomizerBufs fuel' ar' growcap ks trB' polB' ev' B parts' threshold) as [[[o' polB''] trB'']|e|p| |] eqn:E2; try discriminate.
  injection R2 as <- _.
  assert (R2 : SplitWithRandomizer fuel' ar' growcap ks trB' polB' ev' B parts' threshold = Ret o') by (unfold SplitWithRandomizer; rewrite E2; reflexivity).
  destruct (SWR_inv _ _ _ _ _ _ _ _ _ _ _ G R2) as (V2 & xs & Ex & Es). split; [exact V2|].
  exists xs, (swrBuf growcap ks trB' (Z.to_nat threshold) (List.length B)). split; [exact Ex|]. split; [apply swrBuf_length, G|]. split; [exact Es|].
  intros i Hi. unfold swrBuf. set (t := Z.to_nat threshold) in *.
  assert (Ht : 0 < t) by (unfold t; lia).
  pose proof (resetGrow_length growcap [] (t * List.length A) G) as HG. rewrite <- Lb in HG.
  assert (Er : resetGrow growcap trB' (t * List.length B) = trB').
  { unfold resetGrow. rewrite <- L. destruct (Nat.leb_spec (t * List.length A) (List.length trB')); [reflexivity|lia]. }
  rewrite Er. rewrite nth_Read by (rewrite firstn_length, <- L; nia). rewrite nth_firstn by (rewrite <- L; nia).
  specialize (Tb i 0 Hi Ht). rewrite Nat.mul_0_r in Tb. cbn [Nat.add] in Tb. rewrite Tb, nth_polysOf by exact Hi. reflexivity.
Qed.

(** C45: in the second of two calls with the same randomizer (fresh pool, same threshold and length), the bytes of the first secret
    are coefficients: data byte [j] of every share of B is the value, at its tag, of the polynomial with constant term B[j] and
    coefficients A[t*j+c] XOR (key stream byte t*j+c), as far as A reaches. *)
Lemma C45_coefficients_pf : forall fuel fuel' ar ar' growcap size ks ev ev' A B parts parts' threshold shares shares' pool' pool'' s j,
  grow_ok growcap -> 2 <= size -> List.length A = List.length B ->
  runCall ar growcap size [] (CallSplitWithRandomizer fuel ks ev A parts threshold) = (Ret shares, pool') ->
  runCall ar' growcap size pool' (CallSplitWithRandomizer fuel' ks ev' B parts' threshold) = (Ret shares', pool'') ->
  let t := Z.to_nat threshold in
  In s shares' -> t * j + t <= List.length A ->
  nth j s x00 = peval (nth j B x00 :: map (fun c => gadd (nth (t * j + c) A x00) (ks (t * j + c))) (seq 1 (t - 1))) (tag s).
Proof.
  intros fuel fuel' ar ar' growcap size ks ev ev' A B parts parts' threshold shares shares' pool' pool'' s j G Hsz L R1 R2 t Hs Hj.
  destruct (second_call _ _ _ _ _ _ _ _ _ _ _ _ _ _ _ _ _ _ G Hsz L R1 R2) as (V & xs & buf & Ex & Lb & -> & Hb). fold t in Lb, Hs.
  destruct V as (_ & V2 & _). apply in_map_iff in Hs as (x & <- & _). rewrite tag_share_at.
  assert (Ht : 2 <= t) by (unfold t; lia).
  assert (HjB : j < List.length B) by nia.
  unfold share_at. rewrite app_nth1 by (rewrite map_length, polysOf_length; exact HjB).
  rewrite (nth_map' _ _ j x00 []) by (rewrite polysOf_length; exact HjB). rewrite nth_polysOf by exact HjB. f_equal.
  unfold polyOf. f_equal. apply nth_ext with x00 x00.
  - rewrite skipn_length, map_length, seq_length, row_length by nia. lia.
  - intros i Hi. rewrite skipn_length, row_length in Hi by nia.
    rewrite nth_skipn, nth_row by lia. rewrite (nth_map' _ _ i x00 0) by (rewrite seq_length; lia). rewrite seq_nth by lia. apply Hb. nia.
Qed.

(** C45, threshold 2: share number 2j+1 of the second split, with byte [j] of its secret, gives away byte 2j+1 of the first secret. *)
Lemma C45_leak_pf : forall fuel fuel' ar ar' growcap size ks ev ev' A B parts shares shares' pool' pool'' j,
  grow_ok growcap -> 2 <= size -> List.length A = List.length B -> (parts < 20)%Z -> NoDup (map ks (seq 0 (Z.to_nat parts))) ->
  runCall ar growcap size [] (CallSplitWithRandomizer fuel ks ev A parts 2) = (Ret shares, pool') ->
  runCall ar' growcap size pool' (CallSplitWithRandomizer fuel' ks ev' B parts 2) = (Ret shares', pool'') ->
  2 * j + 1 < List.length A -> 2 * j + 1 < Z.to_nat parts ->
  let s := nth (2 * j + 1) shares' [] in let x := tag s in
  x <> x00 ->
  forall a, gmul x (gadd a (bsub x x01)) = gadd (nth j s x00) (nth j B x00) <-> a = nth (2 * j + 1) A x00.
Proof.
  intros fuel fuel' ar ar' growcap size ks ev ev' A B parts shares shares' pool' pool'' j G Hsz L Hp ND R1 R2 Hj Hn s x Hx a.
  destruct (second_call _ _ _ _ _ _ _ _ _ _ _ _ _ _ _ _ _ _ G Hsz L R1 R2) as ((Hs & H2 & H3 & H4) & xs & buf & Ex & Lb & Es & Hb).
  change (Z.to_nat 2) with 2 in *.
  assert (Hbp : b2i (z2b parts) = Z.to_nat parts) by (apply b2i_z2b; lia).
  pose proof (GetUniqueBytes_0 fuel' ks (z2b parts) xs ltac:(lia) Ex) as P. rewrite Hbp in P.
  pose proof (picks_unique _ _ _ _ P (picks_distinct ks _ ND)) as Exs. subst xs.
  assert (Ls : List.length (take_stream ks (Z.to_nat parts)) = Z.to_nat parts) by apply take_stream_length.
  assert (Ek : bsub x x01 = ks (2 * j + 1)).
  { unfold x, s. rewrite Es. rewrite (nth_map' _ _ _ [] x00) by (rewrite tagsOf_length; lia). rewrite tag_share_at, nth_tagsOf by lia.
    rewrite bsub_badd. apply nth_take_stream. exact Hn. }
  assert (Eq : nth j s x00 = gadd (nth j B x00) (gmul x (gadd (nth (2 * j + 1) A x00) (ks (2 * j + 1))))).
  { assert (Hin : In s shares') by (unfold s; apply nth_In; rewrite Es, map_length, tagsOf_length; lia).
    pose proof (C45_coefficients_pf _ _ _ _ _ _ _ _ _ _ _ _ _ _ _ _ _ _ s j G Hsz L R1 R2 Hin) as Q. cbv zeta in Q. change (Z.to_nat 2) with 2 in Q.
    rewrite Q by lia. fold x. change (seq 1 (2 - 1)) with [1]. cbn [map]. rewrite peval_heval. cbn [heval]. rewrite gmul_0_r, gadd_0_r. reflexivity. }
  rewrite Eq, Ek. set (k := ks (2 * j + 1)). set (b := nth j B x00). set (a0 := nth (2 * j + 1) A x00).
  assert (C : gadd (gadd b (gmul x (gadd a0 k))) b = gmul x (gadd a0 k)).
  { transitivity (gadd (gmul x (gadd a0 k)) (gadd b b)); [generalize (gmul x (gadd a0 k)); intros; ring|]. rewrite gadd_self. apply gadd_0_r. }
  rewrite C. split; [|intros ->; reflexivity]. intros H.
  assert (H' : gadd a k = gadd a0 k).
  { assert (D : gmul x (gadd (gadd a k) (gadd a0 k)) = x00).
    { transitivity (gadd (gmul x (gadd a k)) (gmul x (gadd a0 k))); [ring|]. rewrite H. apply gadd_self. }
    apply gmul_eq_0 in D as [D|D]; [contradiction|]. apply gadd_eq_0; exact D. }
  transitivity (gadd (gadd a k) k); [rewrite gadd_assoc', gadd_self, gadd_0_r; reflexivity|]. rewrite H'. rewrite gadd_assoc', gadd_self. apply gadd_0_r.
Qed.

(*COPY
(** two splits by the same randomizer, secrets "hello" and 5 zeros, threshold 2: share 1 of the second shows byte 1 of the first *)
Example C45_run :
  NoDup (map ex_stream (seq 0 5)) /\
  match runCall ex_ar growcap117 8 [] (CallSplitWithRandomizer 3 ex_stream ex_ev ex_secret 5 2) with
  | (Ret _, pool) =>
    match runCall ex_ar growcap117 8 pool (CallSplitWithRandomizer 3 ex_stream ex_ev (repeat x00 5) 5 2) with
    | (Ret sh, _) => let s := nth 1 sh [] in
        tag s <> x00 /\ gmul (tag s) (gadd x65 (bsub (tag s) x01)) = nth 0 s x00 /\ nth 1 ex_secret x00 = x65
    | _ => False
    end
  | _ => False
  end.
Proof.
  split; [|vm_compute; split; [discriminate|split; reflexivity]].
  assert (H : map ex_stream (seq 0 5) = nodup byte_eq_dec (map ex_stream (seq 0 5))) by (vm_compute; reflexivity). rewrite H. apply NoDup_nodup.
Qed.
END*)
