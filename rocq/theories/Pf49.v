(** Proofs about detecting and correcting wrong shares with nothing but krawczyk.Combine (C94). *)
From Coq Require Import List NArith ZArith Lia Arith Bool Permutation.
From Coq.Init Require Import Byte.
From Verif Require Import GoSem Bytes Spec SpecDetect DetectFacts GF PolyFacts GoFacts Vector Csprng Pool Shamir Libs AES Krawczyk SplitFacts CombineFacts Secrecy SpecKr KrawczykFacts KrawczykCombine CountFacts KrawczykContract ExData VectorFacts RegenFacts Pf6 Pf12 Pf36 Pf47.
Import ListNotations.

(*PROPS
From Coq Require Import List NArith ZArith Lia Arith Bool Permutation.
From Coq.Init Require Import Byte.
From Verif Require Import GoSem Bytes Spec SpecKr SpecDetect Vector Csprng Pool Shamir Libs AES Krawczyk ExData Pf12 Pf49.
Import ListNotations.
*)

(** any function that recovers [secret] from [t] or more of [sent] *)
Lemma correct_core (F : list (list byte) -> outcome (list byte)) (secret : list byte) t sent received e :
  (forall ks, NoDup ks -> length ks = t -> (forall k, In k ks -> k < length sent) -> F (pick [] sent ks) = Ret secret) ->
  length received = length sent -> wrong received sent <= e ->
  (forall js s', NoDup js -> (forall j, In j js -> j < length sent) -> t + e <= length js -> consistent F received t js s' -> s' = secret) /\
  (t + 2 * e <= length sent ->
   exists js, NoDup js /\ (forall j, In j js -> j < length sent) /\ t + e <= length js /\ consistent F received t js secret).
Proof.
  intros HF LR W. rewrite wrong_length in W by exact LR. rewrite LR in W.
  set (bad := fun j => if list_eq_dec byte_eq_dec (nth j received []) (nth j sent []) then false else true) in *.
  assert (good : forall j, negb (bad j) = true -> nth j received [] = nth j sent []).
  { intros j. unfold bad. destruct (list_eq_dec byte_eq_dec (nth j received []) (nth j sent [])); [auto|discriminate]. }
  assert (Cons : forall ks, NoDup ks -> length ks = t -> (forall k, In k ks -> k < length sent /\ negb (bad k) = true) -> F (pick [] received ks) = Ret secret).
  { intros ks Nk Lk Hk. replace (pick [] received ks) with (pick [] sent ks); [apply HF; [exact Nk|exact Lk|intros k Ik; apply Hk, Ik]|].
    unfold pick. apply map_ext_in. intros k Ik. symmetry. apply good, Hk, Ik. }
  split.
  - intros js s' Nj Rj Lj Cj.
    set (gs := filter (fun x => negb (bad x)) js).
    assert (Lg : t <= length gs).
    { assert (B : length (filter bad js) <= e).
      { eapply Nat.le_trans; [|exact W]. apply NoDup_incl_length; [apply NoDup_filter, Nj|]. intros x Hx. apply filter_In in Hx as [X1 X2].
        apply filter_In. split; [|exact X2]. apply in_seq. specialize (Rj x X1). lia. }
      pose proof (filter_split bad js) as Q. fold gs in Q. lia. }
    assert (Ng : NoDup (firstn t gs)).
    { assert (Q : NoDup gs) by (apply NoDup_filter, Nj). apply NoDup_firstn', Q. }
    assert (Ig : forall x, In x (firstn t gs) -> In x gs) by (intros x Hx; rewrite <- (firstn_skipn t gs); apply in_or_app; left; exact Hx).
    assert (Lf : length (firstn t gs) = t) by (rewrite firstn_length; lia).
    assert (E1 : F (pick [] received (firstn t gs)) = Ret s').
    { apply Cj; [exact Ng|exact Lf|]. intros k Hk. apply Ig, filter_In in Hk. apply Hk. }
    rewrite (Cons (firstn t gs)) in E1; [injection E1 as <-; reflexivity|exact Ng|exact Lf|].
    intros k Hk. apply Ig, filter_In in Hk as [K1 K2]. split; [apply Rj, K1|exact K2].
  - intros L. exists (filter (fun x => negb (bad x)) (seq 0 (length sent))). split; [apply NoDup_filter, seq_NoDup|]. split.
    { intros j Hj. apply filter_In in Hj as [Hj _]. apply in_seq in Hj. lia. }
    split.
    { pose proof (filter_split bad (seq 0 (length sent))) as Q. rewrite seq_length in Q. lia. }
    intros ks Nk Lk Hk. apply Cons; [exact Nk|exact Lk|]. intros k Ik. specialize (Hk k Ik). apply filter_In in Hk as [K1 K2]. apply in_seq in K1. split; [lia|exact K2].
Qed.

(** [F] works on any selection of shares, so on any selection of those sent *)
Lemma correct_kr E zp rd (secret : list byte) parts threshold shares is received e :
  (forall ss js, selection (Z.to_nat parts) (Z.to_nat threshold) js -> somes ss = pick [] shares js -> krCombine E zp rd ss parts threshold = Ret secret) ->
  NoDup is -> (forall i, In i is -> i < Z.to_nat parts) ->
  let t := Z.to_nat threshold in
  let combine := fun ps => krCombine E zp rd (map Some ps) parts threshold in
  length received = length is -> wrong received (pick [] shares is) <= e ->
  (forall js s', NoDup js -> (forall j, In j js -> j < length is) -> t + e <= length js -> consistent combine received t js s' -> s' = secret) /\
  (t + 2 * e <= length is ->
   exists js, NoDup js /\ (forall j, In j js -> j < length is) /\ t + e <= length js /\ consistent combine received t js secret).
Proof.
  intros HF ND Hi t F LR W.
  pose proof (correct_core F secret t (pick [] shares is) received e) as K. rewrite pick_length in K. apply K; [|exact LR|exact W].
  intros ks Nk Lk Hk. unfold F. apply (HF _ (pick 0 is ks)).
  - split; [apply pick_NoDup; assumption|]. split; [|rewrite pick_length; unfold t in Lk; lia].
    intros i I. apply in_map_iff in I as (k & <- & Ik). apply Hi, nth_In, Hk, Ik.
  - assert (SM : forall l : list (list byte), somes (map Some l) = l) by (induction l as [|a l IH]; [reflexivity|cbn [map somes]; rewrite IH; reflexivity]).
    rewrite SM. unfold pick. rewrite map_map. apply map_ext_in. intros k Ik. apply (nth_map' (fun i => nth i shares []) is k [] 0). apply Hk, Ik.
Qed.

(** C94: correcting wrong shares. Of the shares numbered [is] at most [e] arrive wrong, in whatever way (also with other lengths or indices). If [threshold]+[e] or more
    of those received agree with each other, in that krawczyk.Combine returns the same [s'] for any [threshold] of them, then [s'] is the secret; and if at
    least [threshold]+2[e] were received, there are such shares. *)
Lemma C94_correct_split_pf : forall E zp rd ar growcap krand perm stream polB trB evBufs secret parts threshold shares is received e,
  (forall i, 0 < rd i) -> grow_ok growcap -> Permutation perm (seq 0 255) ->
  krSplit E zp ar growcap krand perm stream polB trB evBufs secret parts threshold = Ret shares ->
  NoDup is -> (forall i, In i is -> i < Z.to_nat parts) ->
  let t := Z.to_nat threshold in
  let combine := fun ps => krCombine E zp rd (map Some ps) parts threshold in
  length received = length is -> wrong received (pick [] shares is) <= e ->
  (forall js s', NoDup js -> (forall j, In j js -> j < length is) -> t + e <= length js -> consistent combine received t js s' -> s' = secret) /\
  (t + 2 * e <= length is ->
   exists js, NoDup js /\ (forall j, In j js -> j < length is) /\ t + e <= length js /\ consistent combine received t js secret).
Proof.
  intros E zp rd ar growcap krand perm stream polB trB evBufs secret parts threshold shares is received e Hrd G P R ND Hi.
  assert (V : kr_valid_args zp secret parts threshold) by (apply (C34_contract_pf E zp ar growcap krand perm stream polB trB evBufs secret parts threshold G P); exists shares; exact R).
  destruct (C32_split_combine_pf E zp rd ar growcap krand perm stream polB trB evBufs secret parts threshold Hrd G P V) as (sh & R' & _ & K).
  rewrite R in R'. injection R' as <-. apply correct_kr; assumption.
Qed.

Lemma C94_correct_randomizer_pf : forall fuel E zp rd ar growcap ks polB trB evBufs secret parts threshold shares is received e,
  (forall i, 0 < rd i) -> grow_ok growcap ->
  krSplitWithRandomizer fuel E zp ar growcap ks polB trB evBufs secret parts threshold = Ret shares ->
  NoDup is -> (forall i, In i is -> i < Z.to_nat parts) ->
  let t := Z.to_nat threshold in
  let combine := fun ps => krCombine E zp rd (map Some ps) parts threshold in
  length received = length is -> wrong received (pick [] shares is) <= e ->
  (forall js s', NoDup js -> (forall j, In j js -> j < length is) -> t + e <= length js -> consistent combine received t js s' -> s' = secret) /\
  (t + 2 * e <= length is ->
   exists js, NoDup js /\ (forall j, In j js -> j < length is) /\ t + e <= length js /\ consistent combine received t js secret).
Proof.
  intros fuel E zp rd ar growcap ks polB trB evBufs secret parts threshold shares is received e Hrd G R ND Hi.
  destruct (C40_randomizer_combine_pf fuel E zp rd ar growcap ks polB trB evBufs secret parts threshold shares Hrd G R) as (_ & K).
  apply correct_kr; assumption.
Qed.

(** ** leaving one out *)
Lemma without_In {A} (l : list A) a x : In x (without a l) -> In x l.
Proof.
  unfold without. intros H. apply in_app_or in H as [H|H]; [rewrite <- (firstn_skipn a l)|rewrite <- (firstn_skipn (S a) l)]; apply in_or_app; [left|right]; exact H.
Qed.

Lemma without_split (l : list nat) a : a < length l -> exists l1 l2, l = l1 ++ nth a l 0 :: l2 /\ without a l = l1 ++ l2.
Proof.
  intros H. exists (firstn a l), (skipn (S a) l). split; [|reflexivity]. rewrite <- (firstn_skipn a l) at 1. f_equal.
  clear -H. revert a H. induction l as [|x l IH]; intros a H; [cbn [length] in H; lia|]. destruct a as [|a]; [reflexivity|]. cbn [skipn nth]. apply IH. cbn [length] in H. lia.
Qed.

Lemma detect_core E zp rd secret key parts threshold shares is i0 delta k a ss :
  (forall i, 0 < rd i) -> kr_valid_args zp secret parts threshold -> length key = 16 ->
  kr_shape E secret key (Z.to_nat parts) (Z.to_nat threshold) shares ->
  let t := Z.to_nat threshold in let len := ceil_div (length secret) t in
  NoDup is -> (forall i, In i is -> i < Z.to_nat parts) -> length is = t + 1 -> In i0 is ->
  length delta = len -> nth k delta x00 <> x00 -> (t - 1) * len + k < length secret ->
  a < length is ->
  somes ss = map (fun i => if i =? i0 then xor_piece (nth i shares []) delta else nth i shares []) (without a is) ->
  nth a is 0 <> i0 -> exists out, krCombine E zp rd ss parts threshold = Ret out /\ length out = length secret /\ out <> secret.
Proof.
  intros Hrd V Hk SH t len ND Hi Lis I0 Ld Hd Hpos Ha Ess Hne. pose proof V as (Hs & HL & H2 & H3 & H4 & Hz).
  destruct (without_split is a Ha) as (l1 & l2 & E1 & E2).
  assert (ND' : NoDup (without a is)) by (rewrite E2; rewrite E1 in ND; apply NoDup_remove_1 in ND; exact ND).
  assert (L' : length (without a is) = t).
  { rewrite E2. apply (f_equal (@length nat)) in E1. rewrite app_length in *. cbn [length] in E1. lia. }
  assert (I0' : In i0 (without a is)).
  { rewrite E2. rewrite E1 in I0. apply in_app_or in I0 as [X|[X|X]]; [apply in_or_app; left; exact X|contradiction|apply in_or_app; right; exact X]. }
  destruct (one_core E zp rd secret key parts threshold shares ss (without a is) i0 delta) as (out & O1 & O2 & O3); try assumption.
  - intros i I. apply Hi, (without_In _ a), I.
  - fold t. lia.
  - exists out. split; [exact O1|]. split; [exact O2|]. fold t in O3. fold len in O3.
    assert (Kl : k < len). { destruct (Nat.lt_ge_cases k len) as [Y|Y]; [exact Y|]. exfalso. apply Hd. apply nth_overflow. lia. }
    assert (At : forall m, m < t -> (m = i0 \/ ~ In m (without a is)) -> out <> secret).
    { intros m Hm Hc F. assert (Hp : len * m + k < length secret) by nia. specialize (O3 _ Hp).
      assert (D : (len * m + k) / len = m) by (rewrite Nat.mul_comm, Nat.div_add_l, Nat.div_small by lia; lia).
      assert (M : (len * m + k) mod len = k) by (rewrite Nat.add_comm, Nat.mul_comm, Nat.mod_add, Nat.mod_small by lia; reflexivity).
      rewrite D, M in O3. apply (proj2 O3); [|rewrite F; reflexivity]. split; [exact Hd|].
      destruct Hc as [Hc|Hc]; [left; exact Hc|right; split; [exact Hc|]].
      rewrite <- L'. unfold count. apply in_split in I0' as (m1 & m2 & E3). rewrite E3, filter_app, !app_length. cbn [filter length]. rewrite Nat.ltb_irrefl.
      pose proof (filter_length_le' (fun j => j <? i0) m1). pose proof (filter_length_le' (fun j => j <? i0) m2). lia. }
    destruct (Nat.lt_ge_cases i0 t) as [Y|Y]; [apply (At i0 Y); left; reflexivity|].
    destruct (existsb (fun m => if in_dec Nat.eq_dec m (without a is) then false else true) (seq 0 t)) eqn:EX.
    + apply existsb_exists in EX as (m & M1 & M2). apply in_seq in M1. destruct (in_dec Nat.eq_dec m (without a is)) as [|N]; [discriminate|]. apply (At m); [lia|right; exact N].
    + exfalso. assert (Inc : forall m, In m (i0 :: seq 0 t) -> In m (without a is)).
      { intros m [<-|M]; [exact I0'|]. destruct (in_dec Nat.eq_dec m (without a is)) as [|N]; [assumption|]. exfalso.
        assert (T : existsb (fun m => if in_dec Nat.eq_dec m (without a is) then false else true) (seq 0 t) = true).
        { apply existsb_exists. exists m. split; [exact M|]. destruct (in_dec Nat.eq_dec m (without a is)); [contradiction|reflexivity]. }
        congruence. }
      apply NoDup_incl_length in Inc; [cbn [length] in Inc; rewrite seq_length in Inc; lia|]. constructor; [|apply seq_NoDup]. intros X. apply in_seq in X. lia.
Qed.

(** C94: [threshold]+1 shares, one of them with an altered piece. Leave out one. If that is the altered one, krawczyk.Combine returns the secret; if not, a wrong string, provided the
    alteration is at a position that is not padding in the last piece of the secret. So the results agree only if nothing was altered there. *)
Lemma C94_leave_out_split_pf : forall E zp rd ar growcap krand perm stream polB trB evBufs secret parts threshold shares is i0 delta k a ss,
  (forall i, 0 < rd i) -> grow_ok growcap -> Permutation perm (seq 0 255) ->
  krSplit E zp ar growcap krand perm stream polB trB evBufs secret parts threshold = Ret shares ->
  let t := Z.to_nat threshold in let len := ceil_div (length secret) t in
  NoDup is -> (forall i, In i is -> i < Z.to_nat parts) -> length is = t + 1 -> In i0 is ->
  length delta = len -> nth k delta x00 <> x00 -> (t - 1) * len + k < length secret ->
  a < length is ->
  somes ss = map (fun i => if i =? i0 then xor_piece (nth i shares []) delta else nth i shares []) (without a is) ->
  exists out, krCombine E zp rd ss parts threshold = Ret out /\ length out = length secret /\ (out = secret <-> nth a is 0 = i0).
Proof.
  intros E zp rd ar growcap krand perm stream polB trB evBufs secret parts threshold shares is i0 delta k a ss Hrd G P R t len ND Hi Lis I0 Ld Hd Hpos Ha Ess.
  assert (V : kr_valid_args zp secret parts threshold) by (apply (C34_contract_pf E zp ar growcap krand perm stream polB trB evBufs secret parts threshold G P); exists shares; exact R).
  destruct (Nat.eq_dec (nth a is 0) i0) as [Ea|Ea].
  - exists secret. split; [|split; [reflexivity|split; auto]].
    destruct (C32_split_combine_pf E zp rd ar growcap krand perm stream polB trB evBufs secret parts threshold Hrd G P V) as (sh & R' & _ & K).
    rewrite R in R'. injection R' as <-. destruct (without_split is a Ha) as (l1 & l2 & E1 & E2).
    assert (N0 : ~ In i0 (without a is)) by (rewrite E2; rewrite E1, Ea in ND; apply NoDup_remove_2 in ND; exact ND).
    apply (K ss (without a is)).
    + split; [rewrite E2; rewrite E1 in ND; apply NoDup_remove_1 in ND; exact ND|]. split; [intros i I; apply Hi, (without_In _ a), I|].
      rewrite E2. apply (f_equal (@length nat)) in E1. rewrite app_length in *. cbn [length] in E1. fold t. lia.
    + rewrite Ess. unfold pick. apply map_ext_in. intros i I. destruct (Nat.eqb_spec i i0) as [->|_]; [contradiction|reflexivity].
  - destruct (detect_core E zp rd secret (map krand (seq 0 16)) parts threshold shares is i0 delta k a ss Hrd V) as (out & O1 & O2 & O3);
      [rewrite map_length; apply seq_length| |assumption..|].
    + exact (C33_shape_pf E zp ar growcap krand perm stream polB trB evBufs secret parts threshold shares G P R).
    + exists out. split; [exact O1|]. split; [exact O2|]. split; intros X; contradiction.
Qed.

Lemma C94_leave_out_randomizer_pf : forall fuel E zp rd ar growcap ks polB trB evBufs secret parts threshold shares is i0 delta k a ss,
  (forall i, 0 < rd i) -> grow_ok growcap ->
  krSplitWithRandomizer fuel E zp ar growcap ks polB trB evBufs secret parts threshold = Ret shares ->
  let t := Z.to_nat threshold in let len := ceil_div (length secret) t in
  NoDup is -> (forall i, In i is -> i < Z.to_nat parts) -> length is = t + 1 -> In i0 is ->
  length delta = len -> nth k delta x00 <> x00 -> (t - 1) * len + k < length secret ->
  a < length is ->
  somes ss = map (fun i => if i =? i0 then xor_piece (nth i shares []) delta else nth i shares []) (without a is) ->
  exists out, krCombine E zp rd ss parts threshold = Ret out /\ length out = length secret /\ (out = secret <-> nth a is 0 = i0).
Proof.
  intros fuel E zp rd ar growcap ks polB trB evBufs secret parts threshold shares is i0 delta k a ss Hrd G R t len ND Hi Lis I0 Ld Hd Hpos Ha Ess.
  destruct (krSWR_inv _ _ _ _ _ _ _ _ _ _ _ _ _ G R) as (V & _).
  destruct (Nat.eq_dec (nth a is 0) i0) as [Ea|Ea].
  - exists secret. split; [|split; [reflexivity|split; auto]].
    destruct (C40_randomizer_combine_pf fuel E zp rd ar growcap ks polB trB evBufs secret parts threshold shares Hrd G R) as (_ & K).
    destruct (without_split is a Ha) as (l1 & l2 & E1 & E2).
    assert (N0 : ~ In i0 (without a is)) by (rewrite E2; rewrite E1, Ea in ND; apply NoDup_remove_2 in ND; exact ND).
    apply (K ss (without a is)).
    + split; [rewrite E2; rewrite E1 in ND; apply NoDup_remove_1 in ND; exact ND|]. split; [intros i I; apply Hi, (without_In _ a), I|].
      rewrite E2. apply (f_equal (@length nat)) in E1. rewrite app_length in *. cbn [length] in E1. fold t. lia.
    + rewrite Ess. unfold pick. apply map_ext_in. intros i I. destruct (Nat.eqb_spec i i0) as [->|_]; [contradiction|reflexivity].
  - destruct (detect_core E zp rd secret (map ks (seq 0 16)) parts threshold shares is i0 delta k a ss Hrd V) as (out & O1 & O2 & O3);
      [rewrite map_length; apply seq_length| |assumption..|].
    + exact (C40_shape_pf fuel E zp ar growcap ks polB trB evBufs secret parts threshold shares G R).
    + exists out. split; [exact O1|]. split; [exact O2|]. split; intros X; contradiction.
Qed.

(*COPY
(** Two of four shares of "hello"; the piece of share 2 arrives altered at its second byte. With e = 1 four shares, threshold+2e, are there: any two of the three right ones
    give the secret. Of the shares 0, 2 and 3, threshold+1, only leaving out number 2 gives it. *)
Example C94_run :
  match krSplit AES true ex_ar growcap117 (fun i => i2b (5 * i + 9)) ex_perm ex_stream ex_stale ex_stale ex_ev ex_secret 4 2 with
  | Ret sh =>
      let received := replace sh 2 (xor_piece (nth 2 sh []) [x00; x01; x00]) in
      wrong received (pick [] sh [0; 1; 2; 3]) = 1 /\ length [0; 2; 3] = Z.to_nat 2 + 1 /\ (2 - 1) * ceil_div 5 2 + 1 < 5 /\
      map (fun ks => krCombine AES true (fun _ => 512) (map Some (pick [] received ks)) 4 2) [[1; 0]; [0; 3]; [1; 3]] = repeat (Ret ex_secret) 3 /\
      map (fun ks => match krCombine AES true (fun _ => 512) (map Some (pick [] received ks)) 4 2 with
                     | Ret out => if list_eq_dec byte_eq_dec out ex_secret then 1 else 0 | _ => 2 end) [[2; 3]; [0; 3]; [0; 2]] = [0; 1; 0]
  | _ => False end.
Proof. vm_compute. repeat split; repeat constructor. Qed.
END*)
