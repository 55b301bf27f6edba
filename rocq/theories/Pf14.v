(** Proofs about the demonstration program main.go (C61). *)
From Coq Require Import List NArith ZArith Lia Arith Bool Permutation String.
From Coq.Init Require Import Byte.
From Verif Require Import GoSem Bytes Spec Vector Pool Polynomial Shamir SplitFacts CombineFacts GoFacts Derived Pf1 Main SpecMain.
Import ListNotations.
Local Open Scope list_scope.

(*PROPS
From Coq Require Import List NArith ZArith Lia Arith Bool Permutation String.
From Coq.Init Require Import Byte.
From Verif Require Import GoSem Bytes Spec Vector Pool Polynomial Shamir Main SpecMain ExData Pf14.
Import ListNotations.
Local Open Scope list_scope.
*)

Lemma splitR_ok ar growcap r msg n k : grow_ok growcap -> rnd_ok r -> valid_args msg n k ->
  exists shares, splitR ar growcap r msg n k = Ret shares /\ Combine shares = Ret msg.
Proof.
  intros G P V. destruct (C01_split_combine_pf ar growcap (r_perm r) (r_stream r) (r_pol r) (r_tr r) (r_ev r) msg n k G P V) as (sh & E & L & C).
  exists sh. split; [exact E|]. destruct V as (_ & V2 & V3 & _).
  assert (Ep : pick [] sh (seq 0 (List.length sh)) = sh) by (transitivity (map (fun s => s) sh); [symmetry; exact (map_as_seq (fun s => s) sh [])|apply map_id]).
  rewrite <- Ep. apply C. split; [apply seq_NoDup|]. split; [intros i Hi; apply in_seq in Hi; lia|rewrite seq_length; lia].
Qed.

(** C61: the self-check prints the message twice (the second one recombined from all shares), for every message, all valid parameters and
    all random choices. *)
Lemma C61_check_pf : forall ar growcap r msg part threshold, grow_ok growcap -> rnd_ok r -> valid_args msg part threshold ->
  checkSecretSharing ar growcap r msg part threshold = ([Line msg; Line msg], Ret tt).
Proof.
  intros ar growcap r msg part threshold G P V. unfold checkSecretSharing.
  destruct (splitR_ok ar growcap r msg part threshold G P V) as (sh & E & C). rewrite E. cbn [bind]. rewrite C. reflexivity.
Qed.

Lemma foreach_tt {A} (l : list A) f : (forall i, In i l -> f i tt = Ret tt) -> foreach l f tt = Ret tt.
Proof.
  induction l as [|a l IH]; intros H; [reflexivity|]. cbn [foreach]. rewrite H by (left; reflexivity). cbn [bind]. apply IH. intros i Hi. apply H. right. exact Hi.
Qed.

Lemma round_ok ar growcap (rs : nat -> rnd) msg rep : grow_ok growcap -> (forall i, rnd_ok (rs i)) -> msg <> [] ->
  foreach (seq 0 rep) (fun i _ => do _ <- splitR ar growcap (rs i) msg 4 2; Ret tt) tt = Ret tt.
Proof.
  intros G P Hm. apply foreach_tt. intros i _.
  destruct (splitR_ok ar growcap (rs i) msg 4 2 G (P i)) as (sh & E & _); [split; [exact Hm|lia]|]. rewrite E. reflexivity.
Qed.

Lemma doubling_cons l m ls : (0 < l)%N -> (l <= m)%N -> doubling (l + l) m ls -> doubling l m (l :: ls).
Proof.
  intros H0 Hl (H1 & H2 & H3). split; [|split].
  - cbn [List.length seq map]. f_equal; [cbn; lia|]. rewrite <- seq_shift, map_map. rewrite H1 at 1. apply map_ext. intros k.
    replace (N.of_nat (Datatypes.S k)) with (N.succ (N.of_nat k)) by lia. rewrite N.pow_succ_r by lia. lia.
  - intros x [<-|Hx]; [exact Hl|apply H2, Hx].
  - cbn [List.length]. replace (N.of_nat (Datatypes.S (List.length ls))) with (N.succ (N.of_nat (List.length ls))) by lia. rewrite N.pow_succ_r by lia. lia.
Qed.

Lemma measure_doubles (M : nat -> nat -> list byte -> run) (K : N -> event) m :
  (forall fuel round msg, (Z.of_nat (List.length msg) > m)%Z -> M fuel round msg = ([], Ret tt)) ->
  (forall fuel round msg, msg <> [] -> (Z.of_nat (List.length msg) <= m)%Z ->
     M (Datatypes.S fuel) round msg = andThen ([K (N.of_nat (List.length msg))], Ret tt) (M fuel (Datatypes.S round) (msg ++ msg))) ->
  forall d msg round, msg <> [] -> (m - Z.of_nat (List.length msg) < Z.of_nat d)%Z ->
  exists ls, doubling (N.of_nat (List.length msg)) (Z.to_N m) ls /\ forall fuel, d <= fuel -> M fuel round msg = (map K ls, Ret tt).
Proof.
  intros Stop Step. induction d as [|d IH]; intros msg round Hm Hd;
    assert (L1 : 1 <= List.length msg) by (destruct msg; [congruence|cbn; lia]).
  - exists []. split; [|intros fuel _; apply Stop; lia]. split; [reflexivity|]. split; [intros x []|]. cbn [List.length]. change (N.of_nat 0) with 0%N. rewrite N.pow_0_r. lia.
  - destruct (Z.le_gt_cases (Z.of_nat (List.length msg)) m) as [H|H].
    + destruct (IH (msg ++ msg) (Datatypes.S round)) as (ls & D & E).
      { destruct msg; [congruence|discriminate]. }
      { rewrite app_length. lia. }
      exists (N.of_nat (List.length msg) :: ls). split.
      * apply doubling_cons; [lia|lia|]. rewrite app_length in D. replace (N.of_nat (List.length msg) + N.of_nat (List.length msg))%N with (N.of_nat (List.length msg + List.length msg)) by lia. exact D.
      * intros [|fuel] Hf; [lia|]. rewrite Step by assumption. rewrite E by lia. reflexivity.
    + exists []. split; [|intros fuel _; apply Stop; lia]. split; [reflexivity|]. split; [intros x []|]. cbn [List.length]. change (N.of_nat 0) with 0%N. rewrite N.pow_0_r. lia.
Qed.

(** C61: for a non-empty message both measurements end, and print one line for each of the lengths l, 2l, 4l, ... up to the limit. *)
Lemma C61_measurements_pf : forall ar growcap rs ivOk msg msgLenMax repetition,
  grow_ok growcap -> (forall round i, rnd_ok (rs round i)) -> (forall round i, ivOk round i = true) -> msg <> [] ->
  exists ls f0, doubling (N.of_nat (List.length msg)) (Z.to_N msgLenMax) ls /\ forall fuel, f0 <= fuel ->
    measureSharing fuel ar growcap rs 0 msg msgLenMax repetition = (map Sharing ls, Ret tt) /\
    measureEncryption fuel ivOk 0 msg msgLenMax repetition = (map Encryption ls, Ret tt).
Proof.
  intros ar growcap rs ivOk msg m rep G P Iv Hm.
  set (d := Z.to_nat (m + 1)).
  destruct (measure_doubles (fun fuel round msg => measureSharing fuel ar growcap rs round msg m rep) Sharing m) with (d := d) (msg := msg) (round := 0) as (ls & D & E).
  { intros fuel round q H. destruct fuel; cbn [measureSharing]; (destruct (Z.leb_spec (Z.of_nat (List.length q)) m); [lia|reflexivity]). }
  { intros fuel round q Hq H. cbn [measureSharing]. destruct (Z.leb_spec (Z.of_nat (List.length q)) m); [|lia].
    rewrite (round_ok ar growcap (rs round) q (Z.to_nat rep) G (P round) Hq). reflexivity. }
  { exact Hm. }
  { assert (1 <= List.length msg) by (destruct msg; [congruence|cbn; lia]). lia. }
  destruct (measure_doubles (fun fuel round msg => measureEncryption fuel ivOk round msg m rep) Encryption m) with (d := d) (msg := msg) (round := 0) as (ls' & D' & E').
  { intros fuel round q H. destruct fuel; cbn [measureEncryption]; (destruct (Z.leb_spec (Z.of_nat (List.length q)) m); [lia|reflexivity]). }
  { intros fuel round q Hq H. cbn [measureEncryption]. destruct (Z.leb_spec (Z.of_nat (List.length q)) m); [|lia].
    replace (forallb (ivOk round) (seq 0 (Z.to_nat rep))) with true; [reflexivity|]. symmetry. apply forallb_forall. intros i _. apply Iv. }
  { exact Hm. }
  { assert (1 <= List.length msg) by (destruct msg; [congruence|cbn; lia]). lia. }
  assert (ls' = ls).
  { apply (doubling_unique (N.of_nat (List.length msg)) (Z.to_N m)); [destruct msg; [congruence|cbn; lia]|exact D'|exact D]. }
  subst ls'. exists ls, d. split; [exact D|]. intros fuel Hf. split; [apply E|apply E']; exact Hf.
Qed.

(** C61: started with an empty message the sharing measurement dies with Split's error, or, if no repetition is asked for, never ends. *)
Lemma C61_empty_pf : forall ar growcap rs ivOk msgLenMax repetition fuel, (0 <= msgLenMax)%Z ->
  ((0 < repetition)%Z -> 0 < fuel -> measureSharing fuel ar growcap rs 0 [] msgLenMax repetition = ([], Fail EEmptySecret)) /\
  ((repetition <= 0)%Z -> snd (measureSharing fuel ar growcap rs 0 [] msgLenMax repetition) = Diverge) /\
  ((forall round i, ivOk round i = true) -> snd (measureEncryption fuel ivOk 0 [] msgLenMax repetition) = Diverge).
Proof.
  intros ar growcap rs ivOk m rep fuel Hm.
  assert (B : (Z.of_nat (List.length (@nil byte)) <=? m)%Z = true) by (apply Z.leb_le; cbn; lia).
  split; [|split].
  - intros Hr Hf. destruct fuel as [|fuel]; [lia|]. cbn [measureSharing]. rewrite B.
    destruct (Z.to_nat rep) as [|n] eqn:E; [lia|]. reflexivity.
  - intros Hr. generalize 0 as round. induction fuel as [|fuel IH]; intros round; cbn [measureSharing]; rewrite B; [reflexivity|].
    replace (Z.to_nat rep) with 0 by lia. cbn [seq foreach app]. specialize (IH (Datatypes.S round)).
    destruct (measureSharing fuel ar growcap rs (Datatypes.S round) [] m rep) as (ev & o). cbn [andThen snd] in *. exact IH.
  - intros Iv. generalize 0 as round. induction fuel as [|fuel IH]; intros round; cbn [measureEncryption]; rewrite B; [reflexivity|].
    replace (forallb (ivOk round) (seq 0 (Z.to_nat rep))) with true by (symmetry; apply forallb_forall; intros i _; apply Iv).
    cbn [app]. specialize (IH (Datatypes.S round)).
    destruct (measureEncryption fuel ivOk (Datatypes.S round) [] m rep) as (ev & o). cbn [andThen snd] in *. exact IH.
Qed.

Lemma enc_stops ivOk m rep : forall n ls msg round, msg <> [] -> doubling (N.of_nat (List.length msg)) (Z.to_N m) ls -> n < List.length ls ->
  (forall k i, k < n -> i < Z.to_nat rep -> ivOk (round + k) i = true) -> (exists i, i < Z.to_nat rep /\ ivOk (round + n) i = false) ->
  forall fuel, n < fuel -> measureEncryption fuel ivOk round msg m rep = (map Encryption (firstn n ls), Ret tt).
Proof.
  induction n as [|n IH]; intros ls msg round Hm D Hn Ok (j & Hj & Bad) [|fuel] Hf; try lia;
    (assert (L1 : 1 <= List.length msg) by (destruct msg; [congruence|cbn; lia]));
    (assert (Lm : (Z.of_nat (List.length msg) <= m)%Z)
      by (destruct D as (D1 & D2 & _); assert (I : In (N.of_nat (List.length msg)) ls);
          [rewrite D1; apply in_map_iff; exists 0; split; [change (N.of_nat 0) with 0%N; rewrite N.pow_0_r; lia|apply in_seq; lia]|apply D2 in I; lia]));
    cbn [measureEncryption]; (destruct (Z.leb_spec (Z.of_nat (List.length msg)) m); [|lia]).
  - replace (forallb (ivOk round) (seq 0 (Z.to_nat rep))) with false; [reflexivity|]. symmetry. apply not_true_is_false. intros T.
    rewrite forallb_forall in T. rewrite Nat.add_0_r in Bad. rewrite T in Bad; [discriminate|]. apply in_seq. lia.
  - replace (forallb (ivOk round) (seq 0 (Z.to_nat rep))) with true.
    2:{ symmetry. apply forallb_forall. intros i Hi. apply in_seq in Hi. rewrite <- (Nat.add_0_r round). apply Ok; lia. }
    destruct ls as [|x ls]; [cbn in Hn; lia|].
    assert (Ex : x = N.of_nat (List.length msg)).
    { destruct D as (D1 & _). apply (f_equal (hd 0%N)) in D1. cbn [List.length seq map hd] in D1. change (N.of_nat 0) with 0%N in D1. rewrite N.pow_0_r in D1. lia. }
    rewrite (IH ls (msg ++ msg) (Datatypes.S round)).
    + cbn [andThen firstn map app]. rewrite Ex. reflexivity.
    + destruct msg; [congruence|discriminate].
    + destruct D as (D1 & D2 & D3). rewrite app_length. split; [|split].
      * apply (f_equal (@tl N)) in D1. cbn [List.length seq map tl] in D1. rewrite D1 at 1. rewrite <- seq_shift, map_map. apply map_ext. intros k.
        replace (N.of_nat (Datatypes.S k)) with (N.succ (N.of_nat k)) by lia. rewrite N.pow_succ_r by lia. lia.
      * intros y Hy. apply D2. right. exact Hy.
      * cbn [List.length] in D3. replace (N.of_nat (Datatypes.S (List.length ls))) with (N.succ (N.of_nat (List.length ls))) in D3 by lia.
        rewrite N.pow_succ_r in D3 by lia. lia.
    + cbn in Hn. lia.
    + intros k i Hk Hi. replace (Datatypes.S round + k) with (round + Datatypes.S k) by lia. apply Ok; lia.
    + exists j. split; [exact Hj|]. replace (Datatypes.S round + n) with (round + Datatypes.S n) by lia. exact Bad.
    + lia.
Qed.

(** C61: when crypto/rand fails to deliver an IV, for the first time in round [n], the encryption measurement ends normally, with the lines of the
    rounds before. *)
Lemma C61_no_iv_pf : forall ivOk msg msgLenMax repetition ls n, msg <> [] -> doubling (N.of_nat (List.length msg)) (Z.to_N msgLenMax) ls ->
  n < List.length ls -> (forall round i, round < n -> i < Z.to_nat repetition -> ivOk round i = true) ->
  (exists i, i < Z.to_nat repetition /\ ivOk n i = false) ->
  forall fuel, n < fuel -> measureEncryption fuel ivOk 0 msg msgLenMax repetition = (map Encryption (firstn n ls), Ret tt).
Proof. intros ivOk msg m rep ls n Hm D Hn Ok Bad fuel Hf. apply (enc_stops ivOk m rep n ls msg 0); assumption. Qed.

(** C61: the program as it stands ends normally whatever the random choices, and prints the message twice, then one line for each of the lengths
    64, 128, ..., 32768 for sharing, then for encryption: there only for the first [n] lengths, if crypto/rand fails in the round after these. *)
Lemma C61_main_pf : forall ar growcap r rs ivOk n, grow_ok growcap -> rnd_ok r -> (forall round i, rnd_ok (rs round i)) ->
  (forall round i, round < n -> i < 1000 -> ivOk round i = true) -> (n = 10 \/ n < 10 /\ exists i, i < 1000 /\ ivOk n i = false) ->
  exists f0, forall fuel, f0 <= fuel ->
    mainRun fuel ar growcap r rs ivOk =
      ([Line mainMsg; Line mainMsg] ++
       map Sharing [64; 128; 256; 512; 1024; 2048; 4096; 8192; 16384; 32768]%N ++
       map Encryption (firstn n [64; 128; 256; 512; 1024; 2048; 4096; 8192; 16384; 32768]%N), Ret tt).
Proof.
  intros ar growcap r rs ivOk n G P Ps Iv End.
  assert (Hm : mainMsg <> []) by discriminate.
  assert (D0 : doubling (N.of_nat (List.length mainMsg)) (Z.to_N 32768) [64; 128; 256; 512; 1024; 2048; 4096; 8192; 16384; 32768]%N).
  { split; [reflexivity|]. split; [|reflexivity]. intros x Hx. cbn in Hx. cbn. lia. }
  destruct (C61_measurements_pf ar growcap rs (fun _ _ => true) mainMsg 32768 1000 G Ps (fun _ _ => eq_refl) Hm) as (ls & f0 & D & E).
  assert (ls = [64; 128; 256; 512; 1024; 2048; 4096; 8192; 16384; 32768]%N).
  { apply (doubling_unique (N.of_nat (List.length mainMsg)) (Z.to_N 32768)); [reflexivity|exact D|exact D0]. }
  subst ls. exists (f0 + 11). intros fuel Hf. unfold mainRun. rewrite (C61_check_pf ar growcap r mainMsg 4 2 G P) by (split; [exact Hm|lia]).
  destruct (E fuel ltac:(lia)) as (E1 & _). rewrite E1.
  assert (E2 : measureEncryption fuel ivOk 0 mainMsg 32768 1000 =
    (map Encryption (firstn n [64; 128; 256; 512; 1024; 2048; 4096; 8192; 16384; 32768]%N), Ret tt)).
  { destruct End as [->|(Hn & Bad)].
    - change (firstn 10 _) with [64; 128; 256; 512; 1024; 2048; 4096; 8192; 16384; 32768]%N.
      assert (Long : forall f k m rd, 2 ^ k * List.length mainMsg = List.length m -> k + f = 10 ->
        (forall j i, i < 1000 -> rd + j < 10 -> ivOk (rd + j) i = true) -> rd = k ->
        forall F, f < F -> measureEncryption F ivOk rd m 32768 1000 = measureEncryption F (fun _ _ => true) rd m 32768 1000).
      { intros f. induction f as [|f IH]; intros k m rd Lm Hk Ok Ek F HF; (destruct F as [|F]; [lia|]).
        - replace k with 10 in Lm by lia. change (2 ^ 10 * List.length mainMsg) with (N.to_nat 65536) in Lm. cbn [measureEncryption].
          destruct (Z.leb_spec (Z.of_nat (List.length m)) 32768); [lia|reflexivity].
        - cbn [measureEncryption]. destruct (Z.of_nat (List.length m) <=? 32768)%Z; [|reflexivity].
          replace (forallb (ivOk rd) (seq 0 (Z.to_nat 1000))) with true.
          2:{ symmetry. apply forallb_forall. intros i Hi. apply in_seq in Hi. change (Z.to_nat 1000) with 1000 in Hi.
              rewrite <- (Nat.add_0_r rd). apply Ok; lia. }
          replace (forallb (fun _ : nat => true) (seq 0 (Z.to_nat 1000))) with true by (symmetry; apply forallb_forall; reflexivity).
          rewrite (IH (Datatypes.S k) (m ++ m) (Datatypes.S rd)); [reflexivity| | | | |].
          + rewrite app_length, <- Lm. rewrite Nat.pow_succ_r'. lia.
          + lia.
          + intros j i Hi Hj. replace (Datatypes.S rd + j) with (rd + Datatypes.S j) by lia. apply Ok; lia.
          + lia.
          + lia. }
      rewrite (Long 10 0 mainMsg 0); [|reflexivity|reflexivity| |reflexivity|lia].
      + apply (E fuel). lia.
      + intros j i Hi Hj. apply Iv; cbn in Hj |- *; lia.
    - apply (C61_no_iv_pf ivOk mainMsg 32768 1000 _ n Hm D0); [exact Hn|exact Iv|exact Bad|lia]. }
  rewrite E2. reflexivity.
Qed.

(*COPY
Definition ex_rnd : rnd := {| r_perm := ex_perm; r_stream := ex_stream; r_pol := ex_stale; r_tr := ex_stale; r_ev := ex_ev |}.
Example C61_case : rnd_ok ex_rnd /\ valid_args ex_secret 4 2 /\ doubling 5 24 [5; 10; 20]%N /\
  checkSecretSharing ex_ar growcap117 ex_rnd ex_secret 4 2 = ([Line ex_secret; Line ex_secret], Ret tt) /\
  measureSharing 9 ex_ar growcap117 (fun _ _ => ex_rnd) 0 ex_secret 24 3 = ([Sharing 5; Sharing 10; Sharing 20], Ret tt).
Proof.
  split; [exact ex_perm_ok|]. split; [split; [discriminate|lia]|]. split; [|split; vm_compute; reflexivity].
  split; [reflexivity|]. split; [|reflexivity]. intros x Hx. cbn in Hx. lia.
Qed.
(** crypto/rand fails in the third round *)
Example C61_no_iv_case : measureEncryption 9 (fun round _ => round <? 2) 0 ex_secret 24 3 = ([Encryption 5; Encryption 10], Ret tt).
Proof. reflexivity. Qed.
END*)
