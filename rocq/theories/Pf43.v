(** Proofs about Combine, Regenerate and SplitP on a machine with a [W]-bit int and bounded memory (C88). *)
From Coq Require Import List NArith ZArith Lia Arith Bool Permutation.
From Coq.Init Require Import Byte.
From Verif Require Import GoSem Bytes GoFacts Galois Vector Polynomial Shamir SplitP Spec SplitFacts CombineFacts RegenFacts
  SpecWidth SpecWidthMore IntWidth IntWidthFacts IntWidthMore IntWidthMoreFacts Pf1 Pf2 Pf3.
Import ListNotations.

(*PROPS
From Coq Require Import List NArith ZArith Lia Arith Bool Permutation.
From Coq.Init Require Import Byte.
From Verif Require Import GoSem Bytes Spec Vector Polynomial Shamir SplitP SpecWidth SpecWidthMore IntWidth IntWidthMore Props3 ExData Pf43.
Import ListNotations.
*)

(** C88, Combine: on parts that are in memory it does exactly what it does with unbounded integers and memory. *)
Lemma C88_combine_pf : forall W maxAlloc parts, (16 <= W)%Z -> in_memory W maxAlloc parts ->
  CombineW W maxAlloc parts = Combine parts.
Proof. intros W maxAlloc parts HW M. apply CombineW_eq; assumption. Qed.

(** C88, Regenerate: the same when the slice of the new shares fits; a negative or larger numNewShares panics on all parts that pass
    the length checks, even on those with duplicate tags, and changes nothing on the others. *)
Lemma C88_regenerate_pf : forall W maxAlloc fuel stream u parts num, (16 <= W)%Z -> in_memory W maxAlloc parts ->
  (num <= maxInt W)%Z ->
  let real := RegenerateW W maxAlloc fuel stream u parts num in
  ((0 <= num)%Z -> (header W * num <= maxAlloc)%Z -> real = Regenerate fuel stream u parts num) /\
  ((num < 0)%Z \/ (maxAlloc < header W * num)%Z ->
     (acceptable parts \/ Combine parts = Fail EDuplicatePart -> real = Panic PMakeLen) /\
     (forall e, e <> EDuplicatePart -> Combine parts = Fail e -> real = Fail e)).
Proof.
  intros W maxAlloc fuel stream u parts num HW M Hm real. split.
  { intros H0 H. apply RegenerateW_eq; try assumption. split; assumption. }
  intros H. split.
  - intros A. apply RegenerateW_panic; [|exact H]. apply checkParts_None.
    destruct A as [(A & B & C & _) | E]; [repeat split; assumption|].
    destruct (Combine_cases parts) as [(_ & X)|[(_ & _ & X)|[(_ & _ & _ & X)|[(O & _ & _)|(O & _ & _)]]]]; try (rewrite X in E; discriminate E); exact O.
  - intros e Hne E. apply RegenerateW_fail. unfold Combine in E. destruct (checkParts parts) as [e'|] eqn:Hc; [injection E as ->; reflexivity|].
    exfalso. apply checkParts_None in Hc as O.
    destruct (Combine_cases parts) as [(X & _)|[(_ & X & _)|[(_ & _ & (p & Hp & X) & _)|[(_ & _ & X)|(_ & _ & X)]]]].
    + destruct O. lia.
    + destruct O as (_ & O & _). lia.
    + destruct O as (_ & _ & O). apply X, O, Hp.
    + unfold Combine in X. rewrite Hc in X. rewrite X in E. injection E as <-. apply Hne. reflexivity.
    + unfold Combine in X. rewrite Hc in X. rewrite X in E. discriminate E.
Qed.

(** C88, Regenerate with more new shares than there are free tags: it never returns shares; it loops forever when the slice of
    the new shares can be allocated, and panics when it cannot. *)
Lemma C88_regenerate_many_pf : forall W maxAlloc fuel stream u parts num, (16 <= W)%Z -> in_memory W maxAlloc parts ->
  acceptable parts -> (num <= maxInt W)%Z -> (256 < Z.of_nat (length parts) + num)%Z ->
  RegenerateW W maxAlloc fuel stream u parts num =
    if (header W * num <=? maxAlloc)%Z then Diverge else Panic PMakeLen.
Proof.
  intros W maxAlloc fuel stream u parts num HW M A Hm Hn.
  destruct (C88_regenerate_pf W maxAlloc fuel stream u parts num HW M Hm) as (R1 & R2).
  destruct (Z.leb_spec (header W * num) maxAlloc) as [K|K]; cbv zeta in R1, R2.
  - destruct (Z_lt_ge_dec num 0) as [N|N].
    + exfalso.
      destruct A as (A1 & A2 & A3 & A4).
      assert (length parts <= 256); [|lia].
      rewrite <- (map_length tag). apply NoDup_bytes_256. exact A4.
    + rewrite R1 by lia. apply C16_hangs_pf; assumption.
  - apply R2; [right; exact K|left; exact A].
Qed.

(** C88, SplitP: on a machine with [W]-bit [int]s the outcomes are those of the unbounded model if a share fits into memory, and a
    panic before any goroutine is started if it does not (even when len(secret)+1 wraps around). *)
Lemma C88_splitp_pf : forall W maxAlloc perm stream secret parts threshold sched o, (16 <= W)%Z ->
  Permutation perm (seq 0 255) -> (Z.of_nat (length secret) <= maxInt W)%Z ->
  ((Z.of_nat (length secret + 1) <= room W maxAlloc)%Z ->
     SplitPW W maxAlloc perm stream secret parts threshold sched o <-> SplitP perm stream secret parts threshold sched o) /\
  ((room W maxAlloc < Z.of_nat (length secret + 1))%Z -> valid_args secret parts threshold ->
     SplitPW W maxAlloc perm stream secret parts threshold sched o <-> sched = [] /\ o = Panic PMakeLen) /\
  (~ valid_args secret parts threshold ->
     SplitPW W maxAlloc perm stream secret parts threshold sched o <-> SplitP perm stream secret parts threshold sched o).
Proof.
  intros W maxAlloc perm stream secret parts threshold sched o HW HP HN.
  split; [|split].
  - intros F. apply SplitPW_eq; assumption.
  - intros F V. apply SplitPW_no_room; try assumption. rewrite (Permutation_length HP), seq_length. lia.
  - intros V. assert (Hc : exists e, checkArgs secret parts threshold = Some e).
    { destruct (checkArgs secret parts threshold) as [e|] eqn:Hc; [exists e; reflexivity|]. exfalso. apply V.
      apply checkArgs_None in Hc. destruct Hc as ((H1 & H2) & H3 & H4). repeat split; assumption. }
    destruct Hc as (e & Hc). split; intros H; destruct H; try congruence.
    + apply SP_fail; assumption.
    + apply SPW_fail; assumption.
Qed.

(** C88: on a 32-bit machine SplitP's [uint32] counters are never too small: whenever the shares fit into memory, every schedule
    that ends returns shares of the whole secret. *)
Lemma C88_splitp_32_pf : forall maxAlloc perm stream secret parts threshold sched o,
  Permutation perm (seq 0 255) -> valid_args secret parts threshold ->
  (Z.of_nat (length secret + 1) <= room 32 maxAlloc)%Z ->
  SplitPW 32 maxAlloc perm stream secret parts threshold sched o ->
  exists shares, o = Ret shares /\ length shares = Z.to_nat parts /\
    forall is, selection (Z.to_nat parts) (Z.to_nat threshold) is -> Combine (pick [] shares is) = Ret secret.
Proof.
  intros maxAlloc perm stream secret parts threshold sched o HP V F H.
  assert (HL : (N.of_nat (length secret) <= 4294967296 - 1024)%N).
  { unfold room, maxInt in F. change (2 ^ (32 - 1) - 1)%Z with 2147483647%Z in F. lia. }
  apply SplitPW_eq in H; [|lia|exact F].
  destruct (C12_no_deadlock_pf perm stream secret parts threshold HP V HL) as (_ & _ & D).
  destruct (D _ _ H) as (shares & ->). exists shares. split; [reflexivity|].
  destruct (C12_any_schedule_pf perm stream secret parts threshold sched shares HP HL H) as (A & _ & _ & B).
  split; [exact A|exact B].
Qed.

(*COPY
(** A 64-bit machine with 2^47 bytes: the two parts of C16 are in memory; 255 new shares: Regenerate loops; 2^43 new shares (whose slice
    headers would take 24 * 2^43 bytes): it panics; with a duplicate part: a panic instead of the error. *)
Example C88_case : let M := (2 ^ 47)%Z in in_memory 64 M two_parts /\ acceptable two_parts /\
  RegenerateW 64 M 100 ex_stream ex_stream two_parts 255 = Diverge /\
  RegenerateW 64 M 5 ex_stream ex_stream two_parts 3 = Regenerate 5 ex_stream ex_stream two_parts 3 /\
  RegenerateW 64 M 5 ex_stream ex_stream two_parts (2 ^ 43) = Panic PMakeLen /\
  RegenerateW 64 M 5 ex_stream ex_stream [[x05; x01]; [x06; x01]] (2 ^ 43) = Panic PMakeLen /\
  RegenerateW 64 M 5 ex_stream ex_stream [[x05; x01]; [x06; x01]] 3 = Fail EDuplicatePart /\
  CombineW 64 M two_parts = Combine two_parts /\ (exists s, Combine two_parts = Ret s).
Proof.
  cbv zeta. split; [|split; [apply C16_cases|repeat split; try (vm_compute; reflexivity)]].
  - split; [split; vm_compute; discriminate|]. intros p [<-|[<-|[]]]; vm_compute; discriminate.
  - vm_compute. eexists. reflexivity.
Qed.

(** SplitP on 32 bits: a run that returns, and one without memory for a share. *)
Example C88_splitp_run : exists shares, SplitPW 32 1000 ex_perm ex_stream [x68; x69] 2 2 [0; 1; 0; 1; 1; 1; 1; 1; 1; 1; 1; 0] (Ret shares).
Proof. eexists. apply (IntWidthMoreFacts.SplitPW_eq 32 1000); [lia|vm_compute; discriminate|]. apply Pf2.C12_run_is_splitp_pf. vm_compute. reflexivity. Qed.
Example C88_splitp_panic : SplitPW 32 2 ex_perm ex_stream [x68; x69] 2 2 [] (Panic PMakeLen).
Proof. apply SPW_panic0; vm_compute; reflexivity. Qed.
END*)
