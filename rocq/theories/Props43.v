(** Proofs about Combine, Regenerate and SplitP on a machine with a [W]-bit int and bounded memory (C88).
    Generated from Pf43.v by tools/genprops.py: every theorem is proved there as the lemma of the same name with suffix _pf. *)
From Coq Require Import List NArith ZArith Lia Arith Bool Permutation.
From Coq.Init Require Import Byte.
From Verif Require Import GoSem Bytes Spec Vector Polynomial Shamir SplitP SpecWidth SpecWidthMore IntWidth IntWidthMore Props3 ExData Pf43.
Import ListNotations.

(** C88, Combine: on parts that are in memory it does exactly what it does with unbounded integers and memory. *)
Theorem C88_combine : forall W maxAlloc parts, (16 <= W)%Z -> in_memory W maxAlloc parts ->
  CombineW W maxAlloc parts = Combine parts.
Proof. exact C88_combine_pf. Qed.
Print Assumptions C88_combine.

(** C88, Regenerate: the same when the slice of the new shares fits; a negative or larger numNewShares panics on all parts that pass
    the length checks, even on those with duplicate tags, and changes nothing on the others. *)
Theorem C88_regenerate : forall W maxAlloc fuel stream u parts num, (16 <= W)%Z -> in_memory W maxAlloc parts ->
  (num <= maxInt W)%Z ->
  let real := RegenerateW W maxAlloc fuel stream u parts num in
  ((0 <= num)%Z -> (header W * num <= maxAlloc)%Z -> real = Regenerate fuel stream u parts num) /\
  ((num < 0)%Z \/ (maxAlloc < header W * num)%Z ->
     (acceptable parts \/ Combine parts = Fail EDuplicatePart -> real = Panic PMakeLen) /\
     (forall e, e <> EDuplicatePart -> Combine parts = Fail e -> real = Fail e)).
Proof. exact C88_regenerate_pf. Qed.
Print Assumptions C88_regenerate.

(** C88, Regenerate with more new shares than there are free tags: it never returns shares; it loops forever when the slice of
    the new shares can be allocated, and panics when it cannot. *)
Theorem C88_regenerate_many : forall W maxAlloc fuel stream u parts num, (16 <= W)%Z -> in_memory W maxAlloc parts ->
  acceptable parts -> (num <= maxInt W)%Z -> (256 < Z.of_nat (length parts) + num)%Z ->
  RegenerateW W maxAlloc fuel stream u parts num =
    if (header W * num <=? maxAlloc)%Z then Diverge else Panic PMakeLen.
Proof. exact C88_regenerate_many_pf. Qed.
Print Assumptions C88_regenerate_many.

(** C88, SplitP: on a machine with [W]-bit [int]s the outcomes are those of the unbounded model if a share fits into memory, and a
    panic before any goroutine is started if it does not (even when len(secret)+1 wraps around). *)
Theorem C88_splitp : forall W maxAlloc perm stream secret parts threshold sched o, (16 <= W)%Z ->
  Permutation perm (seq 0 255) -> (Z.of_nat (length secret) <= maxInt W)%Z ->
  ((Z.of_nat (length secret + 1) <= room W maxAlloc)%Z ->
     SplitPW W maxAlloc perm stream secret parts threshold sched o <-> SplitP perm stream secret parts threshold sched o) /\
  ((room W maxAlloc < Z.of_nat (length secret + 1))%Z -> valid_args secret parts threshold ->
     SplitPW W maxAlloc perm stream secret parts threshold sched o <-> sched = [] /\ o = Panic PMakeLen) /\
  (~ valid_args secret parts threshold ->
     SplitPW W maxAlloc perm stream secret parts threshold sched o <-> SplitP perm stream secret parts threshold sched o).
Proof. exact C88_splitp_pf. Qed.
Print Assumptions C88_splitp.

(** C88: on a 32-bit machine SplitP's [uint32] counters are never too small: whenever the shares fit into memory, every schedule
    that ends returns shares of the whole secret. *)
Theorem C88_splitp_32 : forall maxAlloc perm stream secret parts threshold sched o,
  Permutation perm (seq 0 255) -> valid_args secret parts threshold ->
  (Z.of_nat (length secret + 1) <= room 32 maxAlloc)%Z ->
  SplitPW 32 maxAlloc perm stream secret parts threshold sched o ->
  exists shares, o = Ret shares /\ length shares = Z.to_nat parts /\
    forall is, selection (Z.to_nat parts) (Z.to_nat threshold) is -> Combine (pick [] shares is) = Ret secret.
Proof. exact C88_splitp_32_pf. Qed.
Print Assumptions C88_splitp_32.

(** A 64-bit machine with 2^47 bytes: the two parts of C16 are in memory; 255 new shares: Regenerate loops; 2^43 new shares (whose slice
    headers would take 24 * 2^43 bytes): it panics; with a duplicate part: a panic instead of the error. *)
Example C88_case : let M := (2 ^ 47)%Z in in_memory 64 M two_parts /\ acceptable two_parts /\
  RegenerateW 64 M 100 ex_stream ex_stream two_parts 255 = Diverge /\
  RegenerateW 64 M 5 ex_stream ex_stream two_parts 3 = Regenerate 5 ex_stream ex_stream two_parts 3 /\
  RegenerateW 64 M 5 ex_stream ex_stream two_parts (2 ^ 43) = Panic PMakeLen /\
  RegenerateW 64 M 5 ex_stream ex_stream [[x05; x01]; [x06; x01]] (2 ^ 43) = Panic PMakeLen /\
  RegenerateW 64 M 5 ex_stream ex_stream [[x05; x01]; [x06; x01]] 3 = Fail EDuplicatePart /\
  CombineW 64 M two_parts = Combine two_parts /\ (exists s, Combine two_parts = Ret s).
Proof.
  cbv zeta. split; [|split; [apply C16_cases|repeat split; try (vm_compute; reflexivity)]].
  - split; [split; vm_compute; discriminate|]. intros p [<-|[<-|[]]]; vm_compute; discriminate.
  - vm_compute. eexists. reflexivity.
Qed.

(** SplitP on 32 bits: a run that returns, and one without memory for a share. *)
Example C88_splitp_run : exists shares, SplitPW 32 1000 ex_perm ex_stream [x68; x69] 2 2 [0; 1; 0; 1; 1; 1; 1; 1; 1; 1; 1; 0] (Ret shares).
Proof. eexists. apply (IntWidthMoreFacts.SplitPW_eq 32 1000); [lia|vm_compute; discriminate|]. apply Pf2.C12_run_is_splitp_pf. vm_compute. reflexivity. Qed.
Example C88_splitp_panic : SplitPW 32 2 ex_perm ex_stream [x68; x69] 2 2 [] (Panic PMakeLen).
Proof. apply SPW_panic0; vm_compute; reflexivity. Qed.
