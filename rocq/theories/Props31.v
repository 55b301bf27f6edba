(** Proofs about randomizer.Randomizer (C78).
    Generated from Pf31.v by tools/genprops.py: every theorem is proved there as the lemma of the same name with suffix _pf. *)
From Coq Require Import List NArith ZArith Lia Arith Bool.
From Coq.Init Require Import Byte.
From Verif Require Import GoSem Bytes Spec Csprng Libs AES Randomizer RandomizerNew Worker SpecRz ExData Pf31.
Import ListNotations.

(** C78: any history of Read and Perm calls on one Randomizer uses consecutive, hence disjoint, stretches of one key stream. Call number [k] uses the
    bytes start .. start + uses - 1: a Read XORs them into the buffer, a Perm depends on nothing else. *)
Theorem C78_history : forall r calls k c, nth_error calls k = Some c ->
  exists result, nth_error (rzHistory r calls) k = Some result /\
  (forall buff, c = CallRead buff -> exists out, result = Ret out /\ length out = length buff /\
     forall i, i < length buff -> nth i out x00 = gadd (nth i buff x00) (rz_ks r (start r calls k + i))) /\
  (forall n r', c = CallPerm n -> (forall i, i < b2i n -> rz_ks r' (rz_pos r' + i) = rz_ks r (start r calls k + i)) ->
     result = match rzPerm r' n with Ret (out, _) => Ret out | Fail e => Fail e | Panic p => Panic p | UB => UB | Diverge => Diverge end) /\
  (forall l, k < l -> l < length calls -> start r calls k + uses c <= start r calls l).
Proof. exact C78_history_pf. Qed.
Print Assumptions C78_history.

(** C78: NewRandomizer always succeeds. Seeded with the same 32 bytes, its first Read gives what every Read of a csprng.CSPRNG gives; and reading in pieces of
    any sizes gives the same bytes as reading at once. *)
Theorem C78_seed : forall E mr, exists r, NewRandomizer E mr = Ret r /\
  (forall buff, fst (rzRead r buff) = Read (NewCSPRNG E mr) buff) /\
  forall buffs, exists outs, rzHistory r (map CallRead buffs) = map Ret outs /\ map (@length byte) outs = map (@length byte) buffs /\
    concat outs = Read (NewCSPRNG E mr) (concat buffs).
Proof. exact C78_seed_pf. Qed.
Print Assumptions C78_seed.

(** C78: reading blocks of 16 zeroed bytes from a new Randomizer (with AES), one after the other, never gives the same block twice, for up to 2^128
    reads; whereas a CSPRNG gives the same block every time. *)
Theorem C78_blocks : forall mr r n, NewRandomizer AES mr = Ret r -> (N.of_nat n <= 2 ^ 128)%N ->
  NoDup (rzHistory r (map CallRead (repeat (repeat x00 16) n))) /\ length (rzHistory r (map CallRead (repeat (repeat x00 16) n))) = n.
Proof. exact C78_blocks_pf. Qed.
Print Assumptions C78_blocks.

(** a history: two reads, a permutation, a read *)
Example C78_run : match NewRandomizer (fun k b => b) (fun i => i2b (7 * i)) with
  | Ret r => rzHistory r [CallRead [x00; x00]; CallRead [xff]; CallPerm x03; CallRead [x00]] = [Ret [x70; x77]; Ret [x81]; Ret [x00; x00; x01]; Ret [x9a]]
  | _ => False end.
Proof. vm_compute. reflexivity. Qed.
(** three blocks of AES key stream, then what a CSPRNG gives twice *)
Example C78_run_aes : match NewRandomizer AES (fun i => i2b (7 * i)) with
  | Ret r => exists a b c, rzHistory r (map CallRead (repeat (repeat x00 16) 3)) = [Ret a; Ret b; Ret c] /\ a <> b /\ b <> c /\
      Read (NewCSPRNG AES (fun i => i2b (7 * i))) (repeat x00 16) = a
  | _ => False end.
Proof. vm_compute. eexists _, _, _. repeat split; discriminate. Qed.
