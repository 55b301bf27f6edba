(** Proofs about detecting and correcting wrong shares with nothing but krawczyk.Combine (C94).
    Generated from Pf49.v by tools/genprops.py: every theorem is proved there as the lemma of the same name with suffix _pf. *)
From Coq Require Import List NArith ZArith Lia Arith Bool Permutation.
From Coq.Init Require Import Byte.
From Verif Require Import GoSem Bytes Spec SpecKr SpecDetect Vector Csprng Pool Shamir Libs AES Krawczyk ExData Pf12 Pf49.
Import ListNotations.

(** C94: correcting wrong shares. Of the shares numbered [is] at most [e] arrive wrong, in whatever way (also with other lengths or indices). If [threshold]+[e] or more
    of those received agree with each other, in that krawczyk.Combine returns the same [s'] for any [threshold] of them, then [s'] is the secret; and if at
    least [threshold]+2[e] were received, there are such shares. *)
Theorem C94_correct_split : forall E zp rd ar growcap krand perm stream polB trB evBufs secret parts threshold shares is received e,
  (forall i, 0 < rd i) -> grow_ok growcap -> Permutation perm (seq 0 255) ->
  krSplit E zp ar growcap krand perm stream polB trB evBufs secret parts threshold = Ret shares ->
  NoDup is -> (forall i, In i is -> i < Z.to_nat parts) ->
  let t := Z.to_nat threshold in
  let combine := fun ps => krCombine E zp rd (map Some ps) parts threshold in
  length received = length is -> wrong received (pick [] shares is) <= e ->
  (forall js s', NoDup js -> (forall j, In j js -> j < length is) -> t + e <= length js -> consistent combine received t js s' -> s' = secret) /\
  (t + 2 * e <= length is ->
   exists js, NoDup js /\ (forall j, In j js -> j < length is) /\ t + e <= length js /\ consistent combine received t js secret).
Proof. exact C94_correct_split_pf. Qed.
Print Assumptions C94_correct_split.

Theorem C94_correct_randomizer : forall fuel E zp rd ar growcap ks polB trB evBufs secret parts threshold shares is received e,
  (forall i, 0 < rd i) -> grow_ok growcap ->
  krSplitWithRandomizer fuel E zp ar growcap ks polB trB evBufs secret parts threshold = Ret shares ->
  NoDup is -> (forall i, In i is -> i < Z.to_nat parts) ->
  let t := Z.to_nat threshold in
  let combine := fun ps => krCombine E zp rd (map Some ps) parts threshold in
  length received = length is -> wrong received (pick [] shares is) <= e ->
  (forall js s', NoDup js -> (forall j, In j js -> j < length is) -> t + e <= length js -> consistent combine received t js s' -> s' = secret) /\
  (t + 2 * e <= length is ->
   exists js, NoDup js /\ (forall j, In j js -> j < length is) /\ t + e <= length js /\ consistent combine received t js secret).
Proof. exact C94_correct_randomizer_pf. Qed.
Print Assumptions C94_correct_randomizer.

(** C94: [threshold]+1 shares, one of them with an altered piece. Leave out one. If that is the altered one, krawczyk.Combine returns the secret; if not, a wrong string, provided the
    alteration is at a position that is not padding in the last piece of the secret. So the results agree only if nothing was altered there. *)
Theorem C94_leave_out_split : forall E zp rd ar growcap krand perm stream polB trB evBufs secret parts threshold shares is i0 delta k a ss,
  (forall i, 0 < rd i) -> grow_ok growcap -> Permutation perm (seq 0 255) ->
  krSplit E zp ar growcap krand perm stream polB trB evBufs secret parts threshold = Ret shares ->
  let t := Z.to_nat threshold in let len := ceil_div (length secret) t in
  NoDup is -> (forall i, In i is -> i < Z.to_nat parts) -> length is = t + 1 -> In i0 is ->
  length delta = len -> nth k delta x00 <> x00 -> (t - 1) * len + k < length secret ->
  a < length is ->
  somes ss = map (fun i => if i =? i0 then xor_piece (nth i shares []) delta else nth i shares []) (without a is) ->
  exists out, krCombine E zp rd ss parts threshold = Ret out /\ length out = length secret /\ (out = secret <-> nth a is 0 = i0).
Proof. exact C94_leave_out_split_pf. Qed.
Print Assumptions C94_leave_out_split.

Theorem C94_leave_out_randomizer : forall fuel E zp rd ar growcap ks polB trB evBufs secret parts threshold shares is i0 delta k a ss,
  (forall i, 0 < rd i) -> grow_ok growcap ->
  krSplitWithRandomizer fuel E zp ar growcap ks polB trB evBufs secret parts threshold = Ret shares ->
  let t := Z.to_nat threshold in let len := ceil_div (length secret) t in
  NoDup is -> (forall i, In i is -> i < Z.to_nat parts) -> length is = t + 1 -> In i0 is ->
  length delta = len -> nth k delta x00 <> x00 -> (t - 1) * len + k < length secret ->
  a < length is ->
  somes ss = map (fun i => if i =? i0 then xor_piece (nth i shares []) delta else nth i shares []) (without a is) ->
  exists out, krCombine E zp rd ss parts threshold = Ret out /\ length out = length secret /\ (out = secret <-> nth a is 0 = i0).
Proof. exact C94_leave_out_randomizer_pf. Qed.
Print Assumptions C94_leave_out_randomizer.

(** Two of four shares of "hello"; the piece of share 2 arrives altered at its second byte. With e = 1 four shares, threshold+2e, are there: any two of the three right ones
    give the secret. Of the shares 0, 2 and 3, threshold+1, only leaving out number 2 gives it. *)
Example C94_run :
  match krSplit AES true ex_ar growcap117 (fun i => i2b (5 * i + 9)) ex_perm ex_stream ex_stale ex_stale ex_ev ex_secret 4 2 with
  | Ret sh =>
      let received := replace sh 2 (xor_piece (nth 2 sh []) [x00; x01; x00]) in
      wrong received (pick [] sh [0; 1; 2; 3]) = 1 /\ length [0; 2; 3] = Z.to_nat 2 + 1 /\ (2 - 1) * ceil_div 5 2 + 1 < 5 /\
      map (fun ks => krCombine AES true (fun _ => 512) (map Some (pick [] received ks)) 4 2) [[1; 0]; [0; 3]; [1; 3]] = repeat (Ret ex_secret) 3 /\
      map (fun ks => match krCombine AES true (fun _ => 512) (map Some (pick [] received ks)) 4 2 with
                     | Ret out => if list_eq_dec byte_eq_dec out ex_secret then 1 else 0 | _ => 2 end) [[2; 3]; [0; 3]; [0; 2]] = [0; 1; 0]
  | _ => False end.
Proof. vm_compute. repeat split; repeat constructor. Qed.
