(** Proofs about altered pieces and krawczyk.Combine when data pieces are missing (C92).
    Generated from Pf47.v by tools/genprops.py: every theorem is proved there as the lemma of the same name with suffix _pf. *)
From Coq Require Import List NArith ZArith Lia Arith Bool Permutation.
From Coq.Init Require Import Byte.
From Verif Require Import GoSem Bytes Spec SpecKr Vector Csprng Pool Shamir Libs AES Krawczyk ExData Pf12 Pf47.
Import ListNotations.

(** C92: pieces XORed with anything, any threshold or more of the shares given. krawczyk.Combine reports no error; it returns the secret XORed with what the
    Reed-Solomon code makes of the differences: [e] are the first threshold pieces of the code word that the differences belong to (rs_completion). *)
Theorem C92_split : forall E zp rd ar growcap krand perm stream polB trB evBufs secret parts threshold shares ss is (d : nat -> list byte),
  (forall i, 0 < rd i) -> grow_ok growcap -> Permutation perm (seq 0 255) ->
  krSplit E zp ar growcap krand perm stream polB trB evBufs secret parts threshold = Ret shares ->
  let n := Z.to_nat parts in let t := Z.to_nat threshold in let len := ceil_div (length secret) t in
  NoDup is -> (forall i, In i is -> i < n) -> t <= length is ->
  (forall i, In i is -> length (d i) = len) ->
  somes ss = map (fun i => xor_piece (nth i shares []) (d i)) is ->
  exists e, rs_completion t len (map (fun i => if in_dec Nat.eq_dec i is then d i else []) (seq 0 n)) e /\
    krCombine E zp rd ss parts threshold = Ret (xor_bytes secret (firstn (length secret) (concat e))).
Proof. exact C92_split_pf. Qed.
Print Assumptions C92_split.

Theorem C92_randomizer : forall fuel E zp rd ar growcap ks polB trB evBufs secret parts threshold shares ss is (d : nat -> list byte),
  (forall i, 0 < rd i) -> grow_ok growcap ->
  krSplitWithRandomizer fuel E zp ar growcap ks polB trB evBufs secret parts threshold = Ret shares ->
  let n := Z.to_nat parts in let t := Z.to_nat threshold in let len := ceil_div (length secret) t in
  NoDup is -> (forall i, In i is -> i < n) -> t <= length is ->
  (forall i, In i is -> length (d i) = len) ->
  somes ss = map (fun i => xor_piece (nth i shares []) (d i)) is ->
  exists e, rs_completion t len (map (fun i => if in_dec Nat.eq_dec i is then d i else []) (seq 0 n)) e /\
    krCombine E zp rd ss parts threshold = Ret (xor_bytes secret (firstn (length secret) (concat e))).
Proof. exact C92_randomizer_pf. Qed.
Print Assumptions C92_randomizer.

(** C92: one altered piece. The shares numbered [is] are given, threshold or more of them; the piece of number [i0] is XORed with [delta], the other shares
    are genuine. The secret is cut into threshold pieces of [len] bytes. A byte of the result is wrong exactly if [delta] is nonzero at its position in its piece,
    and either that piece is number [i0] itself, or it is one whose share was not given while fewer than threshold of the given shares have
    a number below [i0]. *)
Theorem C92_one_split : forall E zp rd ar growcap krand perm stream polB trB evBufs secret parts threshold shares ss is i0 delta,
  (forall i, 0 < rd i) -> grow_ok growcap -> Permutation perm (seq 0 255) ->
  krSplit E zp ar growcap krand perm stream polB trB evBufs secret parts threshold = Ret shares ->
  let t := Z.to_nat threshold in let len := ceil_div (length secret) t in
  NoDup is -> (forall i, In i is -> i < Z.to_nat parts) -> t <= length is -> In i0 is -> length delta = len ->
  somes ss = map (fun i => if i =? i0 then xor_piece (nth i shares []) delta else nth i shares []) is ->
  exists out, krCombine E zp rd ss parts threshold = Ret out /\ length out = length secret /\
    forall p, p < length secret ->
      (nth p out x00 <> nth p secret x00 <->
       nth (p mod len) delta x00 <> x00 /\
       (p / len = i0 \/ (~ In (p / len) is /\ count (fun j => j <? i0) is < t))).
Proof. exact C92_one_split_pf. Qed.
Print Assumptions C92_one_split.

Theorem C92_one_randomizer : forall fuel E zp rd ar growcap ks polB trB evBufs secret parts threshold shares ss is i0 delta,
  (forall i, 0 < rd i) -> grow_ok growcap ->
  krSplitWithRandomizer fuel E zp ar growcap ks polB trB evBufs secret parts threshold = Ret shares ->
  let t := Z.to_nat threshold in let len := ceil_div (length secret) t in
  NoDup is -> (forall i, In i is -> i < Z.to_nat parts) -> t <= length is -> In i0 is -> length delta = len ->
  somes ss = map (fun i => if i =? i0 then xor_piece (nth i shares []) delta else nth i shares []) is ->
  exists out, krCombine E zp rd ss parts threshold = Ret out /\ length out = length secret /\
    forall p, p < length secret ->
      (nth p out x00 <> nth p secret x00 <->
       nth (p mod len) delta x00 <> x00 /\
       (p / len = i0 \/ (~ In (p / len) is /\ count (fun j => j <? i0) is < t))).
Proof. exact C92_one_randomizer_pf. Qed.
Print Assumptions C92_one_randomizer.

(** Three of five shares, pieces 0 and 2 of the secret missing, the first byte of piece 3 altered: bytes 0 and 4 of the secret (the first of pieces 0 and 2) are wrong;
    byte 2 (piece 1) is right. With piece 4 altered and pieces 0 to 2 given nothing is wrong. *)
Example C92_run :
  match krSplit AES true ex_ar growcap117 (fun i => i2b (5 * i + 9)) ex_perm ex_stream ex_stale ex_stale ex_ev ex_secret 5 3 with
  | Ret sh =>
      (match krCombine AES true (fun _ => 512) (map (fun i => Some (if i =? 3 then xor_piece (nth i sh []) [x01; x00] else nth i sh [])) [1; 3; 4]) 5 3 with
       | Ret out => filter (fun p => negb (Byte.eqb (nth p out x00) (nth p ex_secret x00))) (seq 0 5) = [0; 4] | _ => False end) /\
      krCombine AES true (fun _ => 512) (map (fun i => Some (if i =? 4 then xor_piece (nth i sh []) [x01; x00] else nth i sh [])) [0; 1; 2; 4]) 5 3 = Ret ex_secret
  | _ => False end.
Proof. vm_compute. split; reflexivity. Qed.
