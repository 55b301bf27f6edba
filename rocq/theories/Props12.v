(** Theorems: the properties of krawczyk.Combine on shares from anywhere (C55-C57).
    Generated from Pf12.v by tools/genprops.py: every theorem is proved there as the lemma of the same name with suffix _pf. *)
From Coq Require Import List NArith ZArith Lia Arith Bool Permutation.
From Coq.Init Require Import Byte.
From Verif Require Import GoSem Bytes Spec SpecKr Vector Csprng Pool Shamir Libs AES Krawczyk ExData Pf12.
Import ListNotations.

(** C55: krawczyk.Combine on any list of shares (nil, too short, of any contents, with any spare capacity) and any parameters: exactly
    which value it returns, and exactly which error. When it panics is C36. *)
Theorem C55_contract : forall E zp rd ss parts threshold, (forall i, 0 < rd i) ->
  let call := krCombineCap E zp rd ss parts threshold in
  (forall out, call = Ret out <-> kr_combined E zp ss parts threshold out) /\
  (forall e, call = Fail e <-> kr_combine_error zp ss parts threshold e).
Proof. exact C55_contract_pf. Qed.
Print Assumptions C55_contract.

Definition ex_long : list byte := map (fun i => i2b (3 * i + 1)) (seq 0 41).

Example C55_cases : let s := fun i => repeat (i2b (i + 1)) 21 ++ [i2b i; i2b i] in
  krCombineCap AES true (fun _ => 512) [Some (s 0, []); None; Some (s 1, [])] 3 2 = Ret [] /\
  krCombineCap AES true (fun _ => 512) [Some (s 0, []); Some (s 0, [])] 3 2 = Fail EDuplicatePart /\
  krCombineCap AES true (fun _ => 512) [Some (s 0, []); Some (s 1 ++ [x01], [])] 3 2 = Fail ERSShardSize /\
  krCombineCap AES true (fun _ => 512) [Some (s 0, []); Some (s 1, [])] (-1) (-2) = Panic PMakeLen /\
  krCombineCap AES true (fun _ => 512) [Some (s 0, []); Some (s 1, [])] 3 3 = Fail ERSTooFewShards /\
  krCombineCap AES true (fun _ => 512) [Some (firstn 21 (s 0) ++ [x00], []); Some (firstn 21 (s 1) ++ [x01], [])] 3 2 = Fail ERSShardNoData /\
  krCombineCap AES true (fun _ => 512) [Some (repeat x01 20 ++ [x01; x41; x00], []); Some (repeat x01 20 ++ [x02; x42; x01], [])] 3 2 = Fail ERSShortData.
Proof. repeat split; vm_compute; reflexivity. Qed.

(** C56: the pieces are not authenticated. Whoever XORs a string into the pieces of the first [threshold] shares of krawczyk.Split XORs the
    same string into the secret, whatever is done to the pieces of the other shares: krawczyk.Combine reports no error. *)
Theorem C56_tamper_split : forall E zp rd ar growcap krand perm stream polB trB evBufs secret parts threshold shares ss is (d : nat -> list byte),
  (forall i, 0 < rd i) -> grow_ok growcap -> Permutation perm (seq 0 255) ->
  krSplit E zp ar growcap krand perm stream polB trB evBufs secret parts threshold = Ret shares ->
  let n := Z.to_nat parts in let t := Z.to_nat threshold in
  NoDup is -> (forall i, In i is -> i < n) -> (forall i, i < t -> In i is) ->
  (forall i, In i is -> length (d i) = ceil_div (length secret) t) ->
  somes ss = map (fun i => xor_piece (nth i shares []) (d i)) is ->
  krCombine E zp rd ss parts threshold = Ret (xor_bytes secret (firstn (length secret) (concat (map d (seq 0 t))))).
Proof. exact C56_tamper_split_pf. Qed.
Print Assumptions C56_tamper_split.

Theorem C56_tamper_randomizer : forall fuel E zp rd ar growcap ks polB trB evBufs secret parts threshold shares ss is (d : nat -> list byte),
  (forall i, 0 < rd i) -> grow_ok growcap ->
  krSplitWithRandomizer fuel E zp ar growcap ks polB trB evBufs secret parts threshold = Ret shares ->
  let n := Z.to_nat parts in let t := Z.to_nat threshold in
  NoDup is -> (forall i, In i is -> i < n) -> (forall i, i < t -> In i is) ->
  (forall i, In i is -> length (d i) = ceil_div (length secret) t) ->
  somes ss = map (fun i => xor_piece (nth i shares []) (d i)) is ->
  krCombine E zp rd ss parts threshold = Ret (xor_bytes secret (firstn (length secret) (concat (map d (seq 0 t))))).
Proof. exact C56_tamper_randomizer_pf. Qed.
Print Assumptions C56_tamper_randomizer.

Example C56_run : let delta := fun i => match i with 0 => x01 :: repeat x00 13 | 1 => repeat x00 13 ++ [x80] | _ => repeat xff 14 end in
  match krSplit AES true ex_ar growcap117 (fun i => i2b (5 * i + 9)) ex_perm ex_stream ex_stale ex_stale ex_ev ex_long 5 3 with
  | Ret sh => krCombine AES true (fun _ => 512) (None :: map (fun i => Some (xor_piece (nth i sh []) (delta i))) [2; 4; 0; 1]) 5 3 =
              Ret (xor_bytes ex_long (x01 :: repeat x00 26 ++ [x80] ++ repeat xff 13))
  | _ => False end.
Proof. vm_compute. reflexivity. Qed.

(** C57: one participant who knows the tags that take part in shamir.Combine (and nothing else) can XOR any chosen string into the
    recovered secret, undetected: a nonzero multiplier computed from the tags tells him what to XOR into his own share. *)
Theorem C57_targeted : forall tags i, NoDup tags -> ~ In x00 tags -> i < length tags ->
  exists m, m <> x00 /\ forall parts r delta, map tag parts = tags -> Combine parts = Ret r -> length delta = length r ->
    Combine (replace parts i (xor_bytes (data (nth i parts [])) (map (gmul m) delta) ++ [tag (nth i parts [])])) = Ret (xor_bytes r delta).
Proof. exact C57_targeted_pf. Qed.
Print Assumptions C57_targeted.

Example C57_case : let tags := [x03; x07; x01] in NoDup tags /\ ~ In x00 tags /\
  Combine [[x11; x22; x03]; [x33; x44; x07]; [x55; x66; x01]] = Ret [x25; x90] /\
  exists m, Combine [[x11; x22; x03]; xor_bytes [x33; x44] (map (gmul m) [x01; xff]) ++ [x07]; [x55; x66; x01]] = Ret (xor_bytes [x25; x90] [x01; xff]).
Proof.
  cbv zeta. split; [repeat constructor; cbn; intuition discriminate|]. split; [cbn; intuition discriminate|]. split; [vm_compute; reflexivity|].
  destruct (C57_targeted [x03; x07; x01] 1) as (m & _ & H); [repeat constructor; cbn; intuition discriminate|cbn; intuition discriminate|cbn; lia|].
  exists m. apply (H [[x11; x22; x03]; [x33; x44; x07]; [x55; x66; x01]]); vm_compute; reflexivity.
Qed.

(** C58: krawczyk.Combine need not be told the parameters of the split: any [parts] above the indices of the shares given, and any
    [threshold] from the real one up to the number of shares given, return the secret. *)
Theorem C58_split_params : forall E zp rd ar growcap krand perm stream polB trB evBufs secret parts threshold shares zp' parts' threshold' ss is,
  (forall i, 0 < rd i) -> grow_ok growcap -> Permutation perm (seq 0 255) ->
  krSplit E zp ar growcap krand perm stream polB trB evBufs secret parts threshold = Ret shares ->
  (threshold <= threshold' <= parts')%Z -> (parts' <= 255)%Z -> (zp' = true \/ threshold' < parts')%Z ->
  selection (Z.to_nat parts) (Z.to_nat threshold') is -> (forall i, In i is -> i < Z.to_nat parts') -> somes ss = pick [] shares is ->
  krCombine E zp' rd ss parts' threshold' = Ret secret.
Proof. exact C58_split_params_pf. Qed.
Print Assumptions C58_split_params.

Theorem C58_randomizer_params : forall fuel E zp rd ar growcap ks polB trB evBufs secret parts threshold shares zp' parts' threshold' ss is,
  (forall i, 0 < rd i) -> grow_ok growcap ->
  krSplitWithRandomizer fuel E zp ar growcap ks polB trB evBufs secret parts threshold = Ret shares ->
  (threshold <= threshold' <= parts')%Z -> (parts' <= 255)%Z -> (zp' = true \/ threshold' < parts')%Z ->
  selection (Z.to_nat parts) (Z.to_nat threshold') is -> (forall i, In i is -> i < Z.to_nat parts') -> somes ss = pick [] shares is ->
  krCombine E zp' rd ss parts' threshold' = Ret secret.
Proof. exact C58_randomizer_params_pf. Qed.
Print Assumptions C58_randomizer_params.

Example C58_run :
  match krSplit AES true ex_ar growcap117 (fun i => i2b (5 * i + 9)) ex_perm ex_stream ex_stale ex_stale ex_ev ex_long 5 2 with
  | Ret sh => krCombine AES true (fun _ => 512) [Some (nth 4 sh []); Some (nth 1 sh []); None; Some (nth 3 sh [])] 9 3 = Ret ex_long /\
              krCombine AES true (fun _ => 512) [Some (nth 4 sh []); Some (nth 1 sh []); None; Some (nth 3 sh [])] 9 1 = Fail ERSShortData
  | _ => False end.
Proof. vm_compute. split; reflexivity. Qed.
