(** Proofs about when krawczyk.SplitWithRandomizer returns and what a zero tag gives away (C72).
    Generated from Pf25.v by tools/genprops.py: every theorem is proved there as the lemma of the same name with suffix _pf. *)
From Coq Require Import List NArith ZArith Lia Arith Bool Permutation.
From Coq.Init Require Import Byte.
From Verif Require Import GoSem Bytes Spec SpecKr Vector Csprng Pool Polynomial Shamir Libs AES Krawczyk ExData Pf25.
Import ListNotations.

(** C72: with 20 or more parts, krawczyk.SplitWithRandomizer panics exactly when the first key stream byte is 254, and returns otherwise. *)
Theorem C72_large : forall fuel E zp ar growcap ks polB trB evBufs secret parts threshold,
  grow_ok growcap -> kr_valid_args zp secret parts threshold -> (20 <= parts)%Z ->
  let call := krSplitWithRandomizer fuel E zp ar growcap ks polB trB evBufs secret parts threshold in
  (ks 0 = xfe -> call = Panic PIndex) /\
  (ks 0 <> xfe -> exists shares, call = Ret shares).
Proof. exact C72_large_pf. Qed.
Print Assumptions C72_large.

(** C72: with fewer than 20 parts it never panics: it returns exactly when [parts] bytes can be picked from the key stream by the
    rule [picks] (one extra read per byte is enough), and otherwise loops forever. *)
Theorem C72_small : forall E zp ar growcap ks polB trB evBufs secret parts threshold,
  grow_ok growcap -> kr_valid_args zp secret parts threshold -> (parts < 20)%Z ->
  let call fuel := krSplitWithRandomizer fuel E zp ar growcap ks polB trB evBufs secret parts threshold in
  let stuck := exists i out, i < Z.to_nat parts /\ picks ks i out /\ In (ks i) out /\ In (gadd (ks i) (ks 0)) out in
  ((exists shares, forall fuel, 1 <= fuel -> call fuel = Ret shares) <-> exists out, picks ks (Z.to_nat parts) out) /\
  ((forall fuel, call fuel = Diverge) <-> stuck) /\
  ((exists out, picks ks (Z.to_nat parts) out) \/ stuck) /\
  (forall fuel p, call fuel <> Panic p).
Proof. exact C72_small_pf. Qed.
Print Assumptions C72_small.

(** C72: with fewer than 20 parts, the metadata of share [i] carries tag 0 exactly when the byte picked at index [i] is 255; then that
    one share contains the AES key and the length of the secret in the clear, and its holder can decrypt every piece [j < threshold]
    of the ciphertext it gets hold of, its own to begin with. *)
Theorem C72_zero_tag : forall fuel E zp rd ar growcap ks polB trB evBufs secret parts threshold shares i,
  (forall k, 0 < rd k) -> grow_ok growcap -> (parts < 20)%Z ->
  krSplitWithRandomizer fuel E zp ar growcap ks polB trB evBufs secret parts threshold = Ret shares -> i < Z.to_nat parts ->
  let share := nth i shares [] in let t := Z.to_nat threshold in let len := ceil_div (length secret) t in
  (tag (kr_meta share) = x00 <-> exists out, picks ks (Z.to_nat parts) out /\ nth i out x00 = xff) /\
  (tag (kr_meta share) = x00 ->
     firstn 16 share = map ks (seq 0 16) /\ firstn 4 (skipn 16 share) = le32 (N.of_nat (length secret)) /\
     forall j, j < t -> exists plain,
       decrypt E rd (repeat x00 (j * len) ++ kr_piece (nth j shares [])) (firstn 16 share) = Ret plain /\
       forall k, k < len -> j * len + k < length secret -> nth (j * len + k) plain x00 = nth (j * len + k) secret x00).
Proof. exact C72_zero_tag_pf. Qed.
Print Assumptions C72_zero_tag.

(** C72: with 20 or more parts no metadata tag is 0. *)
Theorem C72_no_zero_tag_large : forall fuel E zp ar growcap ks polB trB evBufs secret parts threshold shares,
  grow_ok growcap -> (20 <= parts)%Z ->
  krSplitWithRandomizer fuel E zp ar growcap ks polB trB evBufs secret parts threshold = Ret shares ->
  ~ In x00 (map (fun s => tag (kr_meta s)) shares).
Proof. exact C72_no_zero_tag_large_pf. Qed.
Print Assumptions C72_no_zero_tag_large.

Definition ex_long : list byte := map (fun i => i2b (3 * i + 1)) (seq 0 41).
(** a key stream that starts with 255: share 0 alone holds the AES key and decrypts the first third of the secret; a key stream of
    equal bytes makes the call loop, one that starts with 254 makes it panic for 30 parts *)
Example C72_run :
  match krSplitWithRandomizer 3 AES true ex_ar growcap117 (fun i => i2b (255 + i)) ex_stale ex_stale ex_ev ex_long 5 3 with
  | Ret sh => tag (kr_meta (nth 0 sh [])) = x00 /\
              match decrypt AES (fun _ => 512) (kr_piece (nth 0 sh [])) (firstn 16 (nth 0 sh [])) with
              | Ret plain => plain = firstn 14 ex_long | _ => False end
  | _ => False
  end /\
  kr_valid_args true ex_long 5 3 /\ kr_valid_args true ex_long 30 3 /\
  krSplitWithRandomizer 50 AES true ex_ar growcap117 (fun _ => x17) ex_stale ex_stale ex_ev ex_long 5 3 = Diverge /\
  krSplitWithRandomizer 50 AES true ex_ar growcap117 (fun _ => xfe) ex_stale ex_stale ex_ev ex_long 30 3 = Panic PIndex.
Proof.
  split; [vm_compute; split; reflexivity|]. split; [split; [discriminate|cbn; repeat split; try lia; auto]|].
  split; [split; [discriminate|cbn; repeat split; try lia; auto]|]. split; vm_compute; reflexivity.
Qed.
