(** Proofs about krawczyk.Combine on shares with altered metadata (C93).
    Generated from Pf48.v by tools/genprops.py: every theorem is proved there as the lemma of the same name with suffix _pf. *)
From Coq Require Import List NArith ZArith Lia Arith Bool Permutation.
From Coq.Init Require Import Byte.
From Verif Require Import GoSem Bytes Spec SpecKr Vector Csprng Pool Shamir Libs AES Krawczyk ExData Pf12 Pf47 Pf48.
Import ListNotations.

(** C93: metadata replaced by anything of 21 bytes with distinct tags, pieces XORed with anything, indices intact; threshold or more shares. With [md] what
    shamir.Combine makes of the metadata given, [c] the ciphertext of the secret and [e] what the code makes of the differences of the pieces: krawczyk.Combine decrypts,
    under the first 16 bytes of [md], as many bytes of the padded ciphertext, XORed with [e], as the last four bytes of [md] say; it reports an error
    exactly if these are more than the pieces hold. *)
Theorem C93_split : forall E zp rd ar growcap krand perm stream polB trB evBufs secret parts threshold shares ss is (mt d : nat -> list byte),
  (forall i, 0 < rd i) -> grow_ok growcap -> Permutation perm (seq 0 255) ->
  krSplit E zp ar growcap krand perm stream polB trB evBufs secret parts threshold = Ret shares ->
  let n := Z.to_nat parts in let t := Z.to_nat threshold in let len := ceil_div (length secret) t in
  selection n t is -> (forall i, In i is -> length (d i) = len) ->
  (forall i, In i is -> length (mt i) = 21) -> NoDup (map (fun i => tag (mt i)) is) ->
  somes ss = map (fun i => mt i ++ xor_bytes (kr_piece (nth i shares [])) (d i) ++ [tag (nth i shares [])]) is ->
  exists md e c, Combine (map mt is) = Ret md /\ length md = 20 /\
    rs_completion t len (map (fun i => if in_dec Nat.eq_dec i is then d i else []) (seq 0 n)) e /\
    ofb_cipher E (map krand (seq 0 16)) secret c /\
    let size := N.to_nat (le32_value (skipn 16 md)) in
    (t * len < size -> krCombine E zp rd ss parts threshold = Fail ERSShortData) /\
    (size <= t * len -> exists out, krCombine E zp rd ss parts threshold = Ret out /\
       ofb_cipher E (firstn 16 md) (firstn size (xor_bytes (c ++ repeat x00 (t * len - length secret)) (concat e))) out).
Proof. exact C93_split_pf. Qed.
Print Assumptions C93_split.

Theorem C93_randomizer : forall fuel E zp rd ar growcap ks polB trB evBufs secret parts threshold shares ss is (mt d : nat -> list byte),
  (forall i, 0 < rd i) -> grow_ok growcap ->
  krSplitWithRandomizer fuel E zp ar growcap ks polB trB evBufs secret parts threshold = Ret shares ->
  let n := Z.to_nat parts in let t := Z.to_nat threshold in let len := ceil_div (length secret) t in
  selection n t is -> (forall i, In i is -> length (d i) = len) ->
  (forall i, In i is -> length (mt i) = 21) -> NoDup (map (fun i => tag (mt i)) is) ->
  somes ss = map (fun i => mt i ++ xor_bytes (kr_piece (nth i shares [])) (d i) ++ [tag (nth i shares [])]) is ->
  exists md e c, Combine (map mt is) = Ret md /\ length md = 20 /\
    rs_completion t len (map (fun i => if in_dec Nat.eq_dec i is then d i else []) (seq 0 n)) e /\
    ofb_cipher E (map ks (seq 0 16)) secret c /\
    let size := N.to_nat (le32_value (skipn 16 md)) in
    (t * len < size -> krCombine E zp rd ss parts threshold = Fail ERSShortData) /\
    (size <= t * len -> exists out, krCombine E zp rd ss parts threshold = Ret out /\
       ofb_cipher E (firstn 16 md) (firstn size (xor_bytes (c ++ repeat x00 (t * len - length secret)) (concat e))) out).
Proof. exact C93_randomizer_pf. Qed.
Print Assumptions C93_randomizer.

(** C93: who knows the tags that take part (the index of his own among them), and the length of the secret, can choose the length of the result: for a multiplier [m]
    computed from the tags, XORing his metadata with [m] times the XOR of the two lengths makes krawczyk.Combine return, without an error, a string of the length he chose whose
    first bytes are those of the secret: the secret cut short, or extended with bytes that were never in it. If the length is more than the pieces hold, it
    reports an error. *)
Theorem C93_resize : forall tags a, NoDup tags -> ~ In x00 tags -> a < length tags ->
  exists m, m <> x00 /\ forall E zp rd ar growcap krand perm stream polB trB evBufs secret parts threshold shares ss is size,
  (forall i, 0 < rd i) -> grow_ok growcap -> Permutation perm (seq 0 255) ->
  krSplit E zp ar growcap krand perm stream polB trB evBufs secret parts threshold = Ret shares ->
  selection (Z.to_nat parts) (Z.to_nat threshold) is ->
  map (fun i => tag (kr_meta (nth i shares []))) is = tags -> (Z.of_nat size <= 4294967295)%Z ->
  let room := Z.to_nat threshold * ceil_div (length secret) (Z.to_nat threshold) in
  let s := nth (nth a is 0) shares [] in
  let diff := repeat x00 16 ++ xor_bytes (le32 (N.of_nat (length secret))) (le32 (N.of_nat size)) in
  somes ss = replace (pick [] shares is) a (xor_bytes (firstn 20 s) (map (gmul m) diff) ++ skipn 20 s) ->
  (size <= room -> exists out, krCombine E zp rd ss parts threshold = Ret out /\ length out = size /\ firstn (length secret) out = firstn size secret) /\
  (room < size -> krCombine E zp rd ss parts threshold = Fail ERSShortData).
Proof. exact C93_resize_pf. Qed.
Print Assumptions C93_resize.

Theorem C93_resize_randomizer : forall tags a, NoDup tags -> ~ In x00 tags -> a < length tags ->
  exists m, m <> x00 /\ forall fuel E zp rd ar growcap ks polB trB evBufs secret parts threshold shares ss is size,
  (forall i, 0 < rd i) -> grow_ok growcap ->
  krSplitWithRandomizer fuel E zp ar growcap ks polB trB evBufs secret parts threshold = Ret shares ->
  selection (Z.to_nat parts) (Z.to_nat threshold) is ->
  map (fun i => tag (kr_meta (nth i shares []))) is = tags -> (Z.of_nat size <= 4294967295)%Z ->
  let room := Z.to_nat threshold * ceil_div (length secret) (Z.to_nat threshold) in
  let s := nth (nth a is 0) shares [] in
  let diff := repeat x00 16 ++ xor_bytes (le32 (N.of_nat (length secret))) (le32 (N.of_nat size)) in
  somes ss = replace (pick [] shares is) a (xor_bytes (firstn 20 s) (map (gmul m) diff) ++ skipn 20 s) ->
  (size <= room -> exists out, krCombine E zp rd ss parts threshold = Ret out /\ length out = size /\ firstn (length secret) out = firstn size secret) /\
  (room < size -> krCombine E zp rd ss parts threshold = Fail ERSShortData).
Proof. exact C93_resize_randomizer_pf. Qed.
Print Assumptions C93_resize_randomizer.

(** Three of five shares of "hello"; tags 2, 4 and 5 take part; the owner of the one with tag 4 cuts the secret to "he", extends it by a byte, or
    asks for more than the pieces hold. *)
Example C93_run :
  match krSplit AES true ex_ar growcap117 (fun i => i2b (5 * i + 9)) ex_perm ex_stream ex_stale ex_stale ex_ev ex_secret 5 3 with
  | Ret sh =>
      map (fun i => tag (kr_meta (nth i sh []))) [1; 3; 4] = [x02; x04; x05] /\
      map (fun size => let s := nth 3 sh [] in
         krCombine AES true (fun _ => 512) (map Some (replace (pick [] sh [1; 3; 4]) 1
           (xor_bytes (firstn 20 s) (map (gmul xf4) (repeat x00 16 ++ xor_bytes (le32 5) (le32 size))) ++ skipn 20 s))) 5 3) [2; 6; 7]%N =
      [Ret (firstn 2 ex_secret); Ret (ex_secret ++ [x2f]); Fail ERSShortData]
  | _ => False end.
Proof. vm_compute. split; reflexivity. Qed.
