(** Proofs about what fewer than [threshold] krawczyk shares give away (C69).
    Generated from Pf22.v by tools/genprops.py: every theorem is proved there as the lemma of the same name with suffix _pf. *)
From Coq Require Import List NArith ZArith Lia Arith Bool Permutation.
From Coq.Init Require Import Byte.
From Verif Require Import GoSem Bytes Spec SpecKr Vector Csprng Pool Polynomial Shamir Libs AES Krawczyk ExData Pf22.
Import ListNotations.

(** C69. Fewer than [threshold] krawczyk shares of a secret say nothing beyond its ciphertext: there is a simulator that knows the public
    parameters only and, given the ciphertext (not the key, not the secret) and random bytes, produces what the holders of the shares see, and
    whatever they conclude from that they conclude for equally many random strings. *)
Theorem C69_simulator : forall E zp ar growcap perm polB trB evBufs parts threshold is,
  grow_ok growcap -> Permutation perm (seq 0 255) -> coalition (Z.to_nat parts) (Z.to_nat threshold) is ->
  exists simulator : list byte -> list byte -> list (list byte),
    forall krand secret ciphertext (conclude : list (list byte) -> bool),
    kr_valid_args zp secret parts threshold -> ofb_cipher E (map krand (seq 0 16)) secret ciphertext ->
    let strings := all_strings (Z.to_nat threshold * 20) in
    count (fun r => match krSplit E zp ar growcap krand perm (stream_of r) polB trB evBufs secret parts threshold with
                    | Ret shares => conclude (pick [] shares is)
                    | _ => false
                    end) strings =
    count (fun r => conclude (simulator ciphertext r)) strings.
Proof. exact C69_simulator_pf. Qed.
Print Assumptions C69_simulator.

(** C69, as a reduction. The key is drawn at random. Whatever the holders of fewer than [threshold] shares do to learn something about the
    secret, some attack on the ciphertext alone does as well: for every secret it succeeds for exactly as many keys and random strings.
    So shares of two secrets can be told apart no better than their OFB encryptions under a random key. *)
Theorem C69_reduction : forall E zp ar growcap perm polB trB evBufs parts threshold is (conclude : list (list byte) -> bool),
  grow_ok growcap -> Permutation perm (seq 0 255) -> coalition (Z.to_nat parts) (Z.to_nat threshold) is ->
  exists attack : list byte -> list byte -> bool,
    forall secret enc, kr_valid_args zp secret parts threshold ->
    (forall key, In key (all_strings 16) -> ofb_cipher E key secret (enc key)) ->
    let strings := all_strings (Z.to_nat threshold * 20) in
    count (fun kr => match krSplit E zp ar growcap (stream_of (fst kr)) perm (stream_of (snd kr)) polB trB evBufs secret parts threshold with
                     | Ret shares => conclude (pick [] shares is)
                     | _ => false
                     end) (list_prod (all_strings 16) strings) =
    count (fun kr => attack (snd kr) (enc (fst kr))) (list_prod (all_strings 16) strings).
Proof. exact C69_reduction_pf. Qed.
Print Assumptions C69_reduction.

(** A concrete case: a secret of two bytes, its AES-OFB ciphertext, and shares 4 and 1 of a split with those parameters. *)
Example C69_case : coalition 5 3 [4; 1] /\ kr_valid_args true [x68; x69] 5 3 /\
  exists c sh, ofb_cipher AES (map (fun i => i2b (5 * i + 9)) (seq 0 16)) [x68; x69] c /\ c <> [x68; x69] /\
    krSplit AES true ex_ar growcap117 (fun i => i2b (5 * i + 9)) ex_perm (stream_of (map i2b (seq 3 60))) ex_stale ex_stale ex_ev [x68; x69] 5 3 = Ret sh /\
    map (@length byte) (pick [] sh [4; 1]) = [23; 23].
Proof.
  split; [split; [repeat constructor; cbn; lia|split; [cbn; intros; lia|cbn; lia]]|]. split; [split; [discriminate|cbn; repeat split; try lia; auto]|].
  eexists _, _. split; [|split; [|split; [vm_compute; reflexivity|vm_compute; reflexivity]]].
  - instantiate (1 := ltac:(let v := eval vm_compute in (match encrypt AES [x68; x69] (map (fun i => i2b (5 * i + 9)) (seq 0 16)) with Ret c => c | _ => [] end) in exact v)).
    split; [reflexivity|]. intros [|[|i]] H; [vm_compute; reflexivity..|cbn [length] in H; lia].
  - discriminate.
Qed.
