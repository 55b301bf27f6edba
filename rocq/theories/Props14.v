(** Proofs about the demonstration program main.go (C61).
    Generated from Pf14.v by tools/genprops.py: every theorem is proved there as the lemma of the same name with suffix _pf. *)
From Coq Require Import List NArith ZArith Lia Arith Bool Permutation String.
From Coq.Init Require Import Byte.
From Verif Require Import GoSem Bytes Spec Vector Pool Polynomial Shamir Main SpecMain ExData Pf14.
Import ListNotations.
Local Open Scope list_scope.

(** C61: the self-check prints the message twice (the second one recombined from all shares), for every message, all valid parameters and
    all random choices. *)
Theorem C61_check : forall ar growcap r msg part threshold, grow_ok growcap -> rnd_ok r -> valid_args msg part threshold ->
  checkSecretSharing ar growcap r msg part threshold = ([Line msg; Line msg], Ret tt).
Proof. exact C61_check_pf. Qed.
Print Assumptions C61_check.

(** C61: for a non-empty message both measurements end, and print one line for each of the lengths l, 2l, 4l, ... up to the limit. *)
Theorem C61_measurements : forall ar growcap rs ivOk msg msgLenMax repetition,
  grow_ok growcap -> (forall round i, rnd_ok (rs round i)) -> (forall round i, ivOk round i = true) -> msg <> [] ->
  exists ls f0, doubling (N.of_nat (List.length msg)) (Z.to_N msgLenMax) ls /\ forall fuel, f0 <= fuel ->
    measureSharing fuel ar growcap rs 0 msg msgLenMax repetition = (map Sharing ls, Ret tt) /\
    measureEncryption fuel ivOk 0 msg msgLenMax repetition = (map Encryption ls, Ret tt).
Proof. exact C61_measurements_pf. Qed.
Print Assumptions C61_measurements.

(** C61: started with an empty message the sharing measurement dies with Split's error, or, if no repetition is asked for, never ends. *)
Theorem C61_empty : forall ar growcap rs ivOk msgLenMax repetition fuel, (0 <= msgLenMax)%Z ->
  ((0 < repetition)%Z -> 0 < fuel -> measureSharing fuel ar growcap rs 0 [] msgLenMax repetition = ([], Fail EEmptySecret)) /\
  ((repetition <= 0)%Z -> snd (measureSharing fuel ar growcap rs 0 [] msgLenMax repetition) = Diverge) /\
  ((forall round i, ivOk round i = true) -> snd (measureEncryption fuel ivOk 0 [] msgLenMax repetition) = Diverge).
Proof. exact C61_empty_pf. Qed.
Print Assumptions C61_empty.

(** C61: when crypto/rand fails to deliver an IV, for the first time in round [n], the encryption measurement ends normally, with the lines of the
    rounds before. *)
Theorem C61_no_iv : forall ivOk msg msgLenMax repetition ls n, msg <> [] -> doubling (N.of_nat (List.length msg)) (Z.to_N msgLenMax) ls ->
  n < List.length ls -> (forall round i, round < n -> i < Z.to_nat repetition -> ivOk round i = true) ->
  (exists i, i < Z.to_nat repetition /\ ivOk n i = false) ->
  forall fuel, n < fuel -> measureEncryption fuel ivOk 0 msg msgLenMax repetition = (map Encryption (firstn n ls), Ret tt).
Proof. exact C61_no_iv_pf. Qed.
Print Assumptions C61_no_iv.

(** C61: the program as it stands ends normally whatever the random choices, and prints the message twice, then one line for each of the lengths
    64, 128, ..., 32768 for sharing, then for encryption: there only for the first [n] lengths, if crypto/rand fails in the round after these. *)
Theorem C61_main : forall ar growcap r rs ivOk n, grow_ok growcap -> rnd_ok r -> (forall round i, rnd_ok (rs round i)) ->
  (forall round i, round < n -> i < 1000 -> ivOk round i = true) -> (n = 10 \/ n < 10 /\ exists i, i < 1000 /\ ivOk n i = false) ->
  exists f0, forall fuel, f0 <= fuel ->
    mainRun fuel ar growcap r rs ivOk =
      ([Line mainMsg; Line mainMsg] ++
       map Sharing [64; 128; 256; 512; 1024; 2048; 4096; 8192; 16384; 32768]%N ++
       map Encryption (firstn n [64; 128; 256; 512; 1024; 2048; 4096; 8192; 16384; 32768]%N), Ret tt).
Proof. exact C61_main_pf. Qed.
Print Assumptions C61_main.

Definition ex_rnd : rnd := {| r_perm := ex_perm; r_stream := ex_stream; r_pol := ex_stale; r_tr := ex_stale; r_ev := ex_ev |}.
Example C61_case : rnd_ok ex_rnd /\ valid_args ex_secret 4 2 /\ doubling 5 24 [5; 10; 20]%N /\
  checkSecretSharing ex_ar growcap117 ex_rnd ex_secret 4 2 = ([Line ex_secret; Line ex_secret], Ret tt) /\
  measureSharing 9 ex_ar growcap117 (fun _ _ => ex_rnd) 0 ex_secret 24 3 = ([Sharing 5; Sharing 10; Sharing 20], Ret tt).
Proof.
  split; [exact ex_perm_ok|]. split; [split; [discriminate|lia]|]. split; [|split; vm_compute; reflexivity].
  split; [reflexivity|]. split; [|reflexivity]. intros x Hx. cbn in Hx. lia.
Qed.
(** crypto/rand fails in the third round *)
Example C61_no_iv_case : measureEncryption 9 (fun round _ => round <? 2) 0 ex_secret 24 3 = ([Encryption 5; Encryption 10], Ret tt).
Proof. reflexivity. Qed.
