(** Proofs about the joint secrecy of many splits with shamir and krawczyk (C75).
    Generated from Pf28.v by tools/genprops.py: every theorem is proved there as the lemma of the same name with suffix _pf. *)
From Coq Require Import List NArith ZArith Lia Arith Bool Permutation.
From Coq.Init Require Import Byte.
From Verif Require Import GoSem Bytes Spec SpecKr Vector Pool Polynomial Shamir SplitP Libs AES Krawczyk SpecJoint SpecJointKr ExData Pf28.
Import ListNotations.

(** C75. An attacker asks for [n] splits in turn, with the shamir functions or with krawczyk.Split, each time choosing the parameters, two
    secrets of the same length and which shares to see (fewer than the threshold, unless the two secrets are equal) depending on everything
    seen before. All calls take their random bytes from one ideal source and find in the pools whatever is there. Whatever the attacker
    concludes, a breaker of the cipher, who only hands in pairs of secrets that the attacker might ask about and gets one of each pair encrypted
    under a fresh random key, concludes exactly as often, in both worlds. *)
Theorem C75_reduction : forall E enc zp ar growcap att conclude n B M,
  (forall key m, length key = 16 -> ofb_cipher E key m (enc key m)) ->
  grow_ok growcap -> (forall h, fair_request zp (att h)) -> (forall h, consumes (att h) <= B) -> n * B <= M ->
  exists a : breaker,
    (forall coins seen l r, hand_in a coins seen = Some (l, r) -> exists h q, att h = RKrawczyk q /\ q_left q = l /\ q_right q = r) /\
    forall left poolsFound,
    count (fun s => conclude (share_game left E zp ar growcap att (poolsFound s) n (stream_of s) [])) (all_strings (16 * n + M)) =
    count (fun kc => cipher_game left enc a n (fst kc) (snd kc) []) (list_prod (all_strings (16 * n)) (all_strings M)).
Proof. exact C75_reduction_pf. Qed.
Print Assumptions C75_reduction.

(** C75, consequence: the numbers of random strings for which the attacker concludes something in the two worlds differ by no more than
    [adv] if that is so for everyone who hands in the same pairs of secrets and sees ciphertexts only, whatever [adv] is. *)
Theorem C75_hiding : forall E enc zp ar growcap att conclude n B M poolsLeft poolsRight adv,
  (forall key m, length key = 16 -> ofb_cipher E key m (enc key m)) ->
  grow_ok growcap -> (forall h, fair_request zp (att h)) -> (forall h, consumes (att h) <= B) -> n * B <= M ->
  (forall a : breaker, (forall coins seen l r, hand_in a coins seen = Some (l, r) -> exists h q, att h = RKrawczyk q /\ q_left q = l /\ q_right q = r) ->
     let hits left := count (fun kc => cipher_game left enc a n (fst kc) (snd kc) []) (list_prod (all_strings (16 * n)) (all_strings M)) in
     (Z.abs (Z.of_nat (hits true) - Z.of_nat (hits false)) <= adv)%Z) ->
  (Z.abs (Z.of_nat (count (fun s => conclude (share_game true E zp ar growcap att (poolsLeft s) n (stream_of s) [])) (all_strings (16 * n + M))) -
          Z.of_nat (count (fun s => conclude (share_game false E zp ar growcap att (poolsRight s) n (stream_of s) [])) (all_strings (16 * n + M)))) <= adv)%Z.
Proof. exact C75_hiding_pf. Qed.
Print Assumptions C75_hiding.

(** An attacker that first asks krawczyk.Split for two of five shares of "hi" or of "ok" with threshold 3, then, depending on a byte of what it
    sees, for all krawczyk shares of "C" or for one shamir share of "hello" or "world"; what it sees in the two worlds for one random string. *)
Definition exk_att (h : history) : request :=
  match h with
  | [] => RKrawczyk {| q_api := ASplit; q_perm := ex_perm; q_left := [x68; x69]; q_right := [x6f; x6b]; q_parts := 5; q_threshold := 3; q_show := [4; 1] |}
  | Some ((x00 :: _) :: _) :: _ => RKrawczyk {| q_api := ASplit; q_perm := ex_perm; q_left := [x43]; q_right := [x43]; q_parts := 3; q_threshold := 2; q_show := [0; 1; 2] |}
  | _ => RShamir {| q_api := ASplit; q_perm := ex_perm; q_left := ex_secret; q_right := [x77; x6f; x72; x6c; x64]; q_parts := 5; q_threshold := 3; q_show := [4] |}
  end.
Example C75_case : (forall h, fair_request true (exk_att h)) /\ (forall h, consumes (exk_att h) <= 76) /\
  (let s := stream_of (repeat x07 184) in let b := fun _ => {| s_pol := []; s_tr := ex_stale; s_ev := ex_ev |} in
   match share_game true AES true ex_ar growcap117 exk_att b 2 s [], share_game false AES true ex_ar growcap117 exk_att b 2 s [] with
   | [Some a1; Some a2], [Some b1; Some b2] => a1 <> b1 /\ a2 <> b2 /\ map (@length byte) a2 = [23; 23]
   | _, _ => False
   end).
Proof.
  assert (A : forall h, exk_att h = exk_att [] \/ exk_att h = exk_att [Some [[x00]]] \/ exk_att h = exk_att [None]).
  { intros [|[[|[|b l] v]|] h]; auto. destruct b; auto. }
  assert (F : fair_request true (exk_att []) /\ fair_request true (exk_att [Some [[x00]]]) /\ fair_request true (exk_att [None])).
  { split; [|split]; (split; [apply Permutation_refl|]; split; [split; [discriminate|]; cbn; intuition lia|]; split; [reflexivity|]).
    - left. split; [repeat constructor; cbn; intuition lia|]. split; [|cbn; lia]. intros i [<-|[<-|[]]]; cbn; lia.
    - right. reflexivity.
    - split; [|exact I]. left. split; [repeat constructor; intros []|]. split; [|cbn; lia]. intros i [<-|[]]. cbn. lia. }
  split; [intros h; destruct (A h) as [E | [E | E]]; rewrite E; apply F|]. split; [intros h; destruct (A h) as [E | [E | E]]; rewrite E; vm_compute; lia|].
  vm_compute. split; [discriminate|]. split; [discriminate|reflexivity].
Qed.
