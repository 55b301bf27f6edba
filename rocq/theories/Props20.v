(** Proofs about the joint secrecy of many splits (C67).
    Generated from Pf20.v by tools/genprops.py: every theorem is proved there as the lemma of the same name with suffix _pf. *)
From Coq Require Import List NArith ZArith Lia Arith Bool Permutation.
From Coq.Init Require Import Byte.
From Verif Require Import GoSem Bytes Spec Vector Pool Polynomial Shamir SplitP SpecJoint ExData Pf20.
Import ListNotations.

(** C67. An attacker asks for [n] splits in turn, each time choosing the function, the parameters, two secrets of the same length and which
    shares to see (fewer than the threshold, unless the two secrets are equal) depending on everything seen before. All calls take their random
    bytes from one ideal source of [M] bytes, enough for all of them, and find in the pools whatever is there (which may depend on the random
    bytes and on which secrets are split). Then whatever the attacker concludes from what it has seen, it concludes for equally many random
    strings when the left secrets are split and when the right ones are. *)
Theorem C67_many_splits : forall ar growcap att poolsLeft poolsRight conclude n B M,
  grow_ok growcap -> (forall h, fair (att h)) -> (forall h, reads (att h) <= B) -> n * B <= M ->
  count (fun r => conclude (play true ar growcap att (poolsLeft r) n (stream_of r) [])) (all_strings M) =
  count (fun r => conclude (play false ar growcap att (poolsRight r) n (stream_of r) [])) (all_strings M).
Proof. exact C67_many_splits_pf. Qed.
Print Assumptions C67_many_splits.

(** An attacker that first asks for a share of "hello" or of "world", then, depending on its first byte, for two shares of "AAA" or "BBB" from
    SplitGeneric or for all shares of "C"; two concrete random strings, and what it sees in the two worlds. *)
Definition ex_att (h : history) : query :=
  match h with
  | [] => {| q_api := ASplit; q_perm := ex_perm; q_left := ex_secret; q_right := [x77; x6f; x72; x6c; x64]; q_parts := 5; q_threshold := 3; q_show := [4] |}
  | Some ((x00 :: _) :: _) :: _ => {| q_api := AGeneric; q_perm := ex_perm; q_left := [x41; x41; x41]; q_right := [x42; x42; x42]; q_parts := 4; q_threshold := 3; q_show := [3; 0] |}
  | _ => {| q_api := ASplit; q_perm := ex_perm; q_left := [x43]; q_right := [x43]; q_parts := 3; q_threshold := 2; q_show := [0; 1; 2] |}
  end.
Example C67_case : (forall h, fair (ex_att h)) /\ (forall h, reads (ex_att h) <= 15) /\
  exists h1 h2, play true ex_ar growcap117 ex_att (fun _ => {| s_pol := []; s_tr := ex_stale; s_ev := ex_ev |}) 2 (stream_of (repeat x07 30)) [] = h1 /\
    play false ex_ar growcap117 ex_att (fun _ => {| s_pol := ex_stale; s_tr := ex_stale; s_ev := ex_ev |}) 2 (stream_of (repeat x07 30)) [] = h2 /\ h1 <> h2 /\ length h1 = 2.
Proof.
  assert (A : forall h, ex_att h = ex_att [] \/ ex_att h = ex_att [Some [[x00]]] \/ ex_att h = ex_att [None]).
  { intros [|[[|[|b l] v]|] h]; auto. destruct b; auto. }
  assert (F : fair (ex_att []) /\ fair (ex_att [Some [[x00]]]) /\ fair (ex_att [None])).
  { split; [|split]; (split; [apply Permutation_refl|]; split; [split; [discriminate|]; cbn; lia|]; split; [reflexivity|]; split; [|exact I]).
    - left. split; [repeat constructor; intros []|]. split; [|cbn; lia]. intros i [<-|[]]. cbn. lia.
    - left. split; [repeat constructor; cbn; intuition lia|]. split; [|cbn; lia]. intros i [<-|[<-|[]]]; cbn; lia.
    - right. reflexivity. }
  split; [intros h; destruct (A h) as [E | [E | E]]; rewrite E; apply F|]. split; [intros h; destruct (A h) as [E | [E | E]]; rewrite E; vm_compute; lia|].
  eexists _, _. split; [vm_compute; reflexivity|]. split; [vm_compute; reflexivity|]. split; [discriminate|reflexivity].
Qed.
