(** Proofs about sharing the shares again (C87).
    Generated from Pf42.v by tools/genprops.py: every theorem is proved there as the lemma of the same name with suffix _pf. *)
From Coq Require Import List NArith ZArith Lia Arith Bool Permutation.
From Coq.Init Require Import Byte.
From Verif Require Import GoSem Bytes Spec Vector Pool Polynomial Shamir SplitP SpecJoint SpecTree ExData Pf42.
Import ListNotations.

(** C87. Whatever the tree of calls: people who are not qualified learn nothing about the secret. Every decision they can make upon what they have
    is made for equally many random strings, whichever of two equally long secrets was shared. *)
Theorem C87_secrecy : forall ar growcap t secret secret' seen guess,
  grow_ok growcap -> proper_tree t (length secret) -> length secret = length secret' -> qualified t seen = false ->
  let random := all_strings (need t (length secret)) in
  count (fun r => guess (mask seen (deal ar growcap t (stream_of r) secret))) random =
  count (fun r => guess (mask seen (deal ar growcap t (stream_of r) secret'))) random.
Proof. exact C87_secrecy_pf. Qed.
Print Assumptions C87_secrecy.

(** C87. Nor does an attacker who wins people over one after the other, choosing the next one upon what it has got so far, as long as they do not
    become qualified. *)
Theorem C87_adaptive : forall ar growcap t secret secret' attacker guess n,
  grow_ok growcap -> proper_tree t (length secret) -> length secret = length secret' ->
  let random := all_strings (need t (length secret)) in
  let nobody := repeat false (leaves t) in
  count (fun r => guess (corrupt t attacker (deal ar growcap t (stream_of r) secret) n nobody [])) random =
  count (fun r => guess (corrupt t attacker (deal ar growcap t (stream_of r) secret') n nobody [])) random.
Proof. exact C87_adaptive_pf. Qed.
Print Assumptions C87_adaptive.

(** C87. If everybody has got something, qualified people recover the secret by calling Combine wherever they can, and others get nothing that way. *)
Theorem C87_recover : forall ar growcap t stream secret seen,
  grow_ok growcap -> proper_tree t (length secret) -> length seen = leaves t ->
  (forall o, In o (deal ar growcap t stream secret) -> o <> None) ->
  recover t (mask seen (deal ar growcap t stream secret)) = if qualified t seen then Some secret else None.
Proof. exact C87_recover_pf. Qed.
Print Assumptions C87_recover.

(** C87. Everybody gets something if no call is one of SplitP (whose schedule may end before it returns). *)
Theorem C87_dealt : forall ar growcap t stream secret,
  grow_ok growcap -> proper_tree t (length secret) -> no_SplitP t ->
  length (deal ar growcap t stream secret) = leaves t /\ (forall o, In o (deal ar growcap t stream secret) -> o <> None).
Proof. exact C87_dealt_pf. Qed.
Print Assumptions C87_dealt.

(** C87. The tree with one call is the call itself: its shares, and threshold of them are qualified. *)
Theorem C87_one_call : forall ar growcap c stream secret shares seen,
  runCall ar growcap c stream secret = Some (Ret shares) -> length shares = Z.to_nat (c_parts c) -> length seen = length shares ->
  let t := Node c (repeat Leaf (length shares)) in
  deal ar growcap t stream secret = map Some shares /\ qualified t seen = (Z.to_nat (c_threshold c) <=? count (fun b : bool => b) seen).
Proof. exact C87_one_call_pf. Qed.
Print Assumptions C87_one_call.

(** a 2-of-3 split of one byte whose second share is split 2-of-2 with SplitGeneric and whose third share is split 2-of-3: three levels of people *)
Definition ex_pools : pools := {| s_pol := ex_stale; s_tr := []; s_ev := ex_ev |}.
Definition ex_call a n k : call := {| c_api := a; c_perm := ex_perm; c_parts := n; c_threshold := k; c_pools := ex_pools |}.
Definition ex_tree : tree := Node (ex_call ASplit 3 2) [Leaf; Node (ex_call AGeneric 2 2) [Leaf; Leaf]; Node (ex_call ASplit 3 2) [Leaf; Leaf; Leaf]].
Example C87_tree : leaves ex_tree = 6 /\ need ex_tree 1 = 8 /\ proper_tree ex_tree 1 /\ no_SplitP ex_tree.
Proof.
  split; [reflexivity|]. split; [reflexivity|]. split; [|cbn; tauto].
  assert (P : forall (X : Prop), X -> Permutation ex_perm (seq 0 255) /\ X) by (intros X H; split; [apply Permutation_refl|exact H]).
  cbn [proper_tree ex_tree c_perm c_parts c_threshold c_api ex_call map fold_right length].
  repeat match goal with |- Permutation _ _ /\ _ => apply P | |- _ /\ _ => split | |- True => exact I end; lia.
Qed.
(** the first person with one of the last three cannot know the secret, nor can one person of each group; two of the last group and the first can *)
Example C87_people : qualified ex_tree [true; false; false; false; false; true] = false /\ qualified ex_tree [false; true; false; true; true; true] = false /\
  qualified ex_tree [true; false; false; true; false; true] = true.
Proof. repeat split; reflexivity. Qed.
(** an attacker that asks for the first person, then for one of the last group depending on what it got, and then for others: the fourth is refused *)
Example C87_attack : corrupt ex_tree (fun told => match told with [] => 0 | [Some (x :: _)] => if beq x x00 then 4 else 5 | [_; _] => 1 | _ => 4 end)
    (deal ex_ar growcap117 ex_tree ex_stream [x68]) 4 (repeat false 6) [] =
  [None; Some [x6d; x1a; x01]; Some [x1c; x5f; x03]; Some [x62; x01]].
Proof. vm_compute. reflexivity. Qed.
Example C87_run : recover ex_tree (mask [true; false; false; true; false; true] (deal ex_ar growcap117 ex_tree ex_stream [x68])) = Some [x68].
Proof. vm_compute. reflexivity. Qed.
