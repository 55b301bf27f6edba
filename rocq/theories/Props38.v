(** Proofs about the secrecy of splits and regenerated shares against an attacker who collects shares over time (C83).
    Generated from Pf38.v by tools/genprops.py: every theorem is proved there as the lemma of the same name with suffix _pf. *)
From Coq Require Import List NArith ZArith Lia Arith Bool Permutation.
From Coq.Init Require Import Byte.
From Verif Require Import GoSem Bytes Spec Vector Pool Polynomial Shamir SplitP SpecHist SpecJoint SpecAdaptive ExData Pf38.
Import ListNotations.

(** C83: An attacker asks [n] times, each time choosing from all replies so far: split one of two secrets of equal length with one of three split
    functions (it chooses the permutation and the schedule), call Regenerate on at least threshold shares of an earlier sharing (it chooses
    which, and the bytes drawn, and is told the new tags or how the call ended), or show one share, original or regenerated. A
    share is shown unless its tag is 0 or it is the threshold-th different share shown of its sharing (the tags may repeat); where
    the two secrets are equal, everything is shown. Whatever the attacker concludes, it concludes for equally many random strings when the left
    secrets are split and when the right ones are. *)
Theorem C83_adaptive : forall ar growcap att poolsLeft poolsRight conclude n B M,
  grow_ok growcap -> proper_requests att B -> n * B <= M ->
  count (fun r => conclude (seen true ar growcap att (poolsLeft r) n r)) (all_strings M) =
  count (fun r => conclude (seen false ar growcap att (poolsRight r) n r)) (all_strings M).
Proof. exact C83_adaptive_pf. Qed.
Print Assumptions C83_adaptive.

(** An attacker that has "hi" or "yo" split (threshold 3, 4 parts) with Split, looks at share 1, has a fifth share with tag 9 and a sixth with tag 0 made
    from shares 0, 2 and 3, looks at the fifth, asks for the one with tag 0 and for a third one (both refused), then looks at share 1 again; and
    depending on the first byte seen has "A" or "A" split with SplitGeneric and looks at all of it. The replies in the two worlds are different for
    one random string; everything is counted. *)
Definition ex_split : splitting := {| p_api := ASplit; p_perm := ex_perm; p_left := [x68; x69]; p_right := [x79; x6f]; p_parts := 4; p_threshold := 3 |}.
Definition ex_same : splitting := {| p_api := AGeneric; p_perm := ex_perm; p_left := [x41]; p_right := [x41]; p_parts := 2; p_threshold := 2 |}.
Definition ex_regen : regen_call := RegenCall [0; 2; 3] 2 5 (fun i => if i =? 0 then x09 else x00) (fun _ => x07).
Definition ex_att (h : list reply) : request :=
  match length h with
  | 0 => QSplit ex_split
  | 1 => QShow 0 1
  | 2 => QRegenerate 0 ex_regen
  | 3 => QShow 0 4
  | 4 => QShow 0 5
  | 5 => QShow 0 0
  | 6 => QShow 0 1
  | 7 => QRegenerate 0 (RegenCall [0; 2] 2 5 (fun _ => x09) (fun _ => x07))
  | 8 => match nth 6 h RHangs with RShare (x00 :: _) => QShow 0 0 | _ => QSplit ex_same end
  | 9 => QShow 1 0
  | _ => QShow 1 1
  end.
Example C83_case : grow_ok growcap117 /\ proper_requests ex_att 6 /\
  let left := seen true ex_ar growcap117 ex_att (fun _ => {| s_pol := ex_stale; s_tr := ex_stale; s_ev := ex_ev |}) 11 (repeat x07 66) in
  let right := seen false ex_ar growcap117 ex_att (fun _ => {| s_pol := []; s_tr := ex_stale; s_ev := ex_ev |}) 11 (repeat x07 66) in
  exists s1 s2 s3 s4, left = [RShare s4; RShare s3; RTags [x01; x02]; RRefused; RShare s1; RRefused; RRefused; RShare s2; RTags [x09; x00]; RShare s1; RTags [x01; x02; x03; x04]] /\
    length s2 = 3 /\ tag s2 = x09 /\ left <> right.
Proof.
  split; [exact ex_grow|]. split.
  { assert (P1 : proper ex_split /\ bytes_of ex_split <= 6).
    { split; [|vm_compute; lia]. split; [exact ex_perm_ok|]. split; [split; [discriminate|cbn; lia]|]. split; [reflexivity|exact I]. }
    assert (P2 : proper ex_same /\ bytes_of ex_same <= 6).
    { split; [|vm_compute; lia]. split; [exact ex_perm_ok|]. split; [split; [discriminate|cbn; lia]|]. split; [reflexivity|exact I]. }
    intros h. unfold ex_att. destruct (length h) as [|[|[|[|[|[|[|[|[|[|k]]]]]]]]]]; try exact I; [exact P1|].
    destruct (nth 6 h RHangs) as [|[|[] s]| | | |]; try exact I; exact P2. }
  cbv zeta. eexists _, _, _, _. split; [vm_compute; reflexivity|]. split; [reflexivity|]. split; [reflexivity|]. vm_compute. discriminate.
Qed.
