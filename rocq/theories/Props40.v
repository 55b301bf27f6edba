(** Proofs that combining too few genuine shares with other parts gives every result equally often (C85).
    Generated from Pf40.v by tools/genprops.py: every theorem is proved there as the lemma of the same name with suffix _pf. *)
From Coq Require Import List NArith ZArith Lia Arith Bool Permutation.
From Coq.Init Require Import Byte.
From Verif Require Import GoSem Bytes Spec Vector Pool Polynomial Shamir SplitP SpecMix ExData Pf40.
Import ListNotations.

(** C85: Split. An attacker who sees the shares [w] of too small a coalition, and chooses with this knowledge the parts [forged] that are combined with
    further genuine shares, still below the threshold together with those he sees, makes Combine return each string for equally many of the random
    strings Split can draw. *)
Theorem C85_split : forall ar growcap perm polB trB evBufs s parts threshold js hs w forged v,
  grow_ok growcap -> Permutation perm (seq 0 255) -> valid_args s parts threshold ->
  coalition (Z.to_nat parts) (Z.to_nat threshold) (js ++ hs) -> hs <> [] -> mixable (length s) perm forged hs -> length v = length s ->
  let hits := count (fun r => mixed_gives Combine js w forged hs v (Split ar growcap perm (stream_of r) polB trB evBufs s parts threshold))
                    (all_strings (Z.to_nat threshold * length s)) in
  (is_view (length s) (map (tag_of_share perm) js) w -> hits = 256 ^ ((Z.to_nat threshold - length js - 1) * length s)) /\
  (~ is_view (length s) (map (tag_of_share perm) js) w -> hits = 0).
Proof. exact C85_split_pf. Qed.
Print Assumptions C85_split.

(** C85: SplitGeneric. *)
Theorem C85_generic : forall perm s parts threshold js hs w forged v,
  Permutation perm (seq 0 255) -> valid_args s parts threshold ->
  coalition (Z.to_nat parts) (Z.to_nat threshold) (js ++ hs) -> hs <> [] -> mixable (length s) perm forged hs -> length v = length s ->
  let hits := count (fun r => mixed_gives Combine js w forged hs v (SplitGeneric perm (stream_of r) s parts threshold))
                    (all_strings ((Z.to_nat threshold - 1) * length s)) in
  (is_view (length s) (map (tag_of_share perm) js) w -> hits = 256 ^ ((Z.to_nat threshold - 1 - length js - 1) * length s)) /\
  (~ is_view (length s) (map (tag_of_share perm) js) w -> hits = 0).
Proof. exact C85_generic_pf. Qed.
Print Assumptions C85_generic.

(** C85: SplitP, in every schedule of its goroutines in which it returns. *)
Theorem C85_splitp : forall perm s parts threshold sched js hs w forged v r0 shares0,
  Permutation perm (seq 0 255) -> valid_args s parts threshold -> (N.of_nat (length s) <= 4294967296 - 1024)%N ->
  coalition (Z.to_nat parts) (Z.to_nat threshold) (js ++ hs) -> hs <> [] -> mixable (length s) perm forged hs -> length v = length s ->
  SplitPRun perm (stream_of r0) s parts threshold sched = Some (Ret shares0) ->
  let hits := count (fun r => match SplitPRun perm (stream_of r) s parts threshold sched with Some o => mixed_gives Combine js w forged hs v o | None => false end)
                    (all_strings ((Z.to_nat threshold - 1) * length s)) in
  (is_view (length s) (map (tag_of_share perm) js) w -> hits = 256 ^ ((Z.to_nat threshold - 1 - length js - 1) * length s)) /\
  (~ is_view (length s) (map (tag_of_share perm) js) w -> hits = 0).
Proof. exact C85_splitp_pf. Qed.
Print Assumptions C85_splitp.

(** C85: mixing shares is not noticed and guesses no better than chance: among the random strings for which Split shows the attacker what he sees, the
    right secret (or any other string) comes out for exactly one in 256^length. *)
Theorem C85_chance : forall ar growcap perm polB trB evBufs s parts threshold js hs forged w,
  grow_ok growcap -> Permutation perm (seq 0 255) -> valid_args s parts threshold ->
  coalition (Z.to_nat parts) (Z.to_nat threshold) (js ++ hs) -> hs <> [] -> mixable (length s) perm forged hs ->
  (forall stream, exists shares v, Split ar growcap perm stream polB trB evBufs s parts threshold = Ret shares /\
     Combine (forged ++ pick [] shares hs) = Ret v /\ length v = length s) /\
  let buffers := all_strings (Z.to_nat threshold * length s) in
  let split r := Split ar growcap perm (stream_of r) polB trB evBufs s parts threshold in
  256 ^ length s * count (fun r => mixed_gives Combine js w forged hs s (split r)) buffers = count (fun r => observes (split r) js w) buffers.
Proof. exact C85_chance_pf. Qed.
Print Assumptions C85_chance.

(** C85: tags must not be zero: a part with tag zero decides the result alone. *)
Theorem C85_zero_tag : forall parts p, acceptable parts -> In p parts -> tag p = x00 -> Combine parts = Ret (data p).
Proof. exact C85_zero_tag_pf. Qed.
Print Assumptions C85_zero_tag.

(** the hypotheses are met: of a 5-out-of-3 sharing the attacker sees share 4 and mixes a share of his own with the genuine share 1, and the result is not the secret *)
Example C85_case : coalition 5 3 ([4] ++ [1]) /\ mixable 5 ex_perm [[x68; x65; x6c; x6c; x6f; xc8]] [1] /\ valid_args ex_secret 5 3 /\
  exists shares v, Split ex_ar growcap117 ex_perm ex_stream ex_stale ex_stale ex_ev ex_secret 5 3 = Ret shares /\
    is_view 5 (map (tag_of_share ex_perm) [4]) (pick [] shares [4]) /\
    Combine ([[x68; x65; x6c; x6c; x6f; xc8]] ++ pick [] shares [1]) = Ret v /\ length v = 5 /\ v <> ex_secret /\
    mixed_gives Combine [4] (pick [] shares [4]) [[x68; x65; x6c; x6c; x6f; xc8]] [1] v (Ret shares) = true.
Proof.
  split; [split; [repeat constructor; cbn; intuition lia|split; [cbn; intuition lia|cbn; lia]]|].
  split.
  { split; [intros p [<-|[]]; reflexivity|]. split; [vm_compute; intuition discriminate|]. split; [|cbn; lia].
    vm_compute. repeat constructor; cbn; intuition discriminate. }
  split; [exact ex_valid|]. eexists _, _. split; [vm_compute; reflexivity|].
  split; [split; [reflexivity|intros i Hi; destruct i; [split; vm_compute; reflexivity|cbn in Hi; lia]]|].
  split; [vm_compute; reflexivity|]. split; [reflexivity|]. split; [vm_compute; discriminate|vm_compute; reflexivity].
Qed.
