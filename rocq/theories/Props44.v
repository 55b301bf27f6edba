(** Proofs about random sources that are not ideal (C89).
    Generated from Pf44.v by tools/genprops.py: every theorem is proved there as the lemma of the same name with suffix _pf. *)
From Coq Require Import List NArith ZArith Lia Arith Bool Permutation.
From Coq.Init Require Import Byte.
From Verif Require Import GoSem Bytes Spec SpecKr Vector Pool Polynomial Shamir SplitP Libs Krawczyk SpecJoint SpecTree SpecSource ExData Pf44.
From Verif Require SpecJointKr SpecAdaptive.
Import ListNotations.

(** C89. Many splits (the attacker of C67), whatever the source: if the attacker's conclusion depends on which secrets are split, then it tells
    the source from ideal random strings in one of the two worlds; and the difference it sees is at most the distance of the source from
    ideal. *)
Theorem C89_many_splits : forall ar growcap att poolsLeft poolsRight conclude n B M (src : source),
  grow_ok growcap -> (forall h, fair (att h)) -> (forall h, reads (att h) <= B) -> n * B <= M ->
  let left r := conclude (play true ar growcap att (poolsLeft r) n (stream_of r) []) in
  let right r := conclude (play false ar growcap att (poolsRight r) n (stream_of r) []) in
  (gap left right src * 256 ^ Z.of_nat M <= advantage left src M + advantage right src M)%Z /\
  ((forall r, In r src -> length r = M) -> gap left right src * 256 ^ Z.of_nat M <= distance src M)%Z.
Proof. exact C89_many_splits_pf. Qed.
Print Assumptions C89_many_splits.

(** C89. The same for the attacker of C83, who collects original and regenerated shares over time, *)
Theorem C89_collector : forall ar growcap att poolsLeft poolsRight conclude n B M (src : source),
  grow_ok growcap -> SpecAdaptive.proper_requests att B -> n * B <= M ->
  let left r := conclude (SpecAdaptive.seen true ar growcap att (poolsLeft r) n r) in
  let right r := conclude (SpecAdaptive.seen false ar growcap att (poolsRight r) n r) in
  (gap left right src * 256 ^ Z.of_nat M <= advantage left src M + advantage right src M)%Z /\
  ((forall r, In r src -> length r = M) -> gap left right src * 256 ^ Z.of_nat M <= distance src M)%Z.
Proof. exact C89_collector_pf. Qed.
Print Assumptions C89_collector.

(** C89. and for the attacker of C87, who wins over people among whom a secret was shared by any tree of calls. *)
Theorem C89_tree : forall ar growcap t secret secret' attacker guess n (src : source),
  grow_ok growcap -> proper_tree t (length secret) -> length secret = length secret' ->
  let M := need t (length secret) in
  let nobody := repeat false (leaves t) in
  let left r := guess (corrupt t attacker (deal ar growcap t (stream_of r) secret) n nobody []) in
  let right r := guess (corrupt t attacker (deal ar growcap t (stream_of r) secret') n nobody []) in
  (gap left right src * 256 ^ Z.of_nat M <= advantage left src M + advantage right src M)%Z /\
  ((forall r, In r src -> length r = M) -> gap left right src * 256 ^ Z.of_nat M <= distance src M)%Z.
Proof. exact C89_tree_pf. Qed.
Print Assumptions C89_tree.

(** C89. For the attacker of C75, who also uses krawczyk.Split, what can be achieved against the cipher is added. *)
Theorem C89_krawczyk : forall E enc zp ar growcap att conclude n B M poolsLeft poolsRight adv (src : source),
  (forall key m, length key = 16 -> ofb_cipher E key m (enc key m)) ->
  grow_ok growcap -> (forall h, SpecJointKr.fair_request zp (att h)) -> (forall h, SpecJointKr.consumes (att h) <= B) -> n * B <= M ->
  (forall a : SpecJointKr.breaker, (forall coins seen l r, SpecJointKr.hand_in a coins seen = Some (l, r) -> exists h q, att h = SpecJointKr.RKrawczyk q /\ q_left q = l /\ q_right q = r) ->
     let hits left := count (fun kc => SpecJointKr.cipher_game left enc a n (fst kc) (snd kc) []) (list_prod (all_strings (16 * n)) (all_strings M)) in
     (Z.abs (Z.of_nat (hits true) - Z.of_nat (hits false)) <= adv)%Z) ->
  let N := 16 * n + M in
  let left s := conclude (SpecJointKr.share_game true E zp ar growcap att (poolsLeft s) n (stream_of s) []) in
  let right s := conclude (SpecJointKr.share_game false E zp ar growcap att (poolsRight s) n (stream_of s) []) in
  (gap left right src * 256 ^ Z.of_nat N <= advantage left src N + advantage right src N + Z.of_nat (length src) * adv)%Z.
Proof. exact C89_krawczyk_pf. Qed.
Print Assumptions C89_krawczyk.

(** C89. Guessing the secret: someone who is not qualified sees what the tree of calls gave to some people and names a secret. Among all pairs of a
    secret and a state of the source, at most K * 256^M are such that the guess is right, if no string is delivered in more than K states. (There
    are 256^N pairs for each state; the ideal source has K = 1 and 256^M states, so that 1 in 256^N guesses is right; d bits of entropy missing
    help by a factor 2^d at most.) *)
Theorem C89_guessing : forall ar growcap t N seen (guess : list (option (list byte)) -> list byte) K (src : source),
  grow_ok growcap -> proper_tree t N -> qualified t seen = false ->
  let M := need t N in
  (forall r, In r src -> length r = M) -> at_most K src ->
  let right secret r := if list_eq_dec byte_eq_dec (guess (mask seen (deal ar growcap t (stream_of r) secret))) secret then true else false in
  list_sum (map (fun secret => count (right secret) src) (all_strings N)) <= K * 256 ^ M.
Proof. exact C89_guessing_pf. Qed.
Print Assumptions C89_guessing.

(** C89. The ideal source has no advantage for anybody. *)
Theorem C89_ideal : forall test M, advantage test (all_strings M) M = 0%Z.
Proof. exact C89_ideal_pf. Qed.
Print Assumptions C89_ideal.

(** C89. Nobody's advantage exceeds half the distance. *)
Theorem C89_distance : forall test src M, (forall r, In r src -> length r = M) -> (2 * advantage test src M <= distance src M)%Z.
Proof. exact C89_distance_pf. Qed.
Print Assumptions C89_distance.

(** The worst source, which has a single state: one share of a 2-of-2 split of "A" or "B" with SplitGeneric gives the secret away with certainty,
    and the bounds are met with equality up to the strings that agree by chance. *)
Definition ex_bad : source := [[x00]].
Definition ex_ask (_ : history) : query :=
  {| q_api := AGeneric; q_perm := ex_perm; q_left := [x41]; q_right := [x42]; q_parts := 2; q_threshold := 2; q_show := [1] |}.
Definition ex_says (h : history) : bool := match h with [Some [x41 :: _]] => true | _ => false end.
Definition ex_no_pools (_ : nat) : pools := {| s_pol := []; s_tr := []; s_ev := ex_ev |}.
Definition ex_test (left : bool) (r : list byte) : bool := ex_says (play left ex_ar growcap117 ex_ask ex_no_pools 1 (stream_of r) []).
Example C89_worst : (forall h, fair (ex_ask h)) /\ (forall h, reads (ex_ask h) <= 1) /\
  gap (ex_test true) (ex_test false) ex_bad = 1%Z /\ advantage (ex_test true) ex_bad 1 = 255%Z /\ advantage (ex_test false) ex_bad 1 = 1%Z /\
  distance ex_bad 1 = 510%Z.
Proof.
  split; [|split; [intros h; vm_compute; lia|repeat split; vm_compute; reflexivity]].
  intros h. split; [apply Permutation_refl|]. split; [split; [discriminate|]; cbn; lia|]. split; [reflexivity|]. split; [|exact I].
  left. split; [repeat constructor; intros []|]. split; [|cbn; lia]. intros i [<-|[]]. cbn. lia.
Qed.
(** A source with two states for a 2-of-3 tree: it meets the hypotheses of C89_guessing with K = 1 *)
Definition ex_two : source := [[x00]; [x01]].
Definition ex_gcall : call := {| c_api := AGeneric; c_perm := ex_perm; c_parts := 3; c_threshold := 2; c_pools := {| s_pol := []; s_tr := []; s_ev := ex_ev |} |}.
Definition ex_gtree : tree := Node ex_gcall [Leaf; Leaf; Leaf].
Example C89_guess : proper_tree ex_gtree 1 /\ qualified ex_gtree [false; true; false] = false /\ need ex_gtree 1 = 1 /\
  (forall r, In r ex_two -> length r = 1) /\ at_most 1 ex_two.
Proof.
  split.
  { cbn -[ex_perm]. split; [apply Permutation_refl|]. repeat split; lia. }
  split; [reflexivity|]. split; [reflexivity|]. split; [intros r [<-|[<-|[]]]; reflexivity|].
  intros r. unfold ex_two. cbn [count_occ]. destruct (list_eq_dec byte_eq_dec [x00] r) as [E|E]; destruct (list_eq_dec byte_eq_dec [x01] r) as [E'|E']; try lia. congruence.
Qed.
