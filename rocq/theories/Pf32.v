(** Proofs about the secrecy of concurrent splits with shamir and krawczyk (C79). *)
From Coq Require Import List NArith ZArith Lia Arith Bool Permutation.
From Coq.Init Require Import Byte.
From Verif Require Import GoSem Bytes Spec SpecKr Vector Pool Polynomial Shamir SplitP Libs Krawczyk Secrecy CountFacts Csprng KrawczykFacts ConcRand SpecConcRand SpecConcKr ConcKrFacts.
From Verif Require SpecJointKr JointKrFacts.
Import ListNotations.

(*PROPS
From Coq Require Import List NArith ZArith Lia Arith Bool Permutation.
From Coq.Init Require Import Byte.
From Verif Require Import GoSem Bytes Spec SpecKr Vector Pool Polynomial Shamir SplitP Libs AES Krawczyk ConcRand SpecConcRand SpecConcKr ExData Pf32.
From Verif Require SpecJointKr.
Import ListNotations.
*)

(** C79. An attacker starts goroutines that split one of two secrets of its choice with Split, SplitGeneric, SplitP or krawczyk.Split, decides at
    every moment which goroutine makes its next draw from the random source, sees all words drawn for the permutations, the size of every
    read and, once a goroutine is finished, the shares it asked for (fewer than the threshold, unless the two secrets are equal);
    everything it does may depend on what it saw. The bytes that are read come from an ideal source. Whatever the attacker concludes
    after [n] actions, a breaker of the cipher (C75), who only hands in pairs of secrets that the attacker might ask krawczyk.Split about and
    gets one of each pair encrypted under a fresh random key, concludes exactly as often, in both worlds. *)
Lemma C79_reduction_pf : forall E enc zp ar growcap words att conclude n B M,
  (forall key m, length key = 16 -> ofb_cipher E key m (enc key m)) -> grow_ok growcap ->
  (forall h r, att h = KBegin r -> fair_kr_request zp r /\ largest_read r <= B) -> n * B <= M ->
  exists a : SpecJointKr.breaker,
    (forall coins seen l r, SpecJointKr.hand_in a coins seen = Some (l, r) -> exists h q, att h = KBegin (KKrawczyk q) /\ q_left q = l /\ q_right q = r) /\
    forall left,
    count (fun s => conclude (kr_game E zp ar growcap left att n (fresh_world words s) [])) (all_strings (16 * n + M)) =
    count (fun kc => SpecJointKr.cipher_game left enc a n (fst kc) (snd kc) []) (list_prod (all_strings (16 * n)) (all_strings M)).
Proof.
  intros E enc zp ar growcap words att conclude n B M HE G F HM. exists (conc_breaker E zp ar growcap att words conclude). split.
  - intros coins cs l r. cbn [conc_breaker SpecJointKr.hand_in]. pose proof (begun_replayed E zp ar growcap att words coins cs) as H.
    unfold ask. destruct (att _) as [q|i]; [discriminate|]. destruct (nth_error _ i) as [[p|q]|] eqn:En; try discriminate.
    cbn [option_map]. intros X. injection X as <- <-. apply nth_error_In in En. apply (proj1 (Forall_forall _ _) H) in En as (h & Eh). exists h, q. auto.
  - intros left. rewrite JointKrFacts.count_prod.
    pose proof (games_related E enc HE zp ar growcap G left B att conclude F n (16 * n + M) (16 * n) M [] [] [] words (Forall2_nil _) ltac:(lia) ltac:(lia) HM) as H.
    unfold CR, CF in H. rewrite <- wgt_add in H. apply Nat.mul_cancel_l in H; [|unfold wgt; rewrite all_strings_length; apply Nat.pow_nonzero; discriminate].
    refine (eq_trans H _). apply JointKrFacts.sum_ext. intros keys _. apply count_ext. intros coins _. cbn [fst snd]. rewrite breaker_plays. reflexivity.
Qed.

(** C79, consequence: the numbers of random strings for which the attacker concludes something in the two worlds differ by no more than
    [adv] if that is so for everyone who hands in the same pairs of secrets and sees ciphertexts only, whatever [adv] is. *)
Lemma C79_hiding_pf : forall E enc zp ar growcap words att conclude n B M adv,
  (forall key m, length key = 16 -> ofb_cipher E key m (enc key m)) -> grow_ok growcap ->
  (forall h r, att h = KBegin r -> fair_kr_request zp r /\ largest_read r <= B) -> n * B <= M ->
  (forall a : SpecJointKr.breaker,
     (forall coins seen l r, SpecJointKr.hand_in a coins seen = Some (l, r) -> exists h q, att h = KBegin (KKrawczyk q) /\ q_left q = l /\ q_right q = r) ->
     let hits left := count (fun kc => SpecJointKr.cipher_game left enc a n (fst kc) (snd kc) []) (list_prod (all_strings (16 * n)) (all_strings M)) in
     (Z.abs (Z.of_nat (hits true) - Z.of_nat (hits false)) <= adv)%Z) ->
  (Z.abs (Z.of_nat (count (fun s => conclude (kr_game E zp ar growcap true att n (fresh_world words s) [])) (all_strings (16 * n + M))) -
          Z.of_nat (count (fun s => conclude (kr_game E zp ar growcap false att n (fresh_world words s) [])) (all_strings (16 * n + M)))) <= adv)%Z.
Proof.
  intros E enc zp ar growcap words att conclude n B M adv HE G F HM H.
  destruct (C79_reduction_pf E enc zp ar growcap words att conclude n B M HE G F HM) as (a & A1 & A2). rewrite !A2. apply (H a A1).
Qed.

(** C79, consequence: when krawczyk.Split is only asked about equal secrets (all its shares may then be shown), the attacker concludes equally often
    in the two worlds. *)
Lemma C79_equal_secrets_pf : forall E zp ar growcap words att conclude n B M,
  grow_ok growcap -> (forall h r, att h = KBegin r -> fair_kr_request zp r /\ largest_read r <= B) -> n * B <= M ->
  (forall h q, att h = KBegin (KKrawczyk q) -> q_left q = q_right q) ->
  count (fun s => conclude (kr_game E zp ar growcap true att n (fresh_world words s) [])) (all_strings (16 * n + M)) =
  count (fun s => conclude (kr_game E zp ar growcap false att n (fresh_world words s) [])) (all_strings (16 * n + M)).
Proof.
  intros E zp ar growcap words att conclude n B M G F HM H.
  pose (enc := fun key m => xorStreamFrom (ofbStream E key (zeros 16)) 0 m).
  destruct (C79_reduction_pf E enc zp ar growcap words att conclude n B M (fun key m _ => proj2 (ofb_cipher_iff E key m (enc key m)) eq_refl) G F HM) as (a & A1 & A2).
  rewrite !A2. apply count_ext. intros [keys coins] _. cbn [fst snd]. generalize (@nil (option (list byte))). revert keys.
  generalize n. clear - A1 H. induction n as [|n IH]; intros keys cs; [reflexivity|]. cbn [SpecJointKr.cipher_game]. cbv zeta.
  destruct (SpecJointKr.hand_in a coins cs) as [[l r]|] eqn:Eh; [|apply IH].
  destruct (A1 _ _ _ _ Eh) as (h & q & Q & <- & <-). rewrite (H h q Q). apply IH.
Qed.

(*COPY
(** An attacker that starts a krawczyk split of "hi" or "ok" (2 of 3, one share shown) and a shamir split, lets them draw in turn and, depending on
    what it saw, starts a krawczyk split of "C" of which it sees all shares; the two worlds look different for some random strings. *)
Definition exq (by_ : splitter) (l r : list byte) (show : list nat) : request :=
  {| q_by := by_; q_left := l; q_right := r; q_parts := 3; q_threshold := 2; q_show := show |}.
Definition ex_kr_attack (h : list seen) : kr_action :=
  match h with
  | [] => KBegin (KKrawczyk (exq BySplit [x68; x69] [x6f; x6b] [2]))
  | [_] => KBegin (KShamir (exq ByGeneric [x68; x69] [x6f; x6b] [0]))
  | SShares (Some ((x00 :: _) :: _)) :: _ => KBegin (KKrawczyk (exq BySplit [x43] [x43] [0; 1; 2]))
  | _ => KAdvance (length h mod 2)
  end.
Example C79_attack : (forall h r, ex_kr_attack h = KBegin r -> fair_kr_request true r /\ largest_read r <= 40) /\
  exists h1 h2, let E := fun _ => map (bxor x5a) in let words := fun i => (N.of_nat i * N.of_nat i)%N in
    kr_game E true ex_ar growcap117 true ex_kr_attack 518 (fresh_world words (repeat x07 200)) [] = h1 /\
    kr_game E true ex_ar growcap117 false ex_kr_attack 518 (fresh_world words (repeat x07 200)) [] = h2 /\ h1 <> h2 /\
    match h1 with SShares (Some [a]) :: SShares (Some [b]) :: _ => length a = 3 /\ length b = 23 | _ => False end.
Proof.
  split.
  - assert (C : coalition 3 2 [2] /\ coalition 3 2 [0]).
    { split; (split; [repeat constructor; intros []|]; split; [|cbn; lia]); intros i Hi; cbn in Hi; intuition lia. }
    intros [|[| | |[[|[|[] l] v]|]|] [|h1 h]] r E; try discriminate E; injection E as <-; (split; [|vm_compute; lia]); cbn [fair_kr_request];
      unfold fair_request, kr_valid_args, valid_args; cbn [exq q_left q_right q_parts q_threshold q_show length];
      repeat split; try discriminate; try lia; try (left; apply C); try (right; reflexivity); try (left; reflexivity).
  - eexists _, _. split; [vm_compute; reflexivity|]. split; [vm_compute; reflexivity|]. split; [discriminate|]. split; reflexivity.
Qed.
END*)
