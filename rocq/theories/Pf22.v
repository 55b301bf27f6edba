(** Proofs about what fewer than [threshold] krawczyk shares give away (C69). *)
From Coq Require Import List NArith ZArith Lia Arith Bool Permutation.
From Coq.Init Require Import Byte.
From Verif Require Import GoSem Bytes Spec SpecKr GF GoFacts Vector Csprng Pool Polynomial PolynomialFacts Shamir SplitFacts CombineFacts Secrecy CountFacts Libs Krawczyk KrawczykFacts KrawczykCombine JointFacts Pf1 Pf6.
Import ListNotations.

(*PROPS
From Coq Require Import List NArith ZArith Lia Arith Bool Permutation.
From Coq.Init Require Import Byte.
From Verif Require Import GoSem Bytes Spec SpecKr Vector Csprng Pool Polynomial Shamir Libs AES Krawczyk ExData Pf22.
Import ListNotations.
*)

Lemma count_none {A} (P : A -> bool) l : (forall a, In a l -> P a = false) -> count P l = 0.
Proof. intros H. unfold count. induction l as [|a l IH]; [reflexivity|]. cbn [filter]. rewrite (H a (or_introl eq_refl)). apply IH. intros b Hb. apply H. right. exact Hb. Qed.
Lemma count_all_le {A} (P : A -> bool) l : count P l <= length l.
Proof. unfold count. induction l as [|a l IH]; [cbn; lia|]. cbn [filter]. destruct (P a); cbn [length]; lia. Qed.

(** equal counts for every view: equal counts for every test on views *)
Lemma views_tests {A} (f g : A -> list (list byte)) l :
  (forall v, count (fun a => shares_eqb (f a) v) l = count (fun a => shares_eqb (g a) v) l) ->
  forall test : list (list byte) -> bool, count (fun a => test (f a)) l = count (fun a => test (g a)) l.
Proof.
  intros H test. assert (D : forall x y : list (list byte), {x = y} + {x <> y}) by (apply list_eq_dec, list_eq_dec, byte_eq_dec).
  assert (P : Permutation (map f l) (map g l)).
  { apply (Permutation_count_occ D). intros v. rewrite !count_occ_map. transitivity (count (fun a => shares_eqb (f a) v) l).
    - apply count_ext. intros a _. apply bool_iff. rewrite shares_eqb_iff. destruct (D (f a) v); intuition congruence.
    - rewrite H. apply count_ext. intros a _. apply bool_iff. rewrite shares_eqb_iff. destruct (D (g a) v); intuition congruence. }
  assert (C : forall h : A -> list (list byte), count (fun a => test (h a)) l = list_sum (map (fun v : list (list byte) => if test v then 1 else 0) (map h l))).
  { intros h. rewrite map_map. unfold count. clear. induction l as [|a l IH]; [reflexivity|]. cbn [filter map list_sum fold_right]. destruct (test (h a)); cbn [length]; rewrite IH; reflexivity. }
  rewrite !C. apply list_sum_perm, Permutation_map, P.
Qed.

Definition shown (is : list nat) (o : outcome (list (list byte))) : list (list byte) := match o with Ret sh => pick [] sh is | _ => [] end.

Section red.
Context (E : blockCipher) (zp : bool) (ar : arch) (growcap : nat -> nat -> nat) (G : grow_ok growcap)
  (perm : list nat) (P : Permutation perm (seq 0 255)) (polB trB : bbuf) (evBufs : nat -> bbuf)
  (parts threshold : Z) (is : list nat) (C : coalition (Z.to_nat parts) (Z.to_nat threshold) is).

Lemma same_cipher krand krand' s s' c conclude : kr_valid_args zp s parts threshold ->
  ofb_cipher E (map krand (seq 0 16)) s c -> ofb_cipher E (map krand' (seq 0 16)) s' c ->
  count (fun r => match krSplit E zp ar growcap krand perm (stream_of r) polB trB evBufs s parts threshold with Ret sh => conclude (pick [] sh is) | _ => false end) (all_strings (Z.to_nat threshold * 20)) =
  count (fun r => conclude (shown is (krSplit E zp ar growcap krand' perm (stream_of r) polB trB evBufs s' parts threshold))) (all_strings (Z.to_nat threshold * 20)).
Proof.
  intros V O O'.
  assert (LL : length s = length s') by (destruct O as (O1 & _); destruct O' as (O2 & _); congruence).
  assert (V' : kr_valid_args zp s' parts threshold).
  { destruct V as (V1 & V2 & V3). split; [intros ->; apply V1, length_zero_iff_nil; rewrite LL; reflexivity|]. rewrite <- LL. split; assumption. }
  assert (R : forall k s stream, kr_valid_args zp s parts threshold -> exists sh, krSplit E zp ar growcap k perm stream polB trB evBufs s parts threshold = Ret sh).
  { intros k0 s0 st V0. apply (C34_contract_pf E zp ar growcap k0 perm st polB trB evBufs s0 parts threshold G P), V0. }
  rewrite (count_ext _ (fun r => conclude (shown is (krSplit E zp ar growcap krand perm (stream_of r) polB trB evBufs s parts threshold)))).
  2:{ intros r _. destruct (R krand s (stream_of r) V) as (sh & E1). rewrite E1. reflexivity. }
  apply (views_tests (fun r => shown is (krSplit E zp ar growcap krand perm (stream_of r) polB trB evBufs s parts threshold))
                     (fun r => shown is (krSplit E zp ar growcap krand' perm (stream_of r) polB trB evBufs s' parts threshold))).
  intros v.
  assert (X : forall k s0, kr_valid_args zp s0 parts threshold ->
    count (fun r => shares_eqb (shown is (krSplit E zp ar growcap k perm (stream_of r) polB trB evBufs s0 parts threshold)) v) (all_strings (Z.to_nat threshold * 20)) =
    count (fun r => observes (krSplit E zp ar growcap k perm (stream_of r) polB trB evBufs s0 parts threshold) is v) (all_strings (Z.to_nat threshold * 20))).
  { intros k s0 V0. apply count_ext. intros r _. destruct (R k s0 (stream_of r) V0) as (sh & E1). rewrite E1. reflexivity. }
  rewrite (X krand s V), (X krand' s' V').
  destruct (R krand s (stream_of []) V) as (sh & E1). destruct (R krand' s' (stream_of []) V') as (sh' & E2).
  apply (C37_whole_view_pf E zp ar growcap perm polB trB evBufs krand krand' s s' parts threshold is v _ sh sh' G P C E1 E2).
  destruct (krSplit_ok E zp ar growcap krand perm (stream_of []) polB trB evBufs s parts threshold G P V) as (ms & polys & _ & L1 & S1 & E1').
  destruct (krSplit_ok E zp ar growcap krand' perm (stream_of []) polB trB evBufs s' parts threshold G P V') as (ms' & polys' & _ & L2 & S2 & E2').
  rewrite E1' in E1. injection E1 as <-. rewrite E2' in E2. injection E2 as <-. destruct C as (C1 & C2 & C3).
  rewrite !core_pick by exact C2. rewrite !map_map. apply map_ext_in. intros i Hi.
  rewrite !krShare_piece.
  - unfold krPiece. apply ofb_cipher_iff in O. apply ofb_cipher_iff in O'. unfold krCipher. change (take_stream krand 16) with (map krand (seq 0 16)). change (take_stream krand' 16) with (map krand' (seq 0 16)).
    rewrite <- O, <- O'. reflexivity.
  - rewrite (is_sharing_lengths _ _ _ _ _ i S2) by (rewrite L2; apply C2, Hi). rewrite krMeta_length by apply take_stream_length. reflexivity.
  - rewrite (is_sharing_lengths _ _ _ _ _ i S1) by (rewrite L1; apply C2, Hi). rewrite krMeta_length by apply take_stream_length. reflexivity.
Qed.

(** what the simulator does: it runs Split with a key of its own, on the secret that gives the ciphertext *)
Definition kr_sim (c r : list byte) : list (list byte) :=
  shown is (krSplit E zp ar growcap (fun _ => x00) perm (stream_of r) polB trB evBufs (krCipher E (repeat x00 16) c) parts threshold).
Lemma sim_ok krand s c conclude : kr_valid_args zp s parts threshold -> ofb_cipher E (map krand (seq 0 16)) s c ->
  count (fun r => match krSplit E zp ar growcap krand perm (stream_of r) polB trB evBufs s parts threshold with Ret sh => conclude (pick [] sh is) | _ => false end) (all_strings (Z.to_nat threshold * 20)) =
  count (fun r => conclude (kr_sim c r)) (all_strings (Z.to_nat threshold * 20)).
Proof.
  intros V O. apply (same_cipher krand (fun _ => x00) s (krCipher E (repeat x00 16) c) c conclude V O).
  apply ofb_cipher_iff. change (map (fun _ => x00) (seq 0 16)) with (repeat x00 16). unfold krCipher.
  apply (nth_ext _ _ x00 x00); [rewrite !xorStreamFrom_length; reflexivity|]. intros i Hi.
  rewrite !KrawczykFacts.nth_xorStreamFrom by (rewrite ?xorStreamFrom_length; exact Hi). change bxor with gadd. ring.
Qed.
End red.

(** C69. Fewer than [threshold] krawczyk shares of a secret say nothing beyond its ciphertext: there is a simulator that knows the public
    parameters only and, given the ciphertext (not the key, not the secret) and random bytes, produces what the holders of the shares see, and
    whatever they conclude from that they conclude for equally many random strings. *)
Lemma C69_simulator_pf : forall E zp ar growcap perm polB trB evBufs parts threshold is,
  grow_ok growcap -> Permutation perm (seq 0 255) -> coalition (Z.to_nat parts) (Z.to_nat threshold) is ->
  exists simulator : list byte -> list byte -> list (list byte),
    forall krand secret ciphertext (conclude : list (list byte) -> bool),
    kr_valid_args zp secret parts threshold -> ofb_cipher E (map krand (seq 0 16)) secret ciphertext ->
    let strings := all_strings (Z.to_nat threshold * 20) in
    count (fun r => match krSplit E zp ar growcap krand perm (stream_of r) polB trB evBufs secret parts threshold with
                    | Ret shares => conclude (pick [] shares is)
                    | _ => false
                    end) strings =
    count (fun r => conclude (simulator ciphertext r)) strings.
Proof.
  intros E zp ar growcap perm polB trB evBufs parts threshold is G P C. exists (kr_sim E zp ar growcap perm polB trB evBufs parts threshold is).
  intros krand secret c conclude V O. apply sim_ok; assumption.
Qed.

(** C69, as a reduction. The key is drawn at random. Whatever the holders of fewer than [threshold] shares do to learn something about the
    secret, some attack on the ciphertext alone does as well: for every secret it succeeds for exactly as many keys and random strings.
    So shares of two secrets can be told apart no better than their OFB encryptions under a random key. *)
Lemma C69_reduction_pf : forall E zp ar growcap perm polB trB evBufs parts threshold is (conclude : list (list byte) -> bool),
  grow_ok growcap -> Permutation perm (seq 0 255) -> coalition (Z.to_nat parts) (Z.to_nat threshold) is ->
  exists attack : list byte -> list byte -> bool,
    forall secret enc, kr_valid_args zp secret parts threshold ->
    (forall key, In key (all_strings 16) -> ofb_cipher E key secret (enc key)) ->
    let strings := all_strings (Z.to_nat threshold * 20) in
    count (fun kr => match krSplit E zp ar growcap (stream_of (fst kr)) perm (stream_of (snd kr)) polB trB evBufs secret parts threshold with
                     | Ret shares => conclude (pick [] shares is)
                     | _ => false
                     end) (list_prod (all_strings 16) strings) =
    count (fun kr => attack (snd kr) (enc (fst kr))) (list_prod (all_strings 16) strings).
Proof.
  intros E zp ar growcap perm polB trB evBufs parts threshold is conclude G P C.
  exists (fun r c => conclude (kr_sim E zp ar growcap perm polB trB evBufs parts threshold is c r)).
  intros secret enc V HO strings.
  assert (LP : forall (f : list byte * list byte -> bool) ks, count f (list_prod ks strings) = list_sum (map (fun k => count (fun r => f (k, r)) strings) ks)).
  { intros f. induction ks as [|k ks IH]; [reflexivity|]. cbn [list_prod map list_sum fold_right]. rewrite count_app, count_map, IH. reflexivity. }
  rewrite !LP.
  assert (HK : forall k, In k (all_strings 16) -> length k = 16) by (intros k; apply all_strings_in).
  generalize dependent (all_strings 16). intros keys HO HK. f_equal. apply map_ext_in. intros k Hk. cbn [fst snd].
  apply sim_ok; try assumption. replace (map (stream_of k) (seq 0 16)) with k; [apply HO; exact Hk|].
  apply HK in Hk. unfold stream_of. rewrite <- Hk. apply list_as_map.
Qed.

(*COPY
(** A concrete case: a secret of two bytes, its AES-OFB ciphertext, and shares 4 and 1 of a split with those parameters. *)
Example C69_case : coalition 5 3 [4; 1] /\ kr_valid_args true [x68; x69] 5 3 /\
  exists c sh, ofb_cipher AES (map (fun i => i2b (5 * i + 9)) (seq 0 16)) [x68; x69] c /\ c <> [x68; x69] /\
    krSplit AES true ex_ar growcap117 (fun i => i2b (5 * i + 9)) ex_perm (stream_of (map i2b (seq 3 60))) ex_stale ex_stale ex_ev [x68; x69] 5 3 = Ret sh /\
    map (@length byte) (pick [] sh [4; 1]) = [23; 23].
Proof.
  split; [split; [repeat constructor; cbn; lia|split; [cbn; intros; lia|cbn; lia]]|]. split; [split; [discriminate|cbn; repeat split; try lia; auto]|].
  eexists _, _. split; [|split; [|split; [vm_compute; reflexivity|vm_compute; reflexivity]]].
  - instantiate (1 := ltac:(let v := eval vm_compute in (match encrypt AES [x68; x69] (map (fun i => i2b (5 * i + 9)) (seq 0 16)) with Ret c => c | _ => [] end) in exact v)).
    split; [reflexivity|]. intros [|[|i]] H; [vm_compute; reflexivity..|cbn [length] in H; lia].
  - discriminate.
Qed.
END*)
