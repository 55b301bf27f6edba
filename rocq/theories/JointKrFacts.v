(** Joint secrecy of many splits with shamir and krawczyk, relative to the cipher (C75). *)
From Coq Require Import List NArith ZArith Lia Arith Bool Permutation.
From Coq.Init Require Import Byte.
From Verif Require Import GoSem Bytes Spec SpecKr Vector Csprng Pool Polynomial Shamir SplitP Libs Krawczyk GoFacts GF PolyFacts PolynomialFacts SplitFacts CombineFacts Secrecy CountFacts SplitPFacts Derived KrawczykFacts Pf1 Pf6 SpecJoint JointFacts Pf22 SpecJointKr.
Import ListNotations.
Local Opaque all_strings.

(** sums *)
Lemma sum_ext {A} (f g : A -> nat) l : (forall a, In a l -> f a = g a) -> list_sum (map f l) = list_sum (map g l).
Proof. intros H. rewrite (map_ext_in f g l H). reflexivity. Qed.
Lemma sum_const {A} (l : list A) c : list_sum (map (fun _ => c) l) = length l * c.
Proof. induction l as [|a l IH]; [reflexivity|]. cbn [map list_sum fold_right length Nat.mul]. unfold list_sum in *. lia. Qed.
Lemma sum_scale {A} (f : A -> nat) l c : list_sum (map (fun a => c * f a) l) = c * list_sum (map f l).
Proof. induction l as [|a l IH]; [cbn; lia|]. cbn [map list_sum fold_right]. unfold list_sum in *. rewrite IH. lia. Qed.
Lemma sum_strings a b (F : list byte -> nat) :
  list_sum (map F (all_strings (a + b))) = list_sum (map (fun r1 => list_sum (map (fun r2 => F (r1 ++ r2)) (all_strings b))) (all_strings a)).
Proof.
  Local Transparent all_strings.
  revert F. induction a as [|a IH]; intros F.
  - cbn [Nat.add all_strings map list_sum fold_right app]. rewrite Nat.add_0_r. reflexivity.
  - cbn [Nat.add all_strings]. rewrite !flat_map_maps, !list_sum_flat_map. f_equal. apply map_ext. intros x. rewrite !map_map, IH. reflexivity.
  Local Opaque all_strings.
Qed.
Lemma count_prod {A B} (f : A * B -> bool) xs ys : count f (list_prod xs ys) = list_sum (map (fun x => count (fun y => f (x, y)) ys) xs).
Proof. induction xs as [|k ks IH]; [reflexivity|]. cbn [list_prod map list_sum fold_right]. rewrite count_app, count_map, IH. reflexivity. Qed.
Lemma count_sum {A} (f : A -> bool) l : count f l = list_sum (map (fun a => if f a then 1 else 0) l).
Proof. unfold count. induction l as [|a l IH]; [reflexivity|]. cbn [filter map list_sum fold_right]. destruct (f a); cbn [length]; rewrite IH; reflexivity. Qed.

Section game.
Context (E : blockCipher) (enc : list byte -> list byte -> list byte) (Henc : forall key m, length key = 16 -> ofb_cipher E key m (enc key m))
  (zp : bool) (ar : arch) (growcap : nat -> nat -> nat) (G : grow_ok growcap).

Definition bytes_dec : forall x y : list byte, {x = y} + {x <> y} := list_eq_dec byte_eq_dec.

(** does the breaker have to ask for a ciphertext? *)
Definition wants (r : request) : option (list byte * list byte) :=
  match r with
  | RShamir _ => None
  | RKrawczyk q => if bytes_dec (q_left q) (q_right q) then None else Some (q_left q, q_right q)
  end.
(** what the breaker shows, given the ciphertext *)
Definition fakes (r : request) (c : option (list byte)) (coins : list byte) : option (list (list byte)) :=
  match r, c with
  | RKrawczyk q, Some c =>
      Some (kr_sim E zp ar growcap (q_perm q) [] [] (fun _ => []) (q_parts q) (q_threshold q) (q_show q) c (firstn (Z.to_nat (q_threshold q) * 20) (skipn 16 coins)))
  | _, _ => shows true E zp ar growcap empty (stream_of coins) r
  end.

Lemma kr_valid_eq_length s s' parts threshold : length s = length s' -> kr_valid_args zp s parts threshold -> kr_valid_args zp s' parts threshold.
Proof.
  intros LL (V1 & V2 & V3). split; [intros ->; apply V1, length_zero_iff_nil; rewrite LL; reflexivity|]. rewrite <- LL. split; assumption.
Qed.

Lemma krSplit_ext k1 k2 perm s1 s2 p1 p2 t1 t2 e1 e2 secret parts threshold : Permutation perm (seq 0 255) -> kr_valid_args zp secret parts threshold ->
  (forall i, i < 16 -> k1 i = k2 i) -> (forall i, i < Z.to_nat threshold * 20 -> s1 i = s2 i) ->
  krSplit E zp ar growcap k1 perm s1 p1 t1 e1 secret parts threshold = krSplit E zp ar growcap k2 perm s2 p2 t2 e2 secret parts threshold.
Proof.
  intros P V HK HS. pose proof V as (_ & _ & H2 & H3 & H4 & _).
  destruct (krSplit_ok E zp ar growcap k1 perm s1 p1 t1 e1 secret parts threshold G P V) as (ms & po & A1 & _ & _ & A2).
  destruct (krSplit_ok E zp ar growcap k2 perm s2 p2 t2 e2 secret parts threshold G P V) as (ms' & po' & B1 & _ & _ & B2).
  rewrite A2, B2. rewrite (take_stream_ext k1 k2 16 HK) in *. assert (ms = ms') as ->; [|reflexivity].
  assert (L20 : length (krMeta (take_stream k2 16) (length secret)) = 20) by (apply krMeta_length, take_stream_length).
  assert (CK : checkArgs (krMeta (take_stream k2 16) (length secret)) parts threshold = None).
  { apply valid_checkArgs. apply meta_valid; try assumption. apply take_stream_length. }
  assert (PP : (parts <= Z.of_nat (length perm))%Z) by (rewrite (Permutation_length P), seq_length; lia).
  rewrite Split_ok in A1 by assumption. rewrite Split_ok in B1 by assumption. rewrite L20 in A1, B1.
  rewrite (take_stream_ext s1 s2 _ HS) in A1. rewrite A1 in B1. injection B1. auto.
Qed.

Lemma shows_reads left b1 b2 s1 s2 r : fair_request zp r -> (forall i, i < consumes r -> s1 i = s2 i) ->
  shows left E zp ar growcap b1 s1 r = shows left E zp ar growcap b2 s2 r.
Proof.
  destruct r as [q|q]; cbn [fair_request consumes shows]; intros F H; [apply answer_reads; assumption|].
  destruct F as (P & V & LL & _).
  assert (V' : kr_valid_args zp (if left then q_left q else q_right q) (q_parts q) (q_threshold q)) by (destruct left; [exact V|exact (kr_valid_eq_length _ _ _ _ LL V)]).
  rewrite (krSplit_ext s1 s2 (q_perm q) (fun i => s1 (16 + i)) (fun i => s2 (16 + i)) (s_pol b1) (s_pol b2) (s_tr b1) (s_tr b2) (s_ev b1) (s_ev b2) _ _ _ P V'); [reflexivity| |].
  - intros i Hi. apply H. lia.
  - intros i Hi. apply H. lia.
Qed.

Lemma share_game_ext left att : (forall h, fair_request zp (att h)) -> forall n b1 b2 s1 s2 B h, (forall h, consumes (att h) <= B) -> (forall i, i < n * B -> s1 i = s2 i) ->
  share_game left E zp ar growcap att b1 n s1 h = share_game left E zp ar growcap att b2 n s2 h.
Proof.
  intros F. induction n as [|n IH]; intros b1 b2 s1 s2 B h HB H; [reflexivity|]. cbn [share_game]. cbv zeta. pose proof (HB h) as Hh.
  rewrite (shows_reads left (b1 n) (b2 n) s1 s2) by (try apply F; try assumption; intros i Hi; apply H; nia).
  apply (IH b1 b2 _ _ B); [exact HB|]. intros i Hi. apply H. nia.
Qed.

(** ** one request *)
Lemma fakes_app r c c1 c2 : fair_request zp r -> length c1 = consumes r -> fakes r c (c1 ++ c2) = fakes r c c1.
Proof.
  intros F L.
  assert (H : shows true E zp ar growcap empty (stream_of (c1 ++ c2)) r = shows true E zp ar growcap empty (stream_of c1) r).
  { apply shows_reads; [exact F|]. intros i Hi. unfold stream_of. apply app_nth1. lia. }
  destruct r as [q|q]; [exact H|]. destruct c as [c|]; [|exact H]. cbn [fakes consumes] in *.
  rewrite skipn_app. replace (16 - length c1) with 0 by lia. rewrite skipn_O, firstn_app.
  replace (Z.to_nat (q_threshold q) * 20 - length (skipn 16 c1)) with 0 by (rewrite skipn_length; lia). cbn [firstn]. rewrite app_nil_r. reflexivity.
Qed.

Lemma request_sum left r (F : option (list (list byte)) -> nat) : fair_request zp r ->
  length (all_strings 16) * list_sum (map (fun r1 => F (shows left E zp ar growcap empty (stream_of r1) r)) (all_strings (consumes r))) =
  list_sum (map (fun k => list_sum (map (fun c1 => F (fakes r (option_map (fun '(x, y) => enc k (if left then x else y)) (wants r)) c1)) (all_strings (consumes r)))) (all_strings 16)).
Proof.
  intros FR. destruct r as [q|q].
  - cbn [wants option_map fakes]. rewrite sum_const. f_equal. cbn [shows consumes]. destruct left; [reflexivity|].
    symmetry. apply (equal_sums view_dec (fun r1 => answer true ar growcap empty (stream_of r1) q) (fun r1 => answer false ar growcap empty (stream_of r1) q)).
    intros test. apply answer_any; assumption.
  - cbn [wants]. destruct (bytes_dec (q_left q) (q_right q)) as [EQ|NE].
    + cbn [option_map fakes]. rewrite sum_const. f_equal. apply sum_ext. intros r1 _. cbn [shows]. rewrite EQ. destruct left; reflexivity.
    + destruct FR as (P & V & LL & [C|EQ]); [|contradiction]. cbn [option_map fakes consumes shows].
      rewrite sum_strings, <- sum_scale. 
      set (s := if left then q_left q else q_right q). set (t20 := Z.to_nat (q_threshold q) * 20).
      assert (V' : kr_valid_args zp s (q_parts q) (q_threshold q)) by (unfold s; destruct left; [exact V|exact (kr_valid_eq_length _ _ _ _ LL V)]).
      assert (HK : forall k, In k (all_strings 16) -> length k = 16) by (intros k; apply all_strings_in).
      apply sum_ext. intros k Hk. apply HK in Hk.
      set (sim := kr_sim E zp ar growcap (q_perm q) [] [] (fun _ => []) (q_parts q) (q_threshold q) (q_show q) (enc k s)).
      rewrite (sum_strings 16 t20). symmetry.
      etransitivity; [apply (sum_ext _ (fun _ => list_sum (map (fun r2 => F (Some (sim r2))) (all_strings t20))))|].
      { intros k' Hk'. apply HK in Hk'. apply sum_ext. intros r2 Hr2. apply all_strings_in in Hr2. f_equal. f_equal. unfold sim. f_equal.
          rewrite skipn_app, Hk'. change (16 - 16) with 0. rewrite skipn_all2 by lia. cbn [skipn app]. apply firstn_all2. unfold t20 in Hr2. lia. }
      rewrite sum_const. f_equal. symmetry.
      transitivity (list_sum (map (fun r2 => F (match krSplit E zp ar growcap (stream_of k) (q_perm q) (stream_of r2) [] [] (fun _ => []) s (q_parts q) (q_threshold q) with
                     | Ret shares => Some (pick [] shares (q_show q)) | _ => None end)) (all_strings t20))).
      { apply sum_ext. intros r2 Hr2. cbn [empty s_pol s_tr s_ev].
        rewrite (krSplit_ext (stream_of (k ++ r2)) (stream_of k) (q_perm q) (fun i => stream_of (k ++ r2) (16 + i)) (stream_of r2) [] [] [] [] (fun _ => []) (fun _ => []) s (q_parts q) (q_threshold q) P V'); [reflexivity| |].
        - intros i Hi. unfold stream_of. apply app_nth1. lia.
        - intros i Hi. unfold stream_of. rewrite app_nth2 by lia. f_equal. lia. }
      apply (equal_sums view_dec (fun r2 => match krSplit E zp ar growcap (stream_of k) (q_perm q) (stream_of r2) [] [] (fun _ => []) s (q_parts q) (q_threshold q) with
                     | Ret shares => Some (pick [] shares (q_show q)) | _ => None end) (fun r2 => Some (sim r2)) (all_strings t20) F).
      intros test. refine (eq_trans _ (sim_ok E zp ar growcap G (q_perm q) P [] [] (fun _ => []) (q_parts q) (q_threshold q) (q_show q) C (stream_of k) s (enc k s) (fun v => test (Some v)) V' _)).
      * apply count_ext. intros r2 _.
        destruct (krSplit_ok E zp ar growcap (stream_of k) (q_perm q) (stream_of r2) [] [] (fun _ => []) s (q_parts q) (q_threshold q) G P V') as (ms & po & _ & _ & _ & A2).
        rewrite A2. reflexivity.
      * replace (map (stream_of k) (seq 0 16)) with k; [apply Henc, Hk|]. unfold stream_of. rewrite <- Hk. apply list_as_map.
Qed.

(** ** the whole game *)
Context (att : history -> request) (FA : forall h, fair_request zp (att h)) (B : nat) (HB : forall h, consumes (att h) <= B).

Fixpoint fake_game (left : bool) (n : nat) (keys coins : list byte) (h : history) : history :=
  match n with
  | O => h
  | S k => let r := att h in
           fake_game left k (skipn 16 keys) (skipn (consumes r) coins)
             (fakes r (option_map (fun '(x, y) => enc (firstn 16 keys) (if left then x else y)) (wants r)) coins :: h)
  end.

Lemma fake_game_app left n : forall keys c1 c2 h, n * B <= length c1 -> fake_game left n keys (c1 ++ c2) h = fake_game left n keys c1 h.
Proof.
  induction n as [|n IH]; intros keys c1 c2 h L; [reflexivity|]. cbn [fake_game]. cbv zeta. pose proof (HB h) as Hh.
  set (r := att h) in *.
  assert (S1 : skipn (consumes r) (c1 ++ c2) = skipn (consumes r) c1 ++ c2).
  { rewrite skipn_app. replace (consumes r - length c1) with 0 by nia. reflexivity. }
  rewrite S1.
  assert (S2 : forall o, fakes r o (c1 ++ c2) = fakes r o c1).
  { intros o. rewrite <- (firstn_skipn (consumes r) c1) at 1. rewrite <- app_assoc. rewrite fakes_app by (try apply FA; rewrite firstn_length; nia).
    rewrite <- (firstn_skipn (consumes r) c1) at 2. symmetry. apply fakes_app; [apply FA|rewrite firstn_length; nia]. }
  rewrite S2. apply IH. rewrite skipn_length. nia.
Qed.

Lemma games_equal left conclude : forall n M h, n * B <= M ->
  count (fun r => conclude (share_game left E zp ar growcap att (fun _ => empty) n (stream_of r) h)) (all_strings (16 * n + M)) =
  list_sum (map (fun keys => count (fun coins => conclude (fake_game left n keys coins h)) (all_strings M)) (all_strings (16 * n))).
Proof.
  induction n as [|n IH]; intros M h HM.
  - cbn [share_game fake_game]. change (16 * 0) with 0.
    Local Transparent all_strings. change (all_strings 0) with [@nil byte]. Local Opaque all_strings.
    cbn [map list_sum fold_right Nat.add]. rewrite Nat.add_0_r. reflexivity.
  - cbn [share_game fake_game]. cbv zeta. set (q := att h). pose proof (HB h) as Hq. fold q in Hq.
    replace (16 * S n + M) with (consumes q + (16 * n + (16 + (M - consumes q)))) by nia. rewrite count_strings.
    set (F := fun a => list_sum (map (fun keys => count (fun coins => conclude (fake_game left n keys coins (a :: h))) (all_strings (M - consumes q))) (all_strings (16 * n)))).
    transitivity (list_sum (map (fun r1 => length (all_strings 16) * F (shows left E zp ar growcap empty (stream_of r1) q)) (all_strings (consumes q)))).
    { apply sum_ext. intros r1 H1. apply all_strings_in in H1.
      transitivity (count (fun r2 => conclude (share_game left E zp ar growcap att (fun _ => empty) n (stream_of r2) (shows left E zp ar growcap empty (stream_of r1) q :: h))) (all_strings (16 * n + (16 + (M - consumes q))))).
      { apply count_ext. intros r2 _. apply (f_equal conclude).
        rewrite (shows_reads left empty empty (stream_of (r1 ++ r2)) (stream_of r1)) by (try apply FA; intros i Hi; unfold stream_of; apply app_nth1; lia).
        apply (share_game_ext left att FA n _ _ _ _ B); [exact HB|]. intros i _. unfold stream_of. rewrite app_nth2 by lia. f_equal. lia. }
      rewrite IH by nia. unfold F. rewrite <- sum_scale. apply sum_ext. intros keys _.
      rewrite (Nat.add_comm 16), count_strings.
      rewrite (sum_ext _ (fun c1 => length (all_strings 16) * (if conclude (fake_game left n keys c1 (shows left E zp ar growcap empty (stream_of r1) q :: h)) then 1 else 0))).
      2:{ intros c1 Hc1. apply all_strings_in in Hc1. rewrite count_sum. rewrite <- sum_const. apply sum_ext. intros c2 _. rewrite fake_game_app by nia. reflexivity. }
      rewrite sum_scale, <- count_sum. reflexivity. }
    rewrite sum_scale. rewrite (request_sum left q F) by apply FA.
    replace (16 * S n) with (16 + 16 * n) by lia. rewrite sum_strings. apply sum_ext. intros k Hk. apply all_strings_in in Hk.
    unfold F.
    replace (all_strings M) with (all_strings (consumes q + (M - consumes q))) by (f_equal; nia).
    transitivity (list_sum (map (fun c1 => list_sum (map (fun keys => count (fun coins => conclude (fake_game left n keys coins
        (fakes q (option_map (fun '(x, y) => enc k (if left then x else y)) (wants q)) c1 :: h))) (all_strings (M - consumes q))) (all_strings (16 * n)))) (all_strings (consumes q)))); [reflexivity|].
    transitivity (list_sum (map (fun keys => list_sum (map (fun c1 => count (fun coins => conclude (fake_game left n keys coins
        (fakes q (option_map (fun '(x, y) => enc k (if left then x else y)) (wants q)) c1 :: h))) (all_strings (M - consumes q))) (all_strings (consumes q)))) (all_strings (16 * n)))).
    { generalize (all_strings (consumes q)) as xs. generalize (all_strings (16 * n)) as ys. intros ys xs.
      assert (SW : forall (g : list byte -> list byte -> nat), list_sum (map (fun x => list_sum (map (fun y => g x y) ys)) xs) = list_sum (map (fun y => list_sum (map (fun x => g x y) xs)) ys)).
      { intros g. induction xs as [|x xs IHx]; cbn [map list_sum fold_right].
        - rewrite sum_const. lia.
        - unfold list_sum in IHx at 1. rewrite IHx. clear. induction ys as [|y ys IHy]; [reflexivity|]. cbn [map list_sum fold_right] in *. unfold list_sum in *. lia. }
      apply SW. }
    apply sum_ext. intros keys _. rewrite count_strings. apply sum_ext. intros c1 Hc1. apply all_strings_in in Hc1. apply count_ext. intros c2 _. apply (f_equal conclude).
    rewrite fakes_app by (try apply FA; assumption).
    assert (K1 : firstn 16 (k ++ keys) = k) by (rewrite firstn_app, Hk; change (16 - 16) with 0; rewrite firstn_O, app_nil_r; apply firstn_all2; lia).
    assert (K2 : skipn 16 (k ++ keys) = keys) by (rewrite skipn_app, Hk; change (16 - 16) with 0; rewrite skipn_all2 by lia; reflexivity).
    assert (K3 : skipn (consumes q) (c1 ++ c2) = c2) by (rewrite skipn_app, Hc1, Nat.sub_diag, skipn_all2 by lia; reflexivity).
    rewrite K1, K2, K3. reflexivity.
Qed.

(** ** the breaker *)
Fixpoint replay (coins : list byte) (h : history) (cs : list (option (list byte))) : list byte * history :=
  match cs with
  | [] => (coins, h)
  | c :: cs' => replay (skipn (consumes (att h)) coins) (fakes (att h) c coins :: h) cs'
  end.
Lemma replay_snoc cs c : forall coins h, replay coins h (cs ++ [c]) =
  let '(coins', h') := replay coins h cs in (skipn (consumes (att h')) coins', fakes (att h') c coins' :: h').
Proof. induction cs as [|c0 cs IH]; intros coins h; [reflexivity|]. cbn [app replay]. apply IH. Qed.

Definition the_breaker (conclude : history -> bool) : breaker :=
  {| hand_in := fun coins seen => wants (att (snd (replay coins [] (rev seen))));
     verdict := fun coins seen => conclude (snd (replay coins [] (rev seen))) |}.

Lemma breaker_plays left conclude : forall n keys coins seen,
  cipher_game left enc (the_breaker conclude) n keys coins seen =
  conclude (let '(coins', h) := replay coins [] (rev seen) in fake_game left n keys coins' h).
Proof.
  induction n as [|n IH]; intros keys coins seen.
  - cbn [cipher_game the_breaker verdict fake_game]. destruct (replay coins [] (rev seen)). reflexivity.
  - cbn [cipher_game]. cbv zeta. rewrite IH. cbn [rev]. rewrite replay_snoc. cbn [the_breaker hand_in].
    destruct (replay coins [] (rev seen)) as [coins' h]. cbn [snd fake_game]. cbv zeta.
    assert (X : match wants (att h) with Some (l, r) => Some (enc (firstn 16 keys) (if left then l else r)) | None => None end =
                option_map (fun '(x, y) => enc (firstn 16 keys) (if left then x else y)) (wants (att h))) by (destruct (wants (att h)) as [[x y]|]; reflexivity).
    rewrite X. reflexivity.
Qed.
End game.
