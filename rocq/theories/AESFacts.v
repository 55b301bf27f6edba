(** The AES model is injective on 16-byte blocks, for every key of 16, 24 or 32 bytes, and produces 16-byte blocks. *)
From Coq Require Import List NArith ZArith Lia Arith Bool.
From Coq.Init Require Import Byte.
From Verif Require Import GoSem Bytes Spec GF GoFacts Libs AES.
Import ListNotations.

Definition sboxInv : list byte := Eval vm_compute in map (fun y => match find (fun x => beq (sbox x) y) all_bytes with Some x => x | None => x00 end) all_bytes.

Lemma sboxInv_ok x : nth (b2i (sbox x)) sboxInv x00 = x.
Proof. apply beq_true. exact (sweep1 (fun x => beq (nth (b2i (sbox x)) sboxInv x00) x) ltac:(vm_compute; reflexivity) x). Qed.

Lemma sbox_inj a b : sbox a = sbox b -> a = b.
Proof. intros H. rewrite <- (sboxInv_ok a), <- (sboxInv_ok b), H. reflexivity. Qed.

Lemma xtime_add a b : xtime (bxor a b) = bxor (xtime a) (xtime b).
Proof. apply beq_true. exact (sweep2 (fun a b => beq (xtime (bxor a b)) (bxor (xtime a) (xtime b))) ltac:(vm_compute; reflexivity) a b). Qed.

Lemma map_inj {A B} (f : A -> B) : (forall a b, f a = f b -> a = b) -> forall l m, map f l = map f m -> l = m.
Proof.
  intros I l. induction l as [|a l IH]; intros [|b m] E; cbn in E; try discriminate; [reflexivity|].
  injection E as E1 E2. rewrite (I _ _ E1), (IH _ E2). reflexivity.
Qed.

Lemma xorl_length a b : length (xorl a b) = Nat.min (length a) (length b).
Proof. unfold xorl. rewrite map_length, combine_length. reflexivity. Qed.

Lemma bxor_cancel_r a b c : bxor a c = bxor b c -> a = b.
Proof.
  intros E. assert (bxor (bxor a c) c = bxor (bxor b c) c) by (rewrite E; reflexivity).
  rewrite <- !bxor_assoc, <- (gadd_bxor c c), gadd_self, <- !gadd_bxor, !gadd_0_r in H. exact H.
Qed.

Lemma xorl_inj k : forall a b, length a = length k -> length b = length k -> xorl a k = xorl b k -> a = b.
Proof.
  unfold xorl. induction k as [|c k IH]; intros [|x a] [|y b] La Lb E; cbn in La, Lb; try discriminate; [reflexivity|].
  cbn in E. injection E as E1 E2. apply bxor_cancel_r in E1. rewrite E1. f_equal. apply IH; [lia|lia|exact E2].
Qed.

(** a list of 16 bytes *)
Lemma list16 (s : list byte) : length s = 16 -> exists a0 a1 a2 a3 a4 a5 a6 a7 a8 a9 aa ab ac ad ae af,
  s = [a0; a1; a2; a3; a4; a5; a6; a7; a8; a9; aa; ab; ac; ad; ae; af].
Proof.
  intros H. do 16 (destruct s as [|? s]; [discriminate|]). destruct s; [|discriminate]. repeat eexists.
Qed.

Lemma shiftRows_length s : length (shiftRows s) = 16.
Proof. reflexivity. Qed.
Lemma mixColumns_length s : length (mixColumns s) = 16.
Proof. reflexivity. Qed.

Lemma shiftRows_inj a b : length a = 16 -> length b = 16 -> shiftRows a = shiftRows b -> a = b.
Proof.
  intros Ha Hb E. destruct (list16 a Ha) as (?&?&?&?&?&?&?&?&?&?&?&?&?&?&?&?&->). destruct (list16 b Hb) as (?&?&?&?&?&?&?&?&?&?&?&?&?&?&?&?&->).
  unfold shiftRows in E. cbn [seq map Nat.modulo Nat.divmod fst snd Nat.sub Nat.add Nat.mul nth] in E. congruence.
Qed.

(** one column *)
Definition mix (a b c d : byte) : byte := bxor (bxor (xtime a) (bxor (xtime b) b)) (bxor c d).

Lemma mixColumns_cols a0 a1 a2 a3 a4 a5 a6 a7 a8 a9 aa ab ac ad ae af :
  mixColumns [a0; a1; a2; a3; a4; a5; a6; a7; a8; a9; aa; ab; ac; ad; ae; af] =
  [mix a0 a1 a2 a3; mix a1 a2 a3 a0; mix a2 a3 a0 a1; mix a3 a0 a1 a2;
   mix a4 a5 a6 a7; mix a5 a6 a7 a4; mix a6 a7 a4 a5; mix a7 a4 a5 a6;
   mix a8 a9 aa ab; mix a9 aa ab a8; mix aa ab a8 a9; mix ab a8 a9 aa;
   mix ac ad ae af; mix ad ae af ac; mix ae af ac ad; mix af ac ad ae].
Proof. reflexivity. Qed.

(** applying the column map twice gives 5a + 4c, four times gives a *)
Definition mix2 (a c : byte) : byte := bxor (bxor (xtime (xtime a)) a) (xtime (xtime c)).

Lemma mix_mix a b c d : mix (mix a b c d) (mix b c d a) (mix c d a b) (mix d a b c) = mix2 a c.
Proof.
  unfold mix, mix2. rewrite !xtime_add. generalize (xtime (xtime a)), (xtime (xtime b)), (xtime (xtime c)), (xtime a), (xtime b), (xtime c), (xtime d).
  intros. change bxor with gadd. ring.
Qed.

Lemma mix2_mix2 a c : mix2 (mix2 a c) (mix2 c a) = a.
Proof.
  unfold mix2. rewrite !xtime_add. generalize (xtime (xtime (xtime (xtime a)))), (xtime (xtime (xtime (xtime c)))), (xtime (xtime a)), (xtime (xtime c)).
  intros. change bxor with gadd. ring.
Qed.

Lemma mixColumns_4 s : length s = 16 -> mixColumns (mixColumns (mixColumns (mixColumns s))) = s.
Proof.
  intros H. destruct (list16 s H) as (?&?&?&?&?&?&?&?&?&?&?&?&?&?&?&?&->). rewrite !mixColumns_cols. rewrite !mix_mix, !mix2_mix2. reflexivity.
Qed.

Lemma mixColumns_inj a b : length a = 16 -> length b = 16 -> mixColumns a = mixColumns b -> a = b.
Proof. intros Ha Hb E. rewrite <- (mixColumns_4 a Ha), <- (mixColumns_4 b Hb), E. reflexivity. Qed.

(** the key schedule *)
Definition words4 (ws : list (list byte)) : Prop := Forall (fun w => length w = 4) ws.

Lemma words4_nth ws i : words4 ws -> i < length ws -> length (nth i ws []) = 4.
Proof. intros W H. unfold words4 in W. rewrite Forall_forall in W. apply W, nth_In, H. Qed.

Lemma expand_words nk : 0 < nk -> forall steps i rcon ws, words4 ws -> length ws = i -> nk <= i ->
  words4 (expand nk steps i rcon ws) /\ length (expand nk steps i rcon ws) = i + steps.
Proof.
  intros Hnk. induction steps as [|steps IH]; intros i rcon ws W L Hi; cbn [expand]; [split; [exact W|lia]|].
  assert (P : length (nth (i - 1) ws []) = 4) by (apply words4_nth; [exact W|lia]).
  assert (Q : length (nth (i - nk) ws []) = 4) by (apply words4_nth; [exact W|lia]).
  match goal with |- context [let '(_, _) := ?e in _] => remember e as te eqn:E end. destruct te as [t rc].
  assert (T : length t = 4).
  { destruct (i mod nk =? 0) eqn:C1; [|destruct ((6 <? nk) && (i mod nk =? 4)) eqn:C2].
    - injection E as -> _. rewrite xorl_length, map_length, app_length. destruct (nth (i - 1) ws []) as [|w0 w]; [discriminate|]. cbn [length skipn firstn] in *. lia.
    - injection E as -> _. rewrite map_length. exact P.
    - injection E as -> _. exact P. }
  destruct (IH (S i) rc (ws ++ [xorl (nth (i - nk) ws []) t])) as (A & B).
  - apply Forall_app. split; [exact W|]. constructor; [|constructor]. rewrite xorl_length. lia.
  - rewrite app_length. cbn [length]. lia.
  - lia.
  - split; [exact A|]. rewrite B. lia.
Qed.

Lemma concat4 ws : words4 ws -> length (concat ws) = 4 * length ws.
Proof. intros W. induction W as [|w ws Hw W IH]; cbn; [reflexivity|]. rewrite app_length. lia. Qed.

Lemma words4_window ws r : words4 ws -> 4 * (r + 1) <= length ws -> length (concat (firstn 4 (skipn (4 * r) ws))) = 16.
Proof.
  intros W H. assert (W' : words4 (firstn 4 (skipn (4 * r) ws))).
  { unfold words4 in *. rewrite Forall_forall in *. intros x Hx. apply W.
    rewrite <- (firstn_skipn (4 * r) ws). apply in_or_app. right. rewrite <- (firstn_skipn 4 (skipn (4 * r) ws)). apply in_or_app. left. exact Hx. }
  rewrite concat4 by exact W'. rewrite firstn_length, skipn_length. lia.
Qed.

Definition roundKey (key : list byte) (r : nat) : list byte :=
  let nk := length key / 4 in
  let ws := expand nk (4 * (nk + 6 + 1) - nk) nk x01 (map (fun i => firstn 4 (skipn (4 * i) key)) (seq 0 nk)) in
  concat (firstn 4 (skipn (4 * r) ws)).

Lemma roundKey_length key r : aesKeyOk key = true -> r <= length key / 4 + 6 -> length (roundKey key r) = 16.
Proof.
  intros K Hr. unfold roundKey. cbv zeta.
  assert (HK : length key = 4 * (length key / 4) /\ 4 <= length key / 4).
  { unfold aesKeyOk in K. apply orb_true_iff in K as [K|K]; [apply orb_true_iff in K as [K|K]|]; apply Nat.eqb_eq in K; rewrite K; cbv; lia. }
  destruct HK as (HK1 & HK2). set (nk := length key / 4) in *.
  destruct (expand_words nk ltac:(lia) (4 * (nk + 6 + 1) - nk) nk x01 (map (fun i => firstn 4 (skipn (4 * i) key)) (seq 0 nk))) as (A & B).
  - unfold words4. rewrite Forall_forall. intros w Hw. apply in_map_iff in Hw as (i & <- & Hi). apply in_seq in Hi. rewrite firstn_length, skipn_length. lia.
  - rewrite map_length, seq_length. reflexivity.
  - lia.
  - apply words4_window; [exact A|]. rewrite B. lia.
Qed.

Lemma AES_eq key block : AES key block =
  xorl (shiftRows (map sbox (fold_left (fun s r => xorl (mixColumns (shiftRows (map sbox s))) (roundKey key r))
    (seq 1 (length key / 4 + 6 - 1)) (xorl block (roundKey key 0))))) (roundKey key (length key / 4 + 6)).
Proof. reflexivity. Qed.

Lemma rounds_ok key : forall rs, (forall r, In r rs -> length (roundKey key r) = 16) ->
  let f := fold_left (fun s r => xorl (mixColumns (shiftRows (map sbox s))) (roundKey key r)) rs in
  (forall s, length s = 16 -> length (f s) = 16) /\ (forall a b, length a = 16 -> length b = 16 -> f a = f b -> a = b).
Proof.
  induction rs as [|r rs IH]; intros H f; [split; [auto|intros a b _ _ E; exact E]|].
  destruct IH as (L & I); [intros; apply H; right; assumption|]. assert (Hr : length (roundKey key r) = 16) by (apply H; left; reflexivity).
  assert (S1 : forall s, length (xorl (mixColumns (shiftRows (map sbox s))) (roundKey key r)) = 16) by (intros; rewrite xorl_length, mixColumns_length, Hr; reflexivity).
  split.
  - intros s Hs. unfold f. cbn [fold_left]. apply L, S1.
  - intros a b Ha Hb E. unfold f in E. cbn [fold_left] in E. apply I in E; [|apply S1|apply S1].
    apply xorl_inj in E; [|rewrite Hr; reflexivity|rewrite Hr; reflexivity].
    apply mixColumns_inj in E; [|apply shiftRows_length|apply shiftRows_length].
    apply shiftRows_inj in E; [|rewrite map_length; assumption|rewrite map_length; assumption].
    apply map_inj in E; [exact E|exact sbox_inj].
Qed.

Lemma AES_length key block : aesKeyOk key = true -> length (AES key block) = 16.
Proof.
  intros K. rewrite AES_eq, xorl_length, shiftRows_length, roundKey_length by (try exact K; lia). reflexivity.
Qed.

Lemma AES_inj key a b : aesKeyOk key = true -> length a = 16 -> length b = 16 -> AES key a = AES key b -> a = b.
Proof.
  intros K Ha Hb E. rewrite !AES_eq in E.
  destruct (rounds_ok key (seq 1 (length key / 4 + 6 - 1))) as (L & I).
  { intros r Hr. apply in_seq in Hr. apply roundKey_length; [exact K|lia]. }
  assert (R0 : length (roundKey key 0) = 16) by (apply roundKey_length; [exact K|lia]).
  assert (L0 : forall s, length s = 16 -> length (xorl s (roundKey key 0)) = 16) by (intros s Hs; rewrite xorl_length; lia).
  apply xorl_inj in E; [|rewrite roundKey_length by (try exact K; lia); reflexivity|rewrite roundKey_length by (try exact K; lia); reflexivity].
  apply shiftRows_inj in E; [|rewrite map_length; apply L, L0, Ha|rewrite map_length; apply L, L0, Hb].
  apply map_inj in E; [|exact sbox_inj]. apply I in E; [|apply L0, Ha|apply L0, Hb].
  apply xorl_inj in E; [exact E|lia|lia].
Qed.

(** the counter *)
Lemma be_num_app l b : be_num (l ++ [b]) = (be_num l * 256 + b2n b)%N.
Proof. unfold be_num. rewrite fold_left_app. reflexivity. Qed.

Lemma be_bytes_num l : be_bytes (length l) (be_num l) = l.
Proof.
  induction l as [|b l IH] using rev_ind; [reflexivity|]. rewrite app_length, Nat.add_1_r. cbn [be_bytes]. rewrite be_num_app.
  pose proof (b2n_lt b).
  replace ((be_num l * 256 + b2n b) / 256)%N with (be_num l); [rewrite IH; f_equal; f_equal|].
  - apply b2n_inj. unfold n2b. rewrite <- (n2b_b2n b) at 2. unfold n2b. f_equal. 
    rewrite N.add_comm, N.mod_add by lia. rewrite !N.mod_small by lia. reflexivity.
  - apply N.div_unique with (b2n b); lia.
Qed.
