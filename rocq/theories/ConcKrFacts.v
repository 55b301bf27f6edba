(** Secrecy of concurrent calls including krawczyk.Split, relative to the cipher (C79). *)
From Coq Require Import List NArith ZArith Lia Arith Bool Permutation.
From Coq.Init Require Import Byte.
From Verif Require Import GoSem Bytes Spec SpecKr Vector Csprng Pool Polynomial Shamir SplitP Libs Krawczyk GoFacts GF VectorFacts PolynomialFacts SplitFacts CombineFacts Secrecy CountFacts
  SplitPFacts Derived KrawczykFacts KrawczykCombine Pf6 JointFacts ConcRand SpecConcRand ConcRandFacts ConcRandSecret SpecConcKr.
From Verif Require SpecJointKr JointKrFacts.
Import ListNotations.
Local Opaque all_strings.

Lemma rel_zero_mask {A} (Bd : nat -> Prop) R (k k' : list byte -> rprog A) l n : Bd l -> (forall c, length c = l -> rel Bd R n (k c) (k' c)) -> rel Bd R (S n) (RRead l k) (RRead l k').
Proof.
  intros HB H. rewrite rel_S. split; [reflexivity|]. split; [exact HB|]. exists (zeros l). split; [apply zeros_length|].
  intros c Lc. rewrite <- Lc at 1. rewrite xor_zeros. apply H, Lc.
Qed.

Lemma sum_swap {X Y} (f : X -> Y -> nat) xs ys : list_sum (map (fun x => list_sum (map (fun y => f x y) ys)) xs) = list_sum (map (fun y => list_sum (map (fun x => f x y) xs)) ys).
Proof.
  induction xs as [|x xs IH]; cbn [map list_sum fold_right].
  - rewrite JointKrFacts.sum_const. lia.
  - unfold list_sum in IH |- *. rewrite IH. clear IH. induction ys as [|y ys IH]; cbn [map fold_right]; [reflexivity|]. lia.
Qed.

Section Kr.
Context (E : blockCipher) (enc : list byte -> list byte -> list byte) (Henc : forall key m, length key = 16 -> ofb_cipher E key m (enc key m))
  (zp : bool) (ar : arch) (growcap : nat -> nat -> nat) (G : grow_ok growcap).

Definition rs_pieces (t n : nat) (c : list byte) : list (list byte) :=
  map (fun i => cw t (rsPerShard t (length c)) (rsData t c) i ++ [i2b i]) (seq 0 n).
Definition finish (q : request) : outcome (list (list byte)) -> rprog (option (list (list byte))) := fun o => RDone (Ret (shown (q_show q) o)).

(** what krawczyk.Split does after drawing the key *)
Definition tail (q : request) (key c : list byte) : rprog (option (list (list byte))) :=
  rSplit ar growcap (krMeta key (length c)) (q_parts q) (q_threshold q) (fun o =>
    rlift o (finish q) (fun ms => finish q (krAssemble (Z.to_nat (q_parts q)) ms (rs_pieces (Z.to_nat (q_threshold q)) (Z.to_nat (q_parts q)) c)))).

Lemma kr_unfold q s : kr_valid_args zp s (q_parts q) (q_threshold q) ->
  exists k, rKrSplit E zp ar growcap s (q_parts q) (q_threshold q) (finish q) = RRead 16 k /\
    forall key, length key = 16 -> k key = tail q key (enc key s).
Proof.
  intros (Hs & HL & H2 & H3 & H4 & Hz). unfold rKrSplit.
  replace (krCheck (length s) (q_parts q) (q_threshold q)) with (@None err) by (symmetry; apply krCheck_None; lia).
  eexists. split; [reflexivity|]. intros key Lk. cbv beta.
  rewrite encrypt_ok by (unfold aesKeyOk; rewrite Lk; reflexivity). cbn [rlift].
  assert (Ec : enc key s = xorStreamFrom (ofbStream E key (zeros 16)) 0 s) by (apply ofb_cipher_iff, Henc, Lk). rewrite <- Ec.
  assert (Lc : length (enc key s) = length s) by (apply (Henc key s Lk)).
  revert Lc. generalize (enc key s). intros c Lc. clear Ec.
  rewrite rsNew_None by (first [lia | destruct Hz; [left; assumption|right; lia]]).
  cbv zeta. assert (Hc : c <> []) by (destruct c, s; cbn in *; congruence). assert (Pos : 0 < length c) by (destruct c; [congruence|cbn; lia]).
  rewrite rsSplit_ok by exact Hc. cbn [bind].
  rewrite rsEncode_ok; try lia; [|apply rsPerShard_pos; lia|apply rsData_length|intros i Hi; apply rsData_row_length; lia].
  cbn [bind]. rewrite appendIds_ok. cbn [rlift]. rewrite map_length, seq_length. unfold tail, krMeta. do 2 f_equal.
  assert (EP : map (fun i => nth i (map (cw (Z.to_nat (q_threshold q)) (rsPerShard (Z.to_nat (q_threshold q)) (length c)) (rsData (Z.to_nat (q_threshold q)) c)) (seq 0 (Z.to_nat (q_parts q)))) [] ++ [i2b i]) (seq 0 (Z.to_nat (q_parts q)))
     = rs_pieces (Z.to_nat (q_threshold q)) (Z.to_nat (q_parts q)) c).
  { unfold rs_pieces. apply map_ext_in. intros i Hi. apply in_seq in Hi. rewrite nth_map_seq by lia. reflexivity. }
  rewrite EP. reflexivity.
Qed.

Lemma rs_pieces_length t n c : length (rs_pieces t n c) = n.
Proof. unfold rs_pieces. rewrite map_length, seq_length. reflexivity. Qed.

Lemma assemble_shown n is ms ms' P le : 0 < n -> length ms = n -> length ms' = n -> length P = n ->
  (forall i, i < n -> length (nth i ms []) = 21) -> (forall i, i < n -> length (nth i ms' []) = 21) -> (forall i, i < n -> length (nth i P []) = le) ->
  (forall i, In i is -> i < n) -> pick [] ms is = pick [] ms' is -> shown is (krAssemble n ms P) = shown is (krAssemble n ms' P).
Proof.
  intros Hn L L' LP Lr Lr' LPr Hi HE. rewrite (krAssemble_ok n ms P 21 le), (krAssemble_ok n ms' P 21 le) by assumption.
  cbn [shown]. f_equal. unfold pick in *. revert Hi HE. induction is as [|i is IH]; intros Hi HE; [reflexivity|].
  cbn [map] in HE |- *. injection HE as H1 H2. assert (i < n) by (apply Hi; left; reflexivity).
  rewrite !nth_map_seq by assumption. rewrite H1. f_equal. apply IH; [intros j Hj; apply Hi; right; exact Hj|exact H2].
Qed.

Lemma tail_rel (Bd : nat -> Prop) q c key key' : (2 <= q_threshold q)%Z -> (q_threshold q <= q_parts q)%Z -> (q_parts q <= 255)%Z ->
  coalition (Z.to_nat (q_parts q)) (Z.to_nat (q_threshold q)) (q_show q) -> length key = 16 -> length key' = 16 ->
  (forall l, l <= Z.to_nat (q_threshold q) * 20 -> Bd l) -> forall n, rel Bd eq n (tail q key c) (tail q key' c).
Proof.
  intros H2 H3 H4 C Lk Lk' HB n. unfold tail, rSplit.
  pose proof (meta_valid key (length c) _ _ Lk H2 H3 H4) as V. pose proof (meta_valid key' (length c) _ _ Lk' H2 H3 H4) as V'.
  rewrite (proj1 (valid_checkArgs _ _ _) V), (proj1 (valid_checkArgs _ _ _) V').
  assert (L20 : length (krMeta key (length c)) = 20) by (apply krMeta_length; exact Lk).
  assert (L20' : length (krMeta key' (length c)) = 20) by (apply krMeta_length; exact Lk').
  rewrite L20, L20'. apply rel_perm. intros perm m P. destruct m as [|m]; [exact I|]. rewrite rel_S.
  split; [reflexivity|]. split; [apply HB; lia|].
  destruct (mask_Split perm (krMeta key (length c)) (krMeta key' (length c)) (q_parts q) (q_threshold q) (q_show q) P V (eq_trans L20 (eq_sym L20')) C ar growcap G) as (delta & Ld & Hd).
  rewrite L20 in Ld, Hd. exists delta. split; [exact Ld|]. intros r Lr. destruct m as [|m]; [exact I|]. rewrite rel_S.
  specialize (Hd r Lr).
  destruct (Split_sharing ar growcap perm (got r) [] [] noBufs _ _ _ G P V) as (ms & po & tg & A1 & A2 & A3 & _).
  destruct (Split_sharing ar growcap perm (got (xor_bytes r delta)) [] [] noBufs _ _ _ G P V') as (ms' & po' & tg' & B1 & B2 & B3 & _).
  rewrite A1, B1 in *. cbn [rlift shown] in *. unfold finish. injection Hd as Hd. apply (f_equal (@Ret _)).
  apply (assemble_shown _ _ _ _ _ (rsPerShard (Z.to_nat (q_threshold q)) (length c) + 1)); try assumption; try lia.
  - apply rs_pieces_length.
  - intros i Hi. rewrite (is_sharing_lengths _ _ _ _ _ _ A2) by lia. rewrite L20. reflexivity.
  - intros i Hi. rewrite (is_sharing_lengths _ _ _ _ _ _ B2) by lia. rewrite L20'. reflexivity.
  - intros i Hi. unfold rs_pieces. rewrite nth_map_seq by exact Hi. rewrite app_length, cw_length. reflexivity.
  - apply C.
Qed.

Lemma tail_refl (Bd : nat -> Prop) q c key : (2 <= q_threshold q)%Z -> (q_threshold q <= q_parts q)%Z -> (q_parts q <= 255)%Z -> length key = 16 ->
  (forall l, l <= Z.to_nat (q_threshold q) * 20 -> Bd l) -> forall n, rel Bd eq n (tail q key c) (tail q key c).
Proof.
  intros H2 H3 H4 Lk HB n. unfold tail, rSplit. pose proof (meta_valid key (length c) _ _ Lk H2 H3 H4) as V.
  rewrite (proj1 (valid_checkArgs _ _ _) V). rewrite (krMeta_length key _ Lk). apply rel_perm. intros perm m P. destruct m as [|m]; [exact I|].
  apply rel_zero_mask; [apply HB; lia|]. intros r Lr. destruct m as [|m]; [exact I|]. destruct (Split _ _ _ _ _ _ _ _ _ _); reflexivity.
Qed.

(** ** the simulator *)
Inductive fthread : Type := FReal (p : rprog (option (list (list byte)))) | FWait (q : request).

Definition fserve (r : kr_request) : fthread :=
  match r with
  | KShamir q => FReal (serve ar growcap true q)
  | KKrawczyk q => if JointKrFacts.bytes_dec (q_left q) (q_right q) then FReal (kr_serve E zp ar growcap true r) else FWait q
  end.

Context (left : bool) (B : nat).
Definition secretOf (q : request) : list byte := if left then q_left q else q_right q.

Definition relF (n : nat) (p : rprog (option (list (list byte)))) (f : fthread) : Prop :=
  match f with
  | FReal p' => rel (fun l => l <= B) eq n p p'
  | FWait q => exists k, p = RRead 16 k /\ 16 <= B /\ forall key, length key = 16 -> rel (fun l => l <= B) eq n (k key) (tail q (zeros 16) (enc key (secretOf q)))
  end.

Lemma relF_le n p f : relF (S n) p f -> relF n p f.
Proof.
  destruct f as [p'|q]; cbn [relF]; [apply rel_le|]. intros (k & -> & HB & H). exists k. split; [reflexivity|]. split; [exact HB|].
  intros key Lk. apply rel_le, H, Lk.
Qed.

Lemma relF_serve r n : fair_kr_request zp r -> largest_read r <= B -> relF n (kr_serve E zp ar growcap left r) (fserve r).
Proof.
  destruct r as [q|q]; cbn [fair_kr_request largest_read fserve kr_serve]; intros F HB.
  - cbn [relF]. destruct F as (V & Hl & C & HL).
    set (q' := {| q_by := q_by q; q_left := secretOf q; q_right := q_left q; q_parts := q_parts q; q_threshold := q_threshold q; q_show := q_show q |}).
    assert (F' : fair_request q').
    { unfold q', secretOf, fair_request. destruct left; cbn [q_by q_left q_right q_parts q_threshold q_show].
      - split; [exact V|]. split; [reflexivity|]. split; [right; reflexivity|exact HL].
      - split; [apply (V' (q_left q)); assumption|]. split; [symmetry; exact Hl|]. split; [destruct C as [C|C]; [left; exact C|right; symmetry; exact C]|rewrite <- Hl; exact HL]. }
    pose proof (rel_serve ar growcap G (fun l => l <= B) q' F') as R. 
    assert (S1 : serve ar growcap left q = serve ar growcap true q') by (unfold serve, q', secretOf; destruct left; reflexivity).
    assert (S2 : serve ar growcap true q = serve ar growcap false q') by reflexivity.
    rewrite S1, S2. apply R. intros l Hl'. unfold request_size, q', secretOf in Hl'. cbn [q_left q_threshold] in Hl'. destruct left; [|rewrite <- Hl in Hl']; lia.
  - destruct F as (V & Hl & C).
    assert (V' : kr_valid_args zp (secretOf q) (q_parts q) (q_threshold q)).
    { unfold secretOf. destruct left; [exact V|]. apply (JointKrFacts.kr_valid_eq_length zp (q_left q)); assumption. }
    pose proof V as (_ & _ & H2 & H3 & H4 & _).
    destruct (kr_unfold q (secretOf q) V') as (k & Ek & Hk). change (rKrSplit E zp ar growcap (if left then q_left q else q_right q) (q_parts q) (q_threshold q)
        (fun o => RDone (Ret (match o with Ret shares => Some (pick [] shares (q_show q)) | _ => None end)))) with
        (rKrSplit E zp ar growcap (secretOf q) (q_parts q) (q_threshold q) (finish q)).
    destruct (JointKrFacts.bytes_dec (q_left q) (q_right q)) as [EQ|NE]; cbn [relF].
    + cbn [kr_serve]. change (rKrSplit E zp ar growcap (q_left q) (q_parts q) (q_threshold q)
        (fun o => RDone (Ret (match o with Ret shares => Some (pick [] shares (q_show q)) | _ => None end)))) with
        (rKrSplit E zp ar growcap (q_left q) (q_parts q) (q_threshold q) (finish q)).
      assert (S : q_left q = secretOf q) by (unfold secretOf; destruct left; [reflexivity|exact EQ]). rewrite S, Ek.
      destruct n as [|n]; [exact I|]. apply rel_zero_mask; [lia|]. intros key Lk. rewrite Hk by exact Lk.
      apply tail_refl; try assumption. intros l Hl'. lia.
    + destruct C as [C|C]; [|contradiction]. exists k. split; [exact Ek|]. split; [lia|]. intros key Lk. rewrite Hk by exact Lk.
      apply tail_rel; try assumption; [apply zeros_length|]. intros l Hl'. lia.
Qed.

Context (att : list seen -> kr_action).
Record sim : Type := { f_threads : list fthread; f_words : nat -> N; f_coins : list byte; f_seen : list seen }.

Definition fset (i : nat) (f : fthread) (l : list fthread) := firstn i l ++ f :: skipn (S i) l.

Definition ask (st : sim) : option request :=
  match att (f_seen st) with
  | KAdvance i => match nth_error (f_threads st) i with Some (FWait q) => Some q | _ => None end
  | KBegin _ => None
  end.

Definition simStep (c : option (list byte)) (st : sim) : sim :=
  match att (f_seen st) with
  | KBegin r => {| f_threads := f_threads st ++ [fserve r]; f_words := f_words st; f_coins := f_coins st; f_seen := SBegun :: f_seen st |}
  | KAdvance i =>
    let same s := {| f_threads := f_threads st; f_words := f_words st; f_coins := f_coins st; f_seen := s :: f_seen st |} in
    match nth_error (f_threads st) i with
    | None => same SNothing
    | Some (FWait q) => match c with
      | None => same SNothing
      | Some c => {| f_threads := fset i (FReal (tail q (zeros 16) c)) (f_threads st); f_words := f_words st; f_coins := f_coins st; f_seen := SRead 16 :: f_seen st |}
      end
    | Some (FReal (RDone (Ret v))) => same (SShares v)
    | Some (FReal (RDone _)) => same SNothing
    | Some (FReal (RInt63 k)) =>
        {| f_threads := fset i (FReal (k (f_words st 0))) (f_threads st); f_words := (fun j => f_words st (S j)); f_coins := f_coins st; f_seen := SWord (f_words st 0) :: f_seen st |}
    | Some (FReal (RRead n k)) =>
        {| f_threads := fset i (FReal (k (firstn n (f_coins st)))) (f_threads st); f_words := f_words st; f_coins := skipn n (f_coins st); f_seen := SRead n :: f_seen st |}
    | Some (FReal (RSeed _ k)) =>
        {| f_threads := fset i (FReal k) (f_threads st); f_words := f_words st; f_coins := f_coins st; f_seen := SNothing :: f_seen st |}
    end
  end.

Fixpoint fakeGame (n : nat) (keys : list byte) (st : sim) : list seen :=
  match n with
  | O => f_seen st
  | S m => fakeGame m (skipn 16 keys) (simStep (option_map (fun q => enc (firstn 16 keys) (secretOf q)) (ask st)) st)
  end.

(** ** counting *)
Context (conclude : list seen -> bool).
Hypothesis Fair : forall h r, att h = KBegin r -> fair_kr_request zp r /\ largest_read r <= B.

Definition wgt (a : nat) : nat := length (all_strings a).
Lemma wgt_add a b : wgt (a + b) = wgt a * wgt b.
Proof. unfold wgt. rewrite !all_strings_length. apply Nat.pow_add_r. Qed.

Definition CR n ths words h T := count (fun r => conclude (kr_game E zp ar growcap left att n {| w_threads := ths; w_words := words; w_tape := r |} h)) (all_strings T).
Definition CF n fs words h K M := list_sum (map (fun keys => count (fun coins => conclude (fakeGame n keys {| f_threads := fs; f_words := words; f_coins := coins; f_seen := h |})) (all_strings M)) (all_strings K)).

Lemma skip_key n K M st c : 16 <= K -> (forall coins, ask (st coins) = c) ->
  list_sum (map (fun keys => count (fun coins => conclude (fakeGame (S n) keys (st coins))) (all_strings M)) (all_strings K)) =
  list_sum (map (fun key => list_sum (map (fun keys => count (fun coins => conclude (fakeGame n keys (simStep (option_map (fun q => enc key (secretOf q)) c) (st coins)))) (all_strings M)) (all_strings (K - 16)))) (all_strings 16)).
Proof.
  intros HK Hc. replace K with (16 + (K - 16)) at 1 by lia. rewrite JointKrFacts.sum_strings. apply JointKrFacts.sum_ext. intros key Hkey.
  apply all_strings_in in Hkey. apply JointKrFacts.sum_ext. intros keys _. apply count_ext. intros coins _. cbn [fakeGame]. rewrite Hc.
  rewrite firstn_app, skipn_app, <- Hkey, firstn_all, skipn_all, Nat.sub_diag. cbn [firstn skipn app]. rewrite app_nil_r. reflexivity.
Qed.

Lemma games_related : forall n T K M h ths fs words, Forall2 (relF n) ths fs -> n * B <= T -> 16 * n <= K -> n * B <= M ->
  wgt K * wgt M * CR n ths words h T = wgt T * CF n fs words h K M.
Proof.
  induction n as [|n IH]; intros T K M h ths fs words HR HT HK HM.
  - unfold CR, CF. cbn [kr_game fakeGame f_seen].
    assert (X : forall a (b : bool), count (fun _ : list byte => b) (all_strings a) = wgt a * (if b then 1 else 0)).
    { intros a b. rewrite JointKrFacts.count_sum, JointKrFacts.sum_const. reflexivity. }
    rewrite X. rewrite (JointKrFacts.sum_ext _ (fun _ => wgt M * (if conclude h then 1 else 0))) by (intros; apply X). rewrite JointKrFacts.sum_const. fold (wgt K). lia.
  - assert (HR1 : Forall2 (relF n) ths fs).
    { clear -HR. induction HR; constructor; auto. apply relF_le. assumption. }
    pose proof (wgt_add 16 (K - 16)) as WK. replace (16 + (K - 16)) with K in WK by lia.
    (* a round in which no random byte is used *)
    assert (Quiet : forall ths' fs' words' s, Forall2 (relF n) ths' fs' ->
      (forall r, kr_game E zp ar growcap left att (S n) {| w_threads := ths; w_words := words; w_tape := r |} h
         = kr_game E zp ar growcap left att n {| w_threads := ths'; w_words := words'; w_tape := r |} (s :: h)) ->
      (forall coins, ask {| f_threads := fs; f_words := words; f_coins := coins; f_seen := h |} = None) ->
      (forall coins, simStep None {| f_threads := fs; f_words := words; f_coins := coins; f_seen := h |} = {| f_threads := fs'; f_words := words'; f_coins := coins; f_seen := s :: h |}) ->
      wgt K * wgt M * CR (S n) ths words h T = wgt T * CF (S n) fs words h K M).
    { intros ths' fs' words' s HR' E1 E2 E3. unfold CR. rewrite (count_ext _ (fun r => conclude (kr_game E zp ar growcap left att n {| w_threads := ths'; w_words := words'; w_tape := r |} (s :: h)))) by (intros r _; rewrite E1; reflexivity).
      unfold CF. rewrite (skip_key n K M (fun coins => {| f_threads := fs; f_words := words; f_coins := coins; f_seen := h |}) None) by (try assumption; lia).
      cbn [option_map].
      rewrite (JointKrFacts.sum_ext _ (fun _ => CF n fs' words' (s :: h) (K - 16) M)).
      2:{ intros key _. unfold CF. apply JointKrFacts.sum_ext. intros keys _. apply count_ext. intros coins _. rewrite E3. reflexivity. }
      rewrite JointKrFacts.sum_const. fold (wgt 16).
      pose proof (IH T (K - 16) M (s :: h) ths' fs' words' HR' ltac:(cbn [Nat.mul] in HT; lia) ltac:(lia) ltac:(cbn [Nat.mul] in HM; lia)) as I. unfold CR in I.
      rewrite WK. rewrite <- (Nat.mul_assoc (wgt 16)), <- (Nat.mul_assoc (wgt 16)), I. lia. }
    pose proof (Fair h) as Fh. destruct (att h) as [r|i] eqn:Ea.
    + destruct (Fh r eq_refl) as (F1 & F2).
      apply (Quiet (ths ++ [kr_serve E zp ar growcap left r]) (fs ++ [fserve r]) words SBegun).
      * apply Forall2_app; [exact HR1|]. constructor; [|constructor]. apply relF_serve; assumption.
      * intros tape. cbn [kr_game]. rewrite Ea. reflexivity.
      * intros coins. unfold ask. cbn [f_seen]. rewrite Ea. reflexivity.
      * intros coins. unfold simStep. cbn [f_seen f_threads f_words f_coins]. rewrite Ea. reflexivity.
    + pose proof (Forall2_nth_error _ _ _ HR i) as Hi.
      destruct (nth_error ths i) as [p|] eqn:Ep, (nth_error fs i) as [f|] eqn:Ef; try contradiction.
      2:{ apply (Quiet ths fs words SNothing HR1).
          * intros tape. cbn [kr_game]. rewrite Ea. cbn [kr_act act w_threads]. rewrite Ep. reflexivity.
          * intros coins. unfold ask. cbn [f_seen f_threads]. rewrite Ea, Ef. reflexivity.
          * intros coins. unfold simStep. cbn [f_seen f_threads f_words f_coins]. rewrite Ea, Ef. reflexivity. }
      destruct f as [p'|q]; cbn [relF] in Hi.
      * rewrite rel_S in Hi. destruct p as [o|k|l k|sd k], p' as [o'|k'|l' k'|sd' k']; try contradiction.
        -- subst o'. apply (Quiet ths fs words (match o with Ret v => SShares v | _ => SNothing end) HR1).
           ++ intros tape. cbn [kr_game]. rewrite Ea. cbn [kr_act act w_threads]. rewrite Ep. destruct o; reflexivity.
           ++ intros coins. unfold ask. cbn [f_seen f_threads]. rewrite Ea, Ef. reflexivity.
           ++ intros coins. unfold simStep. cbn [f_seen f_threads f_words f_coins]. rewrite Ea, Ef. destruct o; reflexivity.
        -- apply (Quiet (firstn i ths ++ k (words 0) :: skipn (S i) ths) (fset i (FReal (k' (words 0))) fs) (fun j => words (S j)) (SWord (words 0))).
           ++ apply Forall2_set; [exact HR1|]. apply Hi.
           ++ intros tape. cbn [kr_game]. rewrite Ea. cbn [kr_act act w_threads]. rewrite Ep. reflexivity.
           ++ intros coins. unfold ask. cbn [f_seen f_threads]. rewrite Ea, Ef. reflexivity.
           ++ intros coins. unfold simStep. cbn [f_seen f_threads f_words f_coins]. rewrite Ea, Ef. reflexivity.
        -- destruct Hi as (<- & HB & mask & Lm & Hk). cbn [Nat.mul] in HM, HT.
           pose proof (wgt_add l (T - l)) as WT. replace (l + (T - l)) with T in WT by lia.
           pose proof (wgt_add l (M - l)) as WM. replace (l + (M - l)) with M in WM by lia.
           assert (E1 : CR (S n) ths words h T = list_sum (map (fun r1 => CR n (firstn i ths ++ k r1 :: skipn (S i) ths) words (SRead l :: h) (T - l)) (all_strings l))).
           { unfold CR. replace T with (l + (T - l)) at 1 by lia. rewrite count_strings. apply JointKrFacts.sum_ext. intros r1 H1. apply all_strings_in in H1.
             apply count_ext. intros r2 _. cbn [kr_game]. rewrite Ea. cbn [kr_act act w_threads]. rewrite Ep. unfold setThread. cbn [w_threads w_words w_tape].
             rewrite firstn_app, skipn_app, <- H1, firstn_all, skipn_all, Nat.sub_diag, app_nil_r. reflexivity. }
           assert (E2 : CF (S n) fs words h K M = wgt 16 * list_sum (map (fun c1 => CF n (fset i (FReal (k' c1)) fs) words (SRead l :: h) (K - 16) (M - l)) (all_strings l))).
           { unfold CF. rewrite (skip_key n K M (fun coins => {| f_threads := fs; f_words := words; f_coins := coins; f_seen := h |}) None).
             2: lia.
             2:{ intros coins. unfold ask. cbn [f_seen f_threads]. rewrite Ea, Ef. reflexivity. }
             cbn [option_map]. rewrite JointKrFacts.sum_const. fold (wgt 16). f_equal.
             rewrite (JointKrFacts.sum_ext _ (fun keys => list_sum (map (fun c1 => count (fun c2 => conclude (fakeGame n keys
                 {| f_threads := fset i (FReal (k' c1)) fs; f_words := words; f_coins := c2; f_seen := SRead l :: h |})) (all_strings (M - l))) (all_strings l)))).
             2:{ intros keys _. replace M with (l + (M - l)) at 1 by lia. rewrite count_strings. apply JointKrFacts.sum_ext. intros c1 H1. apply all_strings_in in H1.
                 apply count_ext. intros c2 _. unfold simStep. cbn [f_seen f_threads f_words f_coins]. rewrite Ea, Ef.
                 rewrite firstn_app, skipn_app, <- H1, firstn_all, skipn_all, Nat.sub_diag. cbn [firstn skipn app]. rewrite app_nil_r. reflexivity. }
             apply sum_swap. }
           set (F := fun c1 => CF n (fset i (FReal (k' c1)) fs) words (SRead l :: h) (K - 16) (M - l)) in *.
           assert (E3 : list_sum (map F (all_strings l)) = list_sum (map (fun c => F (xor_bytes c mask)) (all_strings l))).
           { symmetry. apply (equal_sums (list_eq_dec byte_eq_dec) (fun r1 => xor_bytes r1 mask) (fun r1 => r1) (all_strings l) F).
             intros test. apply (xor_count l _ _ mask Lm). reflexivity. }
           assert (E4 : wgt (K - 16) * wgt (M - l) * CR (S n) ths words h T = wgt (T - l) * list_sum (map F (all_strings l))).
           { rewrite E1, E3, <- !JointKrFacts.sum_scale. apply JointKrFacts.sum_ext. intros c Hc. apply all_strings_in in Hc. unfold F. apply IH; try lia.
             apply Forall2_set; [exact HR1|]. apply Hk, Hc. }
           rewrite E2, WK, WM, WT. 
           transitivity (wgt 16 * wgt l * (wgt (K - 16) * wgt (M - l) * CR (S n) ths words h T)); [lia|]. rewrite E4. lia.
        -- destruct Hi as (_ & Hk). apply (Quiet (firstn i ths ++ k :: skipn (S i) ths) (fset i (FReal k') fs) words SNothing).
           ++ apply Forall2_set; [exact HR1|]. apply Hk.
           ++ intros tape. cbn [kr_game]. rewrite Ea. cbn [kr_act act w_threads]. rewrite Ep. reflexivity.
           ++ intros coins. unfold ask. cbn [f_seen f_threads]. rewrite Ea, Ef. reflexivity.
           ++ intros coins. unfold simStep. cbn [f_seen f_threads f_words f_coins]. rewrite Ea, Ef. reflexivity.
      * destruct Hi as (k & -> & HB & Hk). cbn [Nat.mul] in HM, HT.
        pose proof (wgt_add 16 (T - 16)) as WT. replace (16 + (T - 16)) with T in WT by lia.
        assert (E1 : CR (S n) ths words h T = list_sum (map (fun r1 => CR n (firstn i ths ++ k r1 :: skipn (S i) ths) words (SRead 16 :: h) (T - 16)) (all_strings 16))).
        { unfold CR. replace T with (16 + (T - 16)) at 1 by lia. rewrite count_strings. apply JointKrFacts.sum_ext. intros r1 H1. apply all_strings_in in H1.
          apply count_ext. intros r2 _. cbn [kr_game]. rewrite Ea. cbn [kr_act act w_threads]. rewrite Ep. unfold setThread. cbn [w_threads w_words w_tape].
          rewrite firstn_app, skipn_app, <- H1, firstn_all, skipn_all, Nat.sub_diag, app_nil_r. reflexivity. }
        assert (E2 : CF (S n) fs words h K M = list_sum (map (fun key => CF n (fset i (FReal (tail q (zeros 16) (enc key (secretOf q)))) fs) words (SRead 16 :: h) (K - 16) M) (all_strings 16))).
        { unfold CF. rewrite (skip_key n K M (fun coins => {| f_threads := fs; f_words := words; f_coins := coins; f_seen := h |}) (Some q)).
          2: lia.
          2:{ intros coins. unfold ask. cbn [f_seen f_threads]. rewrite Ea, Ef. reflexivity. }
          apply JointKrFacts.sum_ext. intros key _. apply JointKrFacts.sum_ext. intros keys _. apply count_ext. intros coins _.
          unfold simStep. cbn [f_seen f_threads f_words f_coins option_map]. rewrite Ea, Ef. reflexivity. }
        rewrite E1, E2, WK, WT.
        transitivity (wgt 16 * list_sum (map (fun r1 => wgt (K - 16) * wgt M * CR n (firstn i ths ++ k r1 :: skipn (S i) ths) words (SRead 16 :: h) (T - 16)) (all_strings 16))).
        { rewrite JointKrFacts.sum_scale. lia. }
        rewrite <- (Nat.mul_assoc (wgt 16)). f_equal. rewrite <- JointKrFacts.sum_scale. apply JointKrFacts.sum_ext. intros key Hkey. apply all_strings_in in Hkey.
        apply IH; try lia. apply Forall2_set; [exact HR1|]. cbn [relF]. apply rel_le, Hk, Hkey.
Qed.
End Kr.

(** ** the breaker: it runs the simulator on the ciphertexts it has got *)
Section Breaker.
Context (E : blockCipher) (enc : list byte -> list byte -> list byte) (zp : bool) (ar : arch) (growcap : nat -> nat -> nat)
  (att : list seen -> kr_action) (words : nat -> N) (conclude : list seen -> bool).

Definition replayed (coins : list byte) (cs : list (option (list byte))) : sim :=
  fold_left (fun st c => simStep E zp ar growcap att c st) (rev cs) {| f_threads := []; f_words := words; f_coins := coins; f_seen := [] |}.

Definition conc_breaker : SpecJointKr.breaker :=
  {| SpecJointKr.hand_in := fun coins cs => option_map (fun q => (q_left q, q_right q)) (ask att (replayed coins cs));
     SpecJointKr.verdict := fun coins cs => conclude (f_seen (replayed coins cs)) |}.

Lemma breaker_plays left : forall n keys coins cs,
  SpecJointKr.cipher_game left enc conc_breaker n keys coins cs = conclude (fakeGame E enc zp ar growcap left att n keys (replayed coins cs)).
Proof.
  induction n as [|n IH]; intros keys coins cs; [reflexivity|]. cbn [SpecJointKr.cipher_game fakeGame]. cbv zeta. rewrite IH. f_equal. f_equal.
  unfold replayed at 1. cbn [rev]. rewrite fold_left_app. cbn [fold_left]. fold (replayed coins cs). cbn [conc_breaker SpecJointKr.hand_in].
  destruct (ask att (replayed coins cs)) as [q|]; reflexivity.
Qed.

Definition begun (f : fthread) : Prop := match f with FWait q => exists h, att h = KBegin (KKrawczyk q) | FReal _ => True end.

Lemma begun_set i p l : Forall begun l -> Forall begun (fset i (FReal p) l).
Proof.
  intros H. unfold fset. apply Forall_app. split; [apply Forall_forall; intros x Hx; apply (proj1 (Forall_forall _ _) H); eapply firstn_In'; exact Hx|].
  constructor; [exact I|]. revert i. induction H as [|a l Ha H IH]; intros [|i]; cbn [skipn]; auto. apply (IH i).
Qed.

Lemma begun_step c st : Forall begun (f_threads st) -> Forall begun (f_threads (simStep E zp ar growcap att c st)).
Proof.
  intros H. unfold simStep. destruct (att (f_seen st)) as [r|i] eqn:Ea; cbn [f_threads].
  - apply Forall_app. split; [exact H|]. constructor; [|constructor]. destruct r as [q|q]; cbn [fserve]; [exact I|].
    destruct (JointKrFacts.bytes_dec _ _); [exact I|]. exists (f_seen st). exact Ea.
  - cbv zeta. destruct (nth_error (f_threads st) i) as [[p|q]|]; [| |exact H].
    + destruct p as [[]| | |]; cbn [f_threads]; try exact H; apply begun_set, H.
    + destruct c; cbn [f_threads]; [apply begun_set, H|exact H].
Qed.

Lemma begun_replayed coins cs : Forall begun (f_threads (replayed coins cs)).
Proof.
  unfold replayed. induction cs as [|c cs IH]; [constructor|]. cbn [rev]. rewrite fold_left_app. cbn [fold_left]. apply begun_step, IH.
Qed.
End Breaker.
