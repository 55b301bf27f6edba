(** Proofs about altered pieces and krawczyk.Combine when data pieces are missing (C92). *)
From Coq Require Import List NArith ZArith Lia Arith Bool Permutation.
From Coq.Init Require Import Byte.
From Verif Require Import GoSem Bytes Spec GF PolyFacts GoFacts Vector Csprng Pool Shamir Libs AES Krawczyk SplitFacts CombineFacts Secrecy SpecKr KrawczykFacts KrawczykCombine CountFacts KrawczykContract ExData VectorFacts RegenFacts Pf6 Pf12.
Import ListNotations.

(*PROPS
From Coq Require Import List NArith ZArith Lia Arith Bool Permutation.
From Coq.Init Require Import Byte.
From Verif Require Import GoSem Bytes Spec SpecKr Vector Csprng Pool Shamir Libs AES Krawczyk ExData Pf12 Pf47.
Import ListNotations.
*)

Lemma xor_piece_nil s len : 22 <= length s -> length (kr_piece s) = len -> xor_piece s (repeat x00 len) = s.
Proof.
  intros Ls <-. unfold xor_piece. assert (Ez : forall p, xor_bytes p (repeat x00 (length p)) = p).
  { intros p. rewrite xor_bytes_map2. apply nth_ext with x00 x00; rewrite <- xor_bytes_map2; [rewrite xor_bytes_length by (rewrite repeat_length; reflexivity); reflexivity|].
    intros k Hk. rewrite xor_bytes_length in Hk by (rewrite repeat_length; reflexivity).
    rewrite nth_xor_bytes by (rewrite ?repeat_length; reflexivity). rewrite nth_repeat_lt by exact Hk. apply gadd_0_r. }
  rewrite Ez. unfold kr_meta, kr_piece, tag. transitivity (firstn 21 s ++ skipn 21 s); [|apply firstn_skipn]. f_equal.
  assert (N : skipn 21 s <> []) by (intros X; apply (f_equal (@length byte)) in X; rewrite skipn_length in X; cbn [length] in X; lia).
  transitivity (removelast (skipn 21 s) ++ [last (skipn 21 s) x00]); [|symmetry; apply app_removelast_last; exact N]. f_equal. f_equal.
  rewrite <- (firstn_skipn 21 s) at 1. clear -N. induction (firstn 21 s) as [|a l IH]; [reflexivity|]. cbn [app]. destruct (l ++ skipn 21 s) as [|b r] eqn:E.
  - apply app_eq_nil in E as (_ & E). congruence.
  - cbn [last]. cbn [last] in IH. exact IH.
Qed.

Lemma linear_core E zp rd secret key parts threshold shares ss is (d : nat -> list byte) :
  (forall i, 0 < rd i) -> kr_valid_args zp secret parts threshold -> length key = 16 ->
  kr_shape E secret key (Z.to_nat parts) (Z.to_nat threshold) shares ->
  NoDup is -> (forall i, In i is -> i < Z.to_nat parts) -> Z.to_nat threshold <= length is ->
  (forall i, In i is -> length (d i) = ceil_div (length secret) (Z.to_nat threshold)) ->
  somes ss = map (fun i => xor_piece (nth i shares []) (d i)) is ->
  exists e, rs_completion (Z.to_nat threshold) (ceil_div (length secret) (Z.to_nat threshold))
              (map (fun i => if in_dec Nat.eq_dec i is then d i else []) (seq 0 (Z.to_nat parts))) e /\
    krCombine E zp rd ss parts threshold = Ret (xor_bytes secret (firstn (length secret) (concat e))).
Proof.
  intros Hrd V Hk SH ND Hi Lis Ld Ess. pose proof V as (Hs & HL & H2 & H3 & H4 & Hz). set (t := Z.to_nat threshold) in *. set (n := Z.to_nat parts) in *.
  pose proof SH as (Ls & A & _ & (B & CW) & c & EC & EP). set (len := ceil_div (length secret) t) in *. pose proof EC as (Lc & _).
  assert (Pos : 0 < length secret) by (destruct secret; [congruence|cbn [length]; lia]).
  assert (Ht : 2 <= t) by (unfold t; lia).
  pose proof (ceil_div_bounds (length secret) t ltac:(lia)) as CB. fold len in CB.
  assert (Hlen : 0 < len) by nia. assert (H256 : n <= 256) by (unfold n; lia). assert (Htn : t <= n) by (unfold t, n; lia).
  fold (edited_pieces is d n).
  set (pc := fun i => xor_bytes (kr_piece (nth i shares [])) (d i)).
  assert (Lpc : forall i, In i is -> length (pc i) = len).
  { intros i I. unfold pc. rewrite xor_bytes_length; [apply B, Hi, I|]. rewrite B by (apply Hi, I). symmetry. apply Ld, I. }
  assert (Ess' : somes ss = map (fun i => kr_meta (nth i shares []) ++ pc i ++ [i2b i]) is).
  { rewrite Ess. apply map_ext_in. intros i I. unfold xor_piece. destruct (A i (Hi i I)) as (_ & ->). reflexivity. }
  pose proof (edited_present key n Hk H256 is pc len ND Lpc Hlen n Hi) as PP.
  pose proof (edited_present key n Hk H256 is d len ND Ld Hlen n Hi) as PD.
  assert (Lp : forall q, length (edited_pieces is q n) = n) by (intros q; unfold edited_pieces; rewrite map_length; apply seq_length).
  assert (NP : forall q i, i < n -> nth i (edited_pieces is q n) [] = if in_dec Nat.eq_dec i is then q i else []).
  { intros q i I. unfold edited_pieces. rewrite nth_map_seq by exact I. reflexivity. }
  assert (Pres : present (edited_pieces is pc n) = present (edited_pieces is d n)).
  { unfold present. rewrite !Lp. apply filter_ext_in. intros i I. apply in_seq in I. rewrite !NP by lia.
    destruct (in_dec Nat.eq_dec i is) as [Y|_]; [|reflexivity]. rewrite (Lpc i Y), (Ld i Y). reflexivity. }
  assert (EX : exists e, rs_completion t len (edited_pieces is d n) e).
  { destruct (reconstruct_cases t (edited_pieces is d n)) as [(R1 & _)|[(R1 & _)|(len' & R0 & R1 & (p & R2 & R2') & [(R3 & _)|(R3 & o & _ & _ & R6)])]]; rewrite ?Lp; try lia.
    - exfalso. destruct is as [|i r] eqn:Ei; [cbn [length] in Lis; lia|]. rewrite <- Ei in *. assert (I : In i is) by (rewrite Ei; left; reflexivity).
      assert (Z : nth i (edited_pieces is d n) [] = []) by (apply R1, nth_In; rewrite Lp; apply Hi, I).
      rewrite NP in Z by (apply Hi, I). destruct (in_dec Nat.eq_dec i is); [|contradiction]. specialize (Ld i I). rewrite Z in Ld. cbn [length] in Ld. lia.
    - exfalso. destruct R1 as (p & q & I1 & I2 & N1 & N2 & X).
      destruct (edited_uniform is d len Ld n p I1), (edited_uniform is d len Ld n q I2); congruence.
    - exfalso. rewrite (Permutation_length PD) in R3. lia.
    - exists (firstn t o). replace len with len'; [exact R6|]. destruct (R1 p R2) as [Y|Y]; [|congruence].
      destruct (edited_uniform is d len Ld n p R2); congruence. }
  destruct EX as (e & Ce). exists e. split; [exact Ce|]. pose proof Ce as (_ & Le & He).
  apply (C55_contract_pf E zp rd _ parts threshold Hrd).
  exists (map (fun i => kr_meta (nth i shares []) ++ pc i ++ [i2b i]) is), (edited_pieces is pc n), len,
    (map (fun i => xor_bytes (kr_piece (nth i shares [])) (nth i e [])) (seq 0 t)), (key ++ le32 (N.of_nat (length secret))).
  split; [eapply edited_scanned; try eassumption; try lia; nia|]. split; [exact Hlen|].
  split; [intros p Hp; eapply edited_uniform; eassumption|]. split; [|split; [eapply edited_metadata; eassumption|]].
  - fold t n. split; [rewrite (Permutation_length PP); exact Lis|]. split; [rewrite map_length, seq_length; reflexivity|].
    intros i I. rewrite nth_map_seq by exact I. rewrite NP by lia. destruct (He i I) as (E1 & E2 & E3). rewrite NP in E2, E3 by lia.
    split; [rewrite xor_bytes_length; [apply B; lia|rewrite B, E1 by lia; reflexivity]|].
    destruct (in_dec Nat.eq_dec i is) as [Y|Y].
    + assert (Nd : d i <> []) by (intros X; specialize (Ld i Y); rewrite X in Ld; cbn [length] in Ld; lia).
      split; [intros _; unfold pc; rewrite E2 by exact Nd; reflexivity|].
      intros X. specialize (Lpc i Y). rewrite X in Lpc. cbn [length] in Lpc. lia.
    + split; [congruence|]. intros _ k Hk'. destruct (E3 eq_refl k Hk') as (f & F1 & F2 & F3). destruct (CW k Hk') as (g & G1 & G2).
      exists (xor_bytes g f). split; [rewrite xor_bytes_length; congruence|].
      assert (PV : forall x, peval (xor_bytes g f) x = gadd (peval g x) (peval f x)) by (intros x; rewrite !peval_heval; apply heval_xor_bytes; congruence).
      rewrite Pres. split.
      * intros j Hj. rewrite PV, (F2 j Hj). assert (Ij : In j is) by (apply firstn_In' in Hj; apply (Permutation_in _ PD), Hj).
        rewrite <- G2 by (apply Hi, Ij). rewrite !NP by (apply Hi, Ij). destruct (in_dec Nat.eq_dec j is); [|contradiction].
        unfold pc. rewrite nth_xor_bytes; [reflexivity|]. rewrite B by (apply Hi, Ij). symmetry. apply Ld, Ij.
      * rewrite PV, <- F3. rewrite nth_xor_bytes by (rewrite B, E1 by lia; reflexivity). rewrite <- G2 by lia. reflexivity.
  - cbv zeta. rewrite skipn_app, Hk, Nat.sub_diag, skipn_O, skipn_all2 by lia. cbn [app]. rewrite le32_value_le32 by exact HL.
    split; [fold t; lia|]. rewrite Nat2N.id. rewrite firstn_app, Hk, Nat.sub_diag, firstn_O, app_nil_r, firstn_all2 by lia.
    apply ofb_cipher_iff. fold t. rewrite xor_concat.
    2:{ intros i I. apply in_seq in I. destruct (He i ltac:(lia)) as (E1 & _). rewrite B, E1 by lia. reflexivity. }
    rewrite <- (map_map (fun i => nth i shares []) kr_piece), <- (firstn_ext_map shares [] t) by (rewrite Ls; lia). rewrite EP.
    rewrite <- (firstn_ext_map e [] t) by lia. rewrite (firstn_all2 e) by lia.
    rewrite <- xor_bytes_firstn. rewrite firstn_app, Lc, Nat.sub_diag, firstn_O, app_nil_r, (firstn_all2 c) by lia.
    apply ofb_cipher_iff in EC. subst c.
    rewrite xorStream_xor, xorStream_twice; [reflexivity|].
    rewrite xorStreamFrom_length, firstn_length. rewrite (concat_uniform_length _ len); [rewrite Le; lia|].
    intros i I. apply He. lia.
Qed.

Lemma nth_concat_uniform len (l : list (list byte)) : 0 < len -> (forall x, In x l -> length x = len) ->
  forall m k, m < length l -> k < len -> nth (len * m + k) (concat l) x00 = nth k (nth m l []) x00.
Proof.
  intros Hl. induction l as [|x l IH]; intros U m k Hm Hk; [cbn [length] in Hm; lia|]. cbn [concat].
  assert (Lx : length x = len) by (apply U; left; reflexivity). destruct m as [|m].
  - rewrite Nat.mul_0_r, Nat.add_0_l, app_nth1 by lia. reflexivity.
  - cbn [length] in Hm. rewrite app_nth2 by nia. rewrite Lx. replace (len * S m + k - len) with (len * m + k) by nia. cbn [nth].
    apply IH; [intros y Hy; apply U; right; exact Hy|lia|exact Hk].
Qed.

Lemma In_firstn_filter (P : nat -> bool) n t i : i < n -> P i = true -> (In i (firstn t (filter P (seq 0 n))) <-> length (filter P (seq 0 i)) < t).
Proof.
  intros Hi HP. replace n with (i + S (n - S i)) by lia. rewrite seq_app, filter_app. cbn [seq filter Nat.add]. rewrite HP.
  assert (NA : ~ In i (filter P (seq 0 i))) by (intros F; apply filter_In in F as (F & _); apply in_seq in F; lia).
  assert (NB : ~ In i (filter P (seq (S i) (n - S i)))) by (intros F; apply filter_In in F as (F & _); apply in_seq in F; lia).
  split.
  - intros H. destruct (Nat.lt_ge_cases (length (filter P (seq 0 i))) t) as [Y|Y]; [exact Y|exfalso].
    rewrite firstn_app in H. replace (t - length (filter P (seq 0 i))) with 0 in H by lia. rewrite firstn_O, app_nil_r in H.
    apply NA. eapply firstn_In'. exact H.
  - intros H. rewrite firstn_app. apply in_or_app. right. destruct (t - length (filter P (seq 0 i))) as [|u] eqn:E; [lia|]. left. reflexivity.
Qed.

(** a polynomial that is zero at [t]-1 of [t] points: zero at a further point iff it is zero at the last one *)
Lemma zero_elsewhere t (f : list byte) (src : list nat) i0 m : length f = t -> length src = t -> NoDup src -> (forall j, In j src -> j < 256) -> m < 256 ->
  In i0 src -> ~ In m src -> (forall j, In j src -> j <> i0 -> peval f (i2b j) = x00) ->
  (peval f (i2b m) = x00 <-> peval f (i2b i0) = x00).
Proof.
  intros Lf Lsrc ND H256 Hm Hin Hout Z.
  assert (Zero : forall l, NoDup l -> length l = t -> (forall j, In j l -> j < 256) -> (forall j, In j l -> peval f (i2b j) = x00) -> f = repeat x00 t).
  { intros l Nl Ll Hl Zl. apply (poly_unique f (repeat x00 t) (map rsPoint l)); [rewrite repeat_length; exact Lf|rewrite map_length; lia|apply map_rsPoint_NoDup; assumption|].
    intros y Hy. apply in_map_iff in Hy as (j & <- & Hj). rewrite <- !peval_heval. unfold rsPoint. rewrite (Zl j Hj), peval_heval.
    transitivity (heval ([] ++ repeat x00 t) (i2b j)); [rewrite heval_app_zeros; reflexivity|reflexivity]. }
  assert (ZE : forall x, peval (repeat x00 t) x = x00) by (intros x; rewrite peval_heval; exact (heval_app_zeros [] t x)).
  apply in_split in Hin as (l1 & l2 & E). split; intros H.
  - rewrite (Zero (m :: l1 ++ l2)); [apply ZE|constructor| | |].
    + intros F. apply Hout. rewrite E. apply in_app_or in F as [F|F]; apply in_or_app; [left|right; right]; exact F.
    + rewrite E in ND. apply NoDup_remove_1 in ND. exact ND.
    + rewrite E, app_length in Lsrc. cbn [length] in Lsrc |- *. rewrite app_length. lia.
    + intros j [<-|Hj]; [exact Hm|]. apply H256. rewrite E. apply in_app_or in Hj as [F|F]; apply in_or_app; [left|right; right]; exact F.
    + intros j [<-|Hj]; [exact H|]. apply Z.
      * rewrite E. apply in_app_or in Hj as [F|F]; apply in_or_app; [left|right; right]; exact F.
      * intros ->. rewrite E in ND. apply NoDup_remove_2 in ND. contradiction.
  - rewrite (Zero src); [apply ZE|exact ND|exact Lsrc|exact H256|]. intros j Hj. destruct (Nat.eq_dec j i0) as [->|Hne]; [exact H|apply Z; assumption].
Qed.

Lemma one_core E zp rd secret key parts threshold shares ss is i0 delta :
  (forall i, 0 < rd i) -> kr_valid_args zp secret parts threshold -> length key = 16 ->
  kr_shape E secret key (Z.to_nat parts) (Z.to_nat threshold) shares ->
  NoDup is -> (forall i, In i is -> i < Z.to_nat parts) -> Z.to_nat threshold <= length is -> In i0 is ->
  length delta = ceil_div (length secret) (Z.to_nat threshold) ->
  somes ss = map (fun i => if i =? i0 then xor_piece (nth i shares []) delta else nth i shares []) is ->
  exists out, krCombine E zp rd ss parts threshold = Ret out /\ length out = length secret /\
    forall p, p < length secret ->
      (nth p out x00 <> nth p secret x00 <->
       nth (p mod ceil_div (length secret) (Z.to_nat threshold)) delta x00 <> x00 /\
       (p / ceil_div (length secret) (Z.to_nat threshold) = i0 \/
        (~ In (p / ceil_div (length secret) (Z.to_nat threshold)) is /\ count (fun j => j <? i0) is < Z.to_nat threshold))).
Proof.
  intros Hrd V Hk SH ND Hi Lis I0 Ld Ess. pose proof V as (Hs & HL & H2 & H3 & H4 & Hz).
  set (len := ceil_div (length secret) (Z.to_nat threshold)) in *.
  set (d := fun i => if i =? i0 then delta else repeat x00 len).
  assert (LD : forall i, length (d i) = len) by (intros i; unfold d; destruct (i =? i0); [exact Ld|apply repeat_length]).
  assert (Pos : 0 < length secret) by (destruct secret; [congruence|cbn [length]; lia]).
  destruct (linear_core E zp rd secret key parts threshold shares ss is d Hrd V Hk SH ND Hi Lis) as (e & Ce & Er).
  - intros i _. apply LD.
  - rewrite Ess. apply map_ext_in. intros i I. unfold d. destruct (Nat.eqb_spec i i0); [reflexivity|]. symmetry.
    destruct SH as (_ & A & _ & (B & _) & _). fold len in A, B. apply xor_piece_nil; [destruct (A i (Hi i I)) as (-> & _); lia|apply B, Hi, I].
  - set (t := Z.to_nat threshold) in *. set (n := Z.to_nat parts) in *.
    assert (Ht : 2 <= t) by (unfold t; lia). assert (Htn : t <= n) by (unfold t, n; lia). assert (H256 : n <= 255) by (unfold n; lia).
    pose proof (ceil_div_bounds (length secret) t ltac:(lia)) as CB. fold len in CB, Ce. assert (Hlen : 0 < len) by nia.
    clearbody t n. clear V H2 H3 H4 HL Hz.
    destruct Ce as (Cp & Le & He).
    assert (U : forall x, In x e -> length x = len).
    { intros x Hx. apply In_nth with (d := []) in Hx as (m & Hm & <-). apply He. lia. }
    assert (LC : length (concat e) = t * len) by (rewrite (concat_uniform_length _ len); [rewrite Le; reflexivity|intros i I; apply He; lia]).
    exists (xor_bytes secret (firstn (length secret) (concat e))). split; [exact Er|].
    assert (LF : length (firstn (length secret) (concat e)) = length secret) by (rewrite firstn_length; lia).
    split; [apply xor_bytes_length; symmetry; exact LF|]. intros p Hp. rewrite nth_xor_bytes by (symmetry; exact LF). rewrite nth_firstn by exact Hp.
    assert (Dp : p = len * (p / len) + p mod len) by (apply Nat.div_mod; lia).
    assert (Hk' : p mod len < len) by (apply Nat.mod_upper_bound; lia).
    assert (Hm : p / len < t) by (apply Nat.div_lt_upper_bound; [lia|nia]).
    assert (En : nth p (concat e) x00 = nth (p mod len) (nth (p / len) e []) x00) by (rewrite Dp at 1; apply nth_concat_uniform; [exact Hlen|exact U|lia|exact Hk']).
    assert (Eg : forall a b, gadd a b <> a <-> b <> x00).
    { intros a b. split; intros H X; apply H.
      - rewrite X. apply gadd_0_r.
      - rewrite <- (gadd_0_r b), <- (gadd_self a) at 1. transitivity (gadd (gadd a b) a); [ring|]. rewrite X. apply gadd_self. }
    rewrite Eg, En. generalize dependent (p mod len). generalize dependent (p / len). intros m Hm k Dp Hk' En. clear Dp En.
    destruct (He m Hm) as (E1 & E2 & E3).
    assert (NP : forall i, i < n -> nth i (map (fun i => if in_dec Nat.eq_dec i is then d i else []) (seq 0 n)) [] = if in_dec Nat.eq_dec i is then d i else []).
    { intros i I. rewrite nth_map_seq by exact I. reflexivity. }
    rewrite NP in E2, E3 by lia. destruct (in_dec Nat.eq_dec m is) as [Y|Y].
    + assert (Nd : d m <> []) by (intros X; specialize (LD m); rewrite X in LD; cbn [length] in LD; lia).
      rewrite E2 by exact Nd. unfold d. destruct (Nat.eqb_spec m i0) as [->|Hne].
      * split; [intros X; split; [exact X|left; reflexivity]|intros (X & _); exact X].
      * rewrite nth_repeat_lt by exact Hk'. split; [intros X; congruence|intros (_ & [X|(X & _)]); contradiction].
    + destruct (E3 eq_refl k Hk') as (f & F1 & F2 & ->). fold (edited_pieces is d n) in F2, Cp.
      set (P := fun i : nat => if in_dec Nat.eq_dec i is then true else false).
      assert (Pr : present (edited_pieces is d n) = filter P (seq 0 n)).
      { unfold present. replace (length (edited_pieces is d n)) with n by (unfold edited_pieces; rewrite map_length, seq_length; reflexivity).
        apply filter_ext_in. intros i I. apply in_seq in I. unfold edited_pieces. rewrite NP by lia. unfold P.
        destruct (in_dec Nat.eq_dec i is); [|reflexivity]. rewrite LD. destruct (Nat.eqb_spec len 0); [lia|reflexivity]. }
      rewrite Pr in F2, Cp.
      assert (P0 : P i0 = true) by (unfold P; destruct (in_dec Nat.eq_dec i0 is); [reflexivity|contradiction]).
      pose proof (In_firstn_filter P n t i0 (Hi i0 I0) P0) as Used.
      assert (Cnt : length (filter P (seq 0 i0)) = count (fun j => j <? i0) is).
      { unfold count. apply Permutation_length, NoDup_Permutation; [apply NoDup_filter, seq_NoDup|apply NoDup_filter, ND|].
        intros j. rewrite !filter_In, in_seq, Nat.ltb_lt. unfold P. destruct (in_dec Nat.eq_dec j is); split; intros; intuition (try lia; try discriminate). }
      rewrite Cnt in Used.
      set (src := firstn t (filter P (seq 0 n))) in *.
      assert (Hsrc : forall j, In j src -> In j is /\ j < n).
      { intros j Hj. apply firstn_In' in Hj. apply filter_In in Hj as (J1 & J2). apply in_seq in J1. unfold P in J2. split; [|lia].
        destruct (in_dec Nat.eq_dec j is); [assumption|discriminate]. }
      assert (Lsrc : length src = t) by (unfold src; rewrite firstn_length; lia).
      assert (NDs : NoDup src) by (apply firstn_NoDup, NoDup_filter, seq_NoDup).
      assert (Fv : forall j, In j src -> peval f (i2b j) = nth k (d j) x00).
      { intros j Hj. rewrite (F2 j Hj). destruct (Hsrc j Hj) as (J1 & J2). unfold edited_pieces. rewrite NP by exact J2. destruct (in_dec Nat.eq_dec j is); [reflexivity|contradiction]. }
      assert (Fz : forall j, In j src -> j <> i0 -> peval f (i2b j) = x00).
      { intros j Hj Hne. rewrite (Fv j Hj). unfold d. destruct (Nat.eqb_spec j i0); [contradiction|]. apply nth_repeat_lt. exact Hk'. }
      destruct (in_dec Nat.eq_dec i0 src) as [J|J].
      * assert (Z : peval f (i2b m) = x00 <-> peval f (i2b i0) = x00).
        { apply (zero_elsewhere t f src i0 m); try assumption; [intros j Hj; destruct (Hsrc j Hj); lia|lia|]. intros F. destruct (Hsrc m F). contradiction. }
        rewrite Z, (Fv i0 J). unfold d. rewrite Nat.eqb_refl. split; [intros X; split; [exact X|right; split; [exact Y|apply Used, J]]|intros (X & _); exact X].
      * assert (Z : f = repeat x00 t).
        { apply (poly_unique f (repeat x00 t) (map rsPoint src)); [rewrite repeat_length; exact F1|rewrite map_length; lia|apply map_rsPoint_NoDup; [exact NDs|intros j Hj; destruct (Hsrc j Hj); lia]|].
          intros y Hy. apply in_map_iff in Hy as (j & <- & Hj). rewrite <- !peval_heval. unfold rsPoint. rewrite Fz; [|exact Hj|intros ->; contradiction].
          rewrite peval_heval. symmetry. exact (heval_app_zeros [] t (i2b j)). }
        rewrite Z. split; [intros X; exfalso; apply X; rewrite peval_heval; exact (heval_app_zeros [] t (i2b m))|].
        intros (_ & [->|(_ & X)]); [contradiction|]. exfalso. apply J, Used, X.
Qed.

(** C92: pieces XORed with anything, any threshold or more of the shares given. krawczyk.Combine reports no error; it returns the secret XORed with what the
    Reed-Solomon code makes of the differences: [e] are the first threshold pieces of the code word that the differences belong to (rs_completion). *)
Lemma C92_split_pf : forall E zp rd ar growcap krand perm stream polB trB evBufs secret parts threshold shares ss is (d : nat -> list byte),
  (forall i, 0 < rd i) -> grow_ok growcap -> Permutation perm (seq 0 255) ->
  krSplit E zp ar growcap krand perm stream polB trB evBufs secret parts threshold = Ret shares ->
  let n := Z.to_nat parts in let t := Z.to_nat threshold in let len := ceil_div (length secret) t in
  NoDup is -> (forall i, In i is -> i < n) -> t <= length is ->
  (forall i, In i is -> length (d i) = len) ->
  somes ss = map (fun i => xor_piece (nth i shares []) (d i)) is ->
  exists e, rs_completion t len (map (fun i => if in_dec Nat.eq_dec i is then d i else []) (seq 0 n)) e /\
    krCombine E zp rd ss parts threshold = Ret (xor_bytes secret (firstn (length secret) (concat e))).
Proof.
  intros E zp rd ar growcap krand perm stream polB trB evBufs secret parts threshold shares ss is d Hrd G P R n t.
  assert (V : kr_valid_args zp secret parts threshold) by (apply (C34_contract_pf E zp ar growcap krand perm stream polB trB evBufs secret parts threshold G P); exists shares; exact R).
  apply (linear_core E zp rd secret (map krand (seq 0 16))); [exact Hrd|exact V|rewrite map_length; apply seq_length|].
  exact (C33_shape_pf E zp ar growcap krand perm stream polB trB evBufs secret parts threshold shares G P R).
Qed.

Lemma C92_randomizer_pf : forall fuel E zp rd ar growcap ks polB trB evBufs secret parts threshold shares ss is (d : nat -> list byte),
  (forall i, 0 < rd i) -> grow_ok growcap ->
  krSplitWithRandomizer fuel E zp ar growcap ks polB trB evBufs secret parts threshold = Ret shares ->
  let n := Z.to_nat parts in let t := Z.to_nat threshold in let len := ceil_div (length secret) t in
  NoDup is -> (forall i, In i is -> i < n) -> t <= length is ->
  (forall i, In i is -> length (d i) = len) ->
  somes ss = map (fun i => xor_piece (nth i shares []) (d i)) is ->
  exists e, rs_completion t len (map (fun i => if in_dec Nat.eq_dec i is then d i else []) (seq 0 n)) e /\
    krCombine E zp rd ss parts threshold = Ret (xor_bytes secret (firstn (length secret) (concat e))).
Proof.
  intros fuel E zp rd ar growcap ks polB trB evBufs secret parts threshold shares ss is d Hrd G R n t.
  destruct (krSWR_inv _ _ _ _ _ _ _ _ _ _ _ _ _ G R) as (V & _).
  apply (linear_core E zp rd secret (map ks (seq 0 16))); [exact Hrd|exact V|rewrite map_length; apply seq_length|].
  exact (C40_shape_pf fuel E zp ar growcap ks polB trB evBufs secret parts threshold shares G R).
Qed.

(** C92: one altered piece. The shares numbered [is] are given, threshold or more of them; the piece of number [i0] is XORed with [delta], the other shares
    are genuine. The secret is cut into threshold pieces of [len] bytes. A byte of the result is wrong exactly if [delta] is nonzero at its position in its piece,
    and either that piece is number [i0] itself, or it is one whose share was not given while fewer than threshold of the given shares have
    a number below [i0]. *)
Lemma C92_one_split_pf : forall E zp rd ar growcap krand perm stream polB trB evBufs secret parts threshold shares ss is i0 delta,
  (forall i, 0 < rd i) -> grow_ok growcap -> Permutation perm (seq 0 255) ->
  krSplit E zp ar growcap krand perm stream polB trB evBufs secret parts threshold = Ret shares ->
  let t := Z.to_nat threshold in let len := ceil_div (length secret) t in
  NoDup is -> (forall i, In i is -> i < Z.to_nat parts) -> t <= length is -> In i0 is -> length delta = len ->
  somes ss = map (fun i => if i =? i0 then xor_piece (nth i shares []) delta else nth i shares []) is ->
  exists out, krCombine E zp rd ss parts threshold = Ret out /\ length out = length secret /\
    forall p, p < length secret ->
      (nth p out x00 <> nth p secret x00 <->
       nth (p mod len) delta x00 <> x00 /\
       (p / len = i0 \/ (~ In (p / len) is /\ count (fun j => j <? i0) is < t))).
Proof.
  intros E zp rd ar growcap krand perm stream polB trB evBufs secret parts threshold shares ss is i0 delta Hrd G P R t len.
  assert (V : kr_valid_args zp secret parts threshold) by (apply (C34_contract_pf E zp ar growcap krand perm stream polB trB evBufs secret parts threshold G P); exists shares; exact R).
  apply (one_core E zp rd secret (map krand (seq 0 16))); [exact Hrd|exact V|rewrite map_length; apply seq_length|].
  exact (C33_shape_pf E zp ar growcap krand perm stream polB trB evBufs secret parts threshold shares G P R).
Qed.

Lemma C92_one_randomizer_pf : forall fuel E zp rd ar growcap ks polB trB evBufs secret parts threshold shares ss is i0 delta,
  (forall i, 0 < rd i) -> grow_ok growcap ->
  krSplitWithRandomizer fuel E zp ar growcap ks polB trB evBufs secret parts threshold = Ret shares ->
  let t := Z.to_nat threshold in let len := ceil_div (length secret) t in
  NoDup is -> (forall i, In i is -> i < Z.to_nat parts) -> t <= length is -> In i0 is -> length delta = len ->
  somes ss = map (fun i => if i =? i0 then xor_piece (nth i shares []) delta else nth i shares []) is ->
  exists out, krCombine E zp rd ss parts threshold = Ret out /\ length out = length secret /\
    forall p, p < length secret ->
      (nth p out x00 <> nth p secret x00 <->
       nth (p mod len) delta x00 <> x00 /\
       (p / len = i0 \/ (~ In (p / len) is /\ count (fun j => j <? i0) is < t))).
Proof.
  intros fuel E zp rd ar growcap ks polB trB evBufs secret parts threshold shares ss is i0 delta Hrd G R t len.
  destruct (krSWR_inv _ _ _ _ _ _ _ _ _ _ _ _ _ G R) as (V & _).
  apply (one_core E zp rd secret (map ks (seq 0 16))); [exact Hrd|exact V|rewrite map_length; apply seq_length|].
  exact (C40_shape_pf fuel E zp ar growcap ks polB trB evBufs secret parts threshold shares G R).
Qed.

(*COPY
(** Three of five shares, pieces 0 and 2 of the secret missing, the first byte of piece 3 altered: bytes 0 and 4 of the secret (the first of pieces 0 and 2) are wrong;
    byte 2 (piece 1) is right. With piece 4 altered and pieces 0 to 2 given nothing is wrong. *)
Example C92_run :
  match krSplit AES true ex_ar growcap117 (fun i => i2b (5 * i + 9)) ex_perm ex_stream ex_stale ex_stale ex_ev ex_secret 5 3 with
  | Ret sh =>
      (match krCombine AES true (fun _ => 512) (map (fun i => Some (if i =? 3 then xor_piece (nth i sh []) [x01; x00] else nth i sh [])) [1; 3; 4]) 5 3 with
       | Ret out => filter (fun p => negb (Byte.eqb (nth p out x00) (nth p ex_secret x00))) (seq 0 5) = [0; 4] | _ => False end) /\
      krCombine AES true (fun _ => 512) (map (fun i => Some (if i =? 4 then xor_piece (nth i sh []) [x01; x00] else nth i sh [])) [0; 1; 2; 4]) 5 3 = Ret ex_secret
  | _ => False end.
Proof. vm_compute. split; reflexivity. Qed.
END*)
