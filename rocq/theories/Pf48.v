(** Proofs about krawczyk.Combine on shares with altered metadata (C93). *)
From Coq Require Import List NArith ZArith Lia Arith Bool Permutation.
From Coq.Init Require Import Byte.
From Verif Require Import GoSem Bytes Spec GF PolyFacts GoFacts Vector Csprng Pool Shamir Libs AES Krawczyk SplitFacts CombineFacts Secrecy SpecKr KrawczykFacts KrawczykCombine CountFacts KrawczykContract ExData VectorFacts RegenFacts Pf6 Pf12 Pf47.
Import ListNotations.

(*PROPS
From Coq Require Import List NArith ZArith Lia Arith Bool Permutation.
From Coq.Init Require Import Byte.
From Verif Require Import GoSem Bytes Spec SpecKr Vector Csprng Pool Shamir Libs AES Krawczyk ExData Pf12 Pf47 Pf48.
Import ListNotations.
*)

(** the code: altered pieces complete to the genuine ones XORed with the completion of the differences *)
Lemma pieces_completion t n len (orig d : nat -> list byte) is :
  2 <= t -> t <= n -> n <= 255 -> 0 < len -> rs_codeword t n len orig ->
  NoDup is -> (forall i, In i is -> i < n) -> t <= length is -> (forall i, In i is -> length (d i) = len) ->
  exists e, rs_completion t len (edited_pieces is d n) e /\
    rs_completion t len (edited_pieces is (fun i => xor_bytes (orig i) (d i)) n) (map (fun i => xor_bytes (orig i) (nth i e [])) (seq 0 t)).
Proof.
  intros Ht Htn H255 Hlen (B & CW) ND Hi Lis Ld. assert (H256 : n <= 256) by lia.
  set (pc := fun i => xor_bytes (orig i) (d i)).
  assert (Lpc : forall i, In i is -> length (pc i) = len).
  { intros i I. unfold pc. rewrite xor_bytes_length; [apply B, Hi, I|]. rewrite B by (apply Hi, I). symmetry. apply Ld, I. }
  pose proof (edited_present (repeat x00 16) n eq_refl H256 is pc len ND Lpc Hlen n Hi) as PP.
  pose proof (edited_present (repeat x00 16) n eq_refl H256 is d len ND Ld Hlen n Hi) as PD.
  assert (Lp : forall q, length (edited_pieces is q n) = n) by (intros q; unfold edited_pieces; rewrite map_length; apply seq_length).
  assert (NP : forall q i, i < n -> nth i (edited_pieces is q n) [] = if in_dec Nat.eq_dec i is then q i else []).
  { intros q i I. unfold edited_pieces. rewrite nth_map_seq by exact I. reflexivity. }
  assert (Pres : present (edited_pieces is pc n) = present (edited_pieces is d n)).
  { unfold present. rewrite !Lp. apply filter_ext_in. intros i I. apply in_seq in I. rewrite !NP by lia.
    destruct (in_dec Nat.eq_dec i is) as [Y|_]; [|reflexivity]. rewrite (Lpc i Y), (Ld i Y). reflexivity. }
  assert (EX : exists e, rs_completion t len (edited_pieces is d n) e).
  { destruct (reconstruct_cases t (edited_pieces is d n)) as [(R1 & _)|[(R1 & _)|(len' & R0 & R1 & (p & R2 & R2') & [(R3 & _)|(R3 & o & _ & _ & R6)])]]; rewrite ?Lp; try lia.
    - exfalso. destruct is as [|i r] eqn:Ei; [cbn [length] in Lis; lia|]. rewrite <- Ei in *. assert (I : In i is) by (rewrite Ei; left; reflexivity).
      assert (Z : nth i (edited_pieces is d n) [] = []) by (apply R1, nth_In; rewrite Lp; apply Hi, I).
      rewrite NP in Z by (apply Hi, I). destruct (in_dec Nat.eq_dec i is); [|contradiction]. specialize (Ld i I). rewrite Z in Ld. cbn [length] in Ld. lia.
    - exfalso. destruct R1 as (p & q & I1 & I2 & N1 & N2 & X).
      destruct (edited_uniform is d len Ld n p I1), (edited_uniform is d len Ld n q I2); congruence.
    - exfalso. rewrite (Permutation_length PD) in R3. lia.
    - exists (firstn t o). replace len with len'; [exact R6|]. destruct (R1 p R2) as [Y|Y]; [|congruence].
      destruct (edited_uniform is d len Ld n p R2); congruence. }
  destruct EX as (e & Ce). exists e. split; [exact Ce|]. pose proof Ce as (_ & Le & He).
  split; [rewrite (Permutation_length PP); exact Lis|]. split; [rewrite map_length, seq_length; reflexivity|].
  intros i I. rewrite nth_map_seq by exact I. fold pc. rewrite NP by lia. destruct (He i I) as (E1 & E2 & E3). rewrite NP in E2, E3 by lia.
  split; [rewrite xor_bytes_length; [apply B; lia|rewrite B, E1 by lia; reflexivity]|].
  destruct (in_dec Nat.eq_dec i is) as [Y|Y].
  - assert (Nd : d i <> []) by (intros X; specialize (Ld i Y); rewrite X in Ld; cbn [length] in Ld; lia).
    split; [intros _; unfold pc; rewrite E2 by exact Nd; reflexivity|].
    intros X. specialize (Lpc i Y). rewrite X in Lpc. cbn [length] in Lpc. lia.
  - split; [congruence|]. intros _ k Hk'. destruct (E3 eq_refl k Hk') as (f & F1 & F2 & F3). destruct (CW k Hk') as (g & G1 & G2).
    exists (xor_bytes g f). split; [rewrite xor_bytes_length; congruence|].
    assert (PV : forall x, peval (xor_bytes g f) x = gadd (peval g x) (peval f x)) by (intros x; rewrite !peval_heval; apply heval_xor_bytes; congruence).
    rewrite Pres. split.
    + intros j Hj. rewrite PV, (F2 j Hj). assert (Ij : In j is) by (apply firstn_In' in Hj; apply (Permutation_in _ PD), Hj).
      rewrite <- G2 by (apply Hi, Ij). rewrite !NP by (apply Hi, Ij). destruct (in_dec Nat.eq_dec j is); [|contradiction].
      unfold pc. rewrite nth_xor_bytes; [reflexivity|]. rewrite B by (apply Hi, Ij). symmetry. apply Ld, Ij.
    + rewrite PV, <- F3. rewrite nth_xor_bytes by (rewrite B, E1 by lia; reflexivity). rewrite <- G2 by lia. reflexivity.
Qed.

(** ** shares made of any metadata [mt] and pieces [pc], the indices intact *)
Section made.
Context (zp : bool) (n : nat) (H256 : n <= 256) (ss : list (option (list byte))) (is : list nat) (mt pc : nat -> list byte) (len : nat)
  (ND : NoDup is) (Hi : forall i, In i is -> i < n) (Lpc : forall i, In i is -> length (pc i) = len) (Hlen : 0 < len)
  (Lmt : forall i, In i is -> length (mt i) = 21) (NDt : NoDup (map (fun i => tag (mt i)) is))
  (Ess : somes ss = map (fun i => mt i ++ pc i ++ [i2b i]) is).

Let g i := mt i ++ pc i ++ [i2b i].

Lemma made_meta i : In i is -> kr_meta (g i) = mt i.
Proof. intros I. unfold g, kr_meta. rewrite firstn_app, (Lmt i I), Nat.sub_diag, firstn_O, app_nil_r. apply firstn_all2. rewrite (Lmt i I). lia. Qed.

Lemma made_piece i : In i is -> kr_piece (g i) = pc i.
Proof.
  intros I. unfold g, kr_piece. rewrite skipn_app, (Lmt i I), Nat.sub_diag, skipn_O, skipn_all2 by (rewrite (Lmt i I); lia).
  cbn [app]. apply removelast_last.
Qed.

Lemma made_tag i : tag (g i) = i2b i.
Proof. unfold g, tag. rewrite app_assoc. apply last_last. Qed.

Lemma made_piece_at i : i < 256 -> piece_at (map g is) i (if in_dec Nat.eq_dec i is then pc i else []).
Proof.
  intros H. destruct (in_dec Nat.eq_dec i is) as [I|I].
  - left. pose proof (made_piece i I) as MP. apply in_split in I as (l1 & l2 & E1). exists (map g l1), (g i), (map g l2). split; [rewrite E1, map_app; reflexivity|]. split; [apply made_tag|].
    split; [symmetry; exact MP|]. intros s Hs. apply in_map_iff in Hs as (j & <- & Hj).
    rewrite made_tag. intros X. apply i2b_inj in X; [|apply Nat.lt_le_trans with n; [apply Hi; rewrite E1; apply in_or_app; right; right; exact Hj|exact H256]|exact H]. subst j.
    rewrite E1 in ND. apply NoDup_remove_2 in ND. apply ND, in_or_app. right. exact Hj.
  - right. split; [reflexivity|]. intros s Hs. apply in_map_iff in Hs as (j & <- & Hj). rewrite made_tag. intros X.
    apply i2b_inj in X; [subst; contradiction|apply Nat.lt_le_trans with n; [apply Hi, Hj|exact H256]|exact H].
Qed.

Lemma made_scanned parts threshold : (2 <= threshold)%Z -> (threshold <= parts <= 255)%Z -> (zp = true \/ (threshold < parts)%Z) ->
  2 <= length is -> (forall i, In i is -> i < Z.to_nat parts) -> (Z.of_nat (len + 22) <= 4294967295)%Z ->
  kr_scanned zp (map (option_map (fun s => (s, []))) ss) parts threshold (map g is) (edited_pieces is pc (Z.to_nat parts)).
Proof.
  intros H2 H3 Hz L2 Hn Hmax.
  assert (Esh : map g is = map fst (somes (map (option_map (fun s : list byte => (s, @nil byte))) ss))).
  { rewrite somes_map, map_map. cbn [fst]. rewrite map_id. symmetry. exact Ess. }
  assert (Lg : forall i, In i is -> length (g i) = len + 22).
  { intros i I. unfold g. rewrite !app_length, Lmt, Lpc by auto. cbn [length]. lia. }
  assert (Tg : map (fun s => tag (kr_meta s)) (map g is) = map (fun i => tag (mt i)) is).
  { rewrite map_map. apply map_ext_in. intros i I. rewrite made_meta by exact I. reflexivity. }
  split; [destruct ss; [destruct is; cbn in *; [lia|discriminate]|discriminate]|]. split; [|split; [lia|split; [exact Esh|]]].
  - assert (Lb : first_length (map (option_map (fun s => (s, []))) ss) <= len + 22).
    { destruct ss as [|[s|] r]; cbn [map option_map first_length]; [lia| |lia]. destruct is as [|i is']; [cbn in L2; lia|]. cbn [somes map] in Ess. injection Ess as Es _.
      rewrite Es. fold (g i). rewrite Lg by (left; reflexivity). lia. }
    unfold kr_params. lia.
  - split; [|split; [rewrite map_length; exact L2|split; [rewrite Tg; exact NDt|split; [lia|split; [exact Hz|split; [unfold edited_pieces; rewrite map_length, seq_length; reflexivity|]]]]]].
    + apply Forall_forall. intros s Hs. apply in_map_iff in Hs as (i & <- & I). split; [rewrite Lg by exact I; lia|].
      rewrite made_tag, b2z_b2i. specialize (Hn i I). rewrite b2i_i2b by lia. lia.
    + intros i I. unfold edited_pieces. rewrite nth_map_seq by exact I. apply made_piece_at. lia.
Qed.
End made.

Lemma meta_core E zp rd secret key parts threshold shares ss is (mt d : nat -> list byte) :
  (forall i, 0 < rd i) -> kr_valid_args zp secret parts threshold -> length key = 16 ->
  kr_shape E secret key (Z.to_nat parts) (Z.to_nat threshold) shares ->
  NoDup is -> (forall i, In i is -> i < Z.to_nat parts) -> Z.to_nat threshold <= length is ->
  (forall i, In i is -> length (d i) = ceil_div (length secret) (Z.to_nat threshold)) ->
  (forall i, In i is -> length (mt i) = 21) -> NoDup (map (fun i => tag (mt i)) is) ->
  somes ss = map (fun i => mt i ++ xor_bytes (kr_piece (nth i shares [])) (d i) ++ [i2b i]) is ->
  exists md e c, Combine (map mt is) = Ret md /\ length md = 20 /\
    rs_completion (Z.to_nat threshold) (ceil_div (length secret) (Z.to_nat threshold))
              (map (fun i => if in_dec Nat.eq_dec i is then d i else []) (seq 0 (Z.to_nat parts))) e /\
    ofb_cipher E key secret c /\
    let room := Z.to_nat threshold * ceil_div (length secret) (Z.to_nat threshold) in
    let size := N.to_nat (le32_value (skipn 16 md)) in
    (room < size -> krCombine E zp rd ss parts threshold = Fail ERSShortData) /\
    (size <= room -> exists out, krCombine E zp rd ss parts threshold = Ret out /\
       ofb_cipher E (firstn 16 md) (firstn size (xor_bytes (c ++ repeat x00 (room - length secret)) (concat e))) out).
Proof.
  intros Hrd V Hk SH ND Hi Lis Ld Lmt NDt Ess. pose proof V as (Hs & HL & H2 & H3 & H4 & Hz).
  pose proof SH as (Ls & A & _ & CWP & c & EC & EP). pose proof CWP as (B & _).
  set (n := Z.to_nat parts) in *. set (t := Z.to_nat threshold) in *. set (len := ceil_div (length secret) t) in *. pose proof EC as (Lc & _).
  assert (Pos : 0 < length secret) by (destruct secret; [congruence|cbn [length]; lia]).
  assert (Ht : 2 <= t) by (unfold t; lia).
  pose proof (ceil_div_bounds (length secret) t ltac:(lia)) as CB. fold len in CB.
  assert (Hlen : 0 < len) by nia. assert (H255 : n <= 255) by (unfold n; lia). assert (Htn : t <= n) by (unfold t, n; lia).
  destruct (pieces_completion t n len _ d is Ht Htn H255 Hlen CWP ND Hi Lis Ld) as (e & Ce & Cp).
  set (pc := fun i => xor_bytes (kr_piece (nth i shares [])) (d i)) in *.
  assert (Lpc : forall i, In i is -> length (pc i) = len).
  { intros i I. unfold pc. rewrite xor_bytes_length; [apply B, Hi, I|]. rewrite B by (apply Hi, I). symmetry. apply Ld, I. }
  pose proof (made_scanned zp n ltac:(lia) ss is mt pc len ND Hi Lpc Hlen Lmt NDt Ess parts threshold H2 ltac:(lia) Hz ltac:(lia) Hi ltac:(nia)) as SC.
  pose proof SC as (_ & KP & _ & _ & Acc & L2 & NDs & _).
  destruct (metadata_combine _ parts Acc) as [(X & _)|[(_ & X & _)|(_ & _ & md & M1 & M2)]]; [lia|contradiction|].
  match type of M2 with Combine ?x = _ => replace x with (map mt is) in M2 by (symmetry; rewrite map_map; apply map_ext_in; intros i I; unfold kr_meta; rewrite firstn_app, (Lmt i I), Nat.sub_diag, firstn_O, app_nil_r; apply firstn_all2; rewrite (Lmt i I); lia) end. pose proof M1 as (Lmd & _).
  exists md, e, c. split; [exact M2|]. split; [exact Lmd|]. split; [exact Ce|]. split; [exact EC|]. cbv zeta.
  pose proof Ce as (_ & Le & He).
  assert (ED : concat (map (fun i => xor_bytes (kr_piece (nth i shares [])) (nth i e [])) (seq 0 t)) = xor_bytes (c ++ repeat x00 (t * len - length secret)) (concat e)).
  { rewrite xor_concat.
    2:{ intros i I. apply in_seq in I. destruct (He i ltac:(lia)) as (E1 & _). rewrite B, E1 by lia. reflexivity. }
    rewrite <- (map_map (fun i => nth i shares []) kr_piece), <- (firstn_ext_map shares [] t) by (rewrite Ls; lia). rewrite EP.
    rewrite <- (firstn_ext_map e [] t) by lia. rewrite (firstn_all2 e) by lia. reflexivity. }
  assert (Hex : forall p, In p (edited_pieces is pc n) -> length p = len \/ p = []) by (intros p Hp; eapply edited_uniform; eassumption).
  destruct (C55_contract_pf E zp rd (map (option_map (fun s => (s, []))) ss) parts threshold Hrd) as (CR & CF).
  split; intros Hsz.
  - apply (CF ERSShortData). split; [pose proof SC as (X & _); exact X|]. cbv zeta. do 4 right. split; [exact KP|]. split; [lia|]. right. right.
    exists (edited_pieces is pc n). split; [pose proof SC as (_ & _ & _ & Esh & _); rewrite <- Esh; exact SC|]. right. right. exists len. split; [exact Hlen|].
    split; [exact Hex|]. split; [eapply completion_witness; [|exact Cp]; lia|]. right. split; [reflexivity|].
    destruct Cp as (Cp & _). split; [exact Cp|]. exists md. split; [pose proof SC as (_ & _ & _ & Esh & _); rewrite <- Esh; exact M1|]. fold t. lia.
  - exists (xorStreamFrom (ofbStream E (firstn 16 md) (zeros 16)) 0 (firstn (N.to_nat (le32_value (skipn 16 md))) (xor_bytes (c ++ repeat x00 (t * len - length secret)) (concat e)))).
    split; [|apply ofb_cipher_iff; reflexivity]. apply CR.
    eexists _, (edited_pieces is pc n), len, _, md. split; [exact SC|]. split; [exact Hlen|]. split; [exact Hex|]. split; [exact Cp|]. split; [exact M1|].
    cbv zeta. split; [fold t; lia|]. rewrite ED. apply ofb_cipher_iff. reflexivity.
Qed.

(** C93: metadata replaced by anything of 21 bytes with distinct tags, pieces XORed with anything, indices intact; threshold or more shares. With [md] what
    shamir.Combine makes of the metadata given, [c] the ciphertext of the secret and [e] what the code makes of the differences of the pieces: krawczyk.Combine decrypts,
    under the first 16 bytes of [md], as many bytes of the padded ciphertext, XORed with [e], as the last four bytes of [md] say; it reports an error
    exactly if these are more than the pieces hold. *)
Lemma C93_split_pf : forall E zp rd ar growcap krand perm stream polB trB evBufs secret parts threshold shares ss is (mt d : nat -> list byte),
  (forall i, 0 < rd i) -> grow_ok growcap -> Permutation perm (seq 0 255) ->
  krSplit E zp ar growcap krand perm stream polB trB evBufs secret parts threshold = Ret shares ->
  let n := Z.to_nat parts in let t := Z.to_nat threshold in let len := ceil_div (length secret) t in
  selection n t is -> (forall i, In i is -> length (d i) = len) ->
  (forall i, In i is -> length (mt i) = 21) -> NoDup (map (fun i => tag (mt i)) is) ->
  somes ss = map (fun i => mt i ++ xor_bytes (kr_piece (nth i shares [])) (d i) ++ [tag (nth i shares [])]) is ->
  exists md e c, Combine (map mt is) = Ret md /\ length md = 20 /\
    rs_completion t len (map (fun i => if in_dec Nat.eq_dec i is then d i else []) (seq 0 n)) e /\
    ofb_cipher E (map krand (seq 0 16)) secret c /\
    let size := N.to_nat (le32_value (skipn 16 md)) in
    (t * len < size -> krCombine E zp rd ss parts threshold = Fail ERSShortData) /\
    (size <= t * len -> exists out, krCombine E zp rd ss parts threshold = Ret out /\
       ofb_cipher E (firstn 16 md) (firstn size (xor_bytes (c ++ repeat x00 (t * len - length secret)) (concat e))) out).
Proof.
  intros E zp rd ar growcap krand perm stream polB trB evBufs secret parts threshold shares ss is mt d Hrd G P R n t len (ND & Hi & Lis) Ld Lmt NDt Ess.
  assert (V : kr_valid_args zp secret parts threshold) by (apply (C34_contract_pf E zp ar growcap krand perm stream polB trB evBufs secret parts threshold G P); exists shares; exact R).
  pose proof (C33_shape_pf E zp ar growcap krand perm stream polB trB evBufs secret parts threshold shares G P R) as SH.
  apply (meta_core E zp rd secret (map krand (seq 0 16)) parts threshold shares ss is mt d); try assumption; [rewrite map_length; apply seq_length|].
  rewrite Ess. apply map_ext_in. intros i I. destruct SH as (_ & A & _). destruct (A i (Hi i I)) as (_ & ->). reflexivity.
Qed.

Lemma C93_randomizer_pf : forall fuel E zp rd ar growcap ks polB trB evBufs secret parts threshold shares ss is (mt d : nat -> list byte),
  (forall i, 0 < rd i) -> grow_ok growcap ->
  krSplitWithRandomizer fuel E zp ar growcap ks polB trB evBufs secret parts threshold = Ret shares ->
  let n := Z.to_nat parts in let t := Z.to_nat threshold in let len := ceil_div (length secret) t in
  selection n t is -> (forall i, In i is -> length (d i) = len) ->
  (forall i, In i is -> length (mt i) = 21) -> NoDup (map (fun i => tag (mt i)) is) ->
  somes ss = map (fun i => mt i ++ xor_bytes (kr_piece (nth i shares [])) (d i) ++ [tag (nth i shares [])]) is ->
  exists md e c, Combine (map mt is) = Ret md /\ length md = 20 /\
    rs_completion t len (map (fun i => if in_dec Nat.eq_dec i is then d i else []) (seq 0 n)) e /\
    ofb_cipher E (map ks (seq 0 16)) secret c /\
    let size := N.to_nat (le32_value (skipn 16 md)) in
    (t * len < size -> krCombine E zp rd ss parts threshold = Fail ERSShortData) /\
    (size <= t * len -> exists out, krCombine E zp rd ss parts threshold = Ret out /\
       ofb_cipher E (firstn 16 md) (firstn size (xor_bytes (c ++ repeat x00 (t * len - length secret)) (concat e))) out).
Proof.
  intros fuel E zp rd ar growcap ks polB trB evBufs secret parts threshold shares ss is mt d Hrd G R n t len (ND & Hi & Lis) Ld Lmt NDt Ess.
  destruct (krSWR_inv _ _ _ _ _ _ _ _ _ _ _ _ _ G R) as (V & _).
  pose proof (C40_shape_pf fuel E zp ar growcap ks polB trB evBufs secret parts threshold shares G R) as SH.
  apply (meta_core E zp rd secret (map ks (seq 0 16)) parts threshold shares ss is mt d); try assumption; [rewrite map_length; apply seq_length|].
  rewrite Ess. apply map_ext_in. intros i I. destruct SH as (_ & A & _). destruct (A i (Hi i I)) as (_ & ->). reflexivity.
Qed.

(** ** choosing the length of the result *)
Lemma zero_completion t n len is e : 2 <= t -> n <= 255 -> 0 < len -> NoDup is -> (forall i, In i is -> i < n) -> t <= length is -> 
  rs_completion t len (edited_pieces is (fun _ => repeat x00 len) n) e -> concat e = repeat x00 (t * len).
Proof.
  intros Ht H255 Hlen ND Hi Lis Ce.
  assert (Lp : length (edited_pieces is (fun _ => repeat x00 len) n) = n) by (unfold edited_pieces; rewrite map_length; apply seq_length).
  assert (PD : Permutation (present (edited_pieces is (fun _ => repeat x00 len) n)) is).
  { apply (edited_present (repeat x00 16) n eq_refl ltac:(lia) is _ len ND); [intros i _; apply repeat_length|exact Hlen|exact Hi]. }
  assert (E : e = repeat (repeat x00 len) t).
  { apply (completion_unique t len (edited_pieces is (fun _ => repeat x00 len) n)); [exact Hlen|lia|exact Ce|]. pose proof Ce as (Cp & _). split; [exact Cp|].
    split; [apply repeat_length|]. intros i I. rewrite nth_repeat_lt by exact I. split; [apply repeat_length|].
    assert (Z : forall i, nth i (edited_pieces is (fun _ => repeat x00 len) n) [] <> [] -> nth i (edited_pieces is (fun _ => repeat x00 len) n) [] = repeat x00 len).
    { intros j Hj. destruct (Nat.lt_ge_cases j n) as [J|J]; [|rewrite nth_overflow in Hj by lia; congruence].
      unfold edited_pieces in *. rewrite nth_map_seq in * by exact J. destruct (in_dec Nat.eq_dec j is); [reflexivity|congruence]. }
    split; [intros Y; symmetry; apply Z, Y|]. intros _ k Hk. exists (repeat x00 t). split; [apply repeat_length|].
    assert (ZE : forall x, peval (repeat x00 t) x = x00) by (intros x; rewrite peval_heval; exact (heval_app_zeros [] t x)).
    split; [|rewrite ZE; apply nth_repeat_lt; exact Hk]. intros j Hj. rewrite ZE. apply firstn_In', present_In in Hj as (_ & Hj). rewrite (Z j Hj).
    symmetry. apply nth_repeat_lt. exact Hk. }
  rewrite E. clear. induction t as [|t IH]; [reflexivity|]. cbn [repeat concat]. rewrite IH. symmetry. exact (repeat_app x00 len (t * len)).
Qed.

Lemma le32_length v : length (le32 v) = 4.
Proof. reflexivity. Qed.

Lemma xor_xor a : forall b, length a = length b -> xor_bytes a (xor_bytes a b) = b.
Proof.
  induction a as [|x a IH]; intros [|y b] L; cbn [length] in L; try discriminate; [reflexivity|]. cbn [xor_bytes]. f_equal; [|apply IH; congruence].
  change bxor with gadd. transitivity (gadd (gadd x x) y); [ring|]. rewrite gadd_self. apply gadd_0_l.
Qed.

Lemma xor_zeros' n s : length s = n -> xor_bytes s (repeat x00 n) = s.
Proof.
  intros <-. apply nth_ext with x00 x00; rewrite xor_bytes_length by (rewrite repeat_length; reflexivity); [reflexivity|]. intros k Hk.
  rewrite nth_xor_bytes by (rewrite repeat_length; reflexivity). rewrite nth_repeat_lt by exact Hk. apply gadd_0_r.
Qed.

Lemma skipn_tag m k : length m = S k -> skipn k m = [tag m].
Proof.
  intros L. assert (N : m <> []) by (intros ->; discriminate). rewrite (app_removelast_last x00 N) at 1.
  rewrite skipn_app. assert (Lr : length (removelast m) = k) by (rewrite removelast_firstn_len, firstn_length; lia).
  rewrite skipn_all2 by lia. rewrite Lr, Nat.sub_diag. reflexivity.
Qed.

(** the share with its key and length shares XORed with [dm] *)
Lemma resize_core tags a : NoDup tags -> ~ In x00 tags -> a < length tags ->
  exists m, m <> x00 /\ forall E zp rd secret key parts threshold shares ss is size,
  (forall i, 0 < rd i) -> kr_valid_args zp secret parts threshold -> length key = 16 ->
  kr_shape E secret key (Z.to_nat parts) (Z.to_nat threshold) shares ->
  selection (Z.to_nat parts) (Z.to_nat threshold) is ->
  map (fun i => tag (kr_meta (nth i shares []))) is = tags -> (Z.of_nat size <= 4294967295)%Z ->
  let room := Z.to_nat threshold * ceil_div (length secret) (Z.to_nat threshold) in
  let s := nth (nth a is 0) shares [] in
  let diff := repeat x00 16 ++ xor_bytes (le32 (N.of_nat (length secret))) (le32 (N.of_nat size)) in
  somes ss = replace (pick [] shares is) a (xor_bytes (firstn 20 s) (map (gmul m) diff) ++ skipn 20 s) ->
  (size <= room -> exists out, krCombine E zp rd ss parts threshold = Ret out /\ length out = size /\ firstn (length secret) out = firstn size secret) /\
  (room < size -> krCombine E zp rd ss parts threshold = Fail ERSShortData).
Proof.
  intros NDt N0 Ha. destruct (C57_targeted_pf tags a NDt N0 Ha) as (m & Hm & T). exists m. split; [exact Hm|].
  intros E zp rd secret key parts threshold shares ss is size Hrd V Hk SH (ND & Hi & Lis) Etags Hsize room s diff Ess.
  pose proof V as (Hs & HL & H2 & H3 & H4 & Hz). pose proof SH as (Ls & A & (polys & IS) & (B & _) & _).
  set (n := Z.to_nat parts) in *. set (t := Z.to_nat threshold) in *. set (len := ceil_div (length secret) t) in *.
  assert (Pos : 0 < length secret) by (destruct secret; [congruence|cbn [length]; lia]).
  assert (Ht : 2 <= t) by (unfold t; lia). assert (H255 : n <= 255) by (unfold n; lia).
  pose proof (ceil_div_bounds (length secret) t ltac:(lia)) as CB. fold len in CB. assert (Hlen : 0 < len) by nia.
  assert (Lis' : a < length is) by (rewrite <- Etags, map_length in Ha; exact Ha).
  set (a0 := nth a is 0) in *. assert (I0 : In a0 is) by (apply nth_In; exact Lis').
  assert (Lmeta : forall i, In i is -> length (kr_meta (nth i shares [])) = 21).
  { intros i I. destruct (A i (Hi i I)) as (L & _). unfold kr_meta. rewrite firstn_length. lia. }
  assert (Ldiff : length diff = 20) by reflexivity.
  set (mt := fun i => if i =? a0 then xor_bytes (data (kr_meta (nth i shares []))) (map (gmul m) diff) ++ [tag (kr_meta (nth i shares []))] else kr_meta (nth i shares [])).
  assert (Dk : forall i, In i is -> data (kr_meta (nth i shares [])) = firstn 20 (nth i shares [])).
  { intros i I. unfold data. specialize (Lmeta i I). rewrite removelast_firstn_len, Lmeta. unfold kr_meta. rewrite firstn_firstn. reflexivity. }
  assert (Ld20 : forall i, In i is -> length (firstn 20 (nth i shares [])) = 20) by (intros i I; destruct (A i (Hi i I)) as (L & _); rewrite firstn_length; lia).
  assert (Lmt : forall i, In i is -> length (mt i) = 21).
  { intros i I. unfold mt. destruct (i =? a0); [|apply Lmeta, I]. rewrite app_length, Dk, xor_bytes_length by (try exact I; rewrite map_length, Ld20 by exact I; reflexivity).
    rewrite Ld20 by exact I. reflexivity. }
  assert (Tmt : map (fun i => tag (mt i)) is = tags).
  { rewrite <- Etags. apply map_ext. intros i. unfold mt. destruct (i =? a0); [unfold tag at 1; apply last_last|reflexivity]. }
  set (md := xor_bytes (key ++ le32 (N.of_nat (length secret))) diff).
  assert (CM : Combine (map mt is) = Ret md).
  { assert (C0 : Combine (pick [] (map kr_meta shares) is) = Ret (key ++ le32 (N.of_nat (length secret)))).
    { apply (Combine_is_sharing _ t polys (map (fun s => tag (kr_meta s)) shares)); [exact Ht| |exact IS|].
      - intros X. apply (f_equal (@length byte)) in X. rewrite app_length, Hk in X. cbn [length] in X. lia.
      - split; [exact ND|]. split; [rewrite map_length, Ls; exact Hi|exact Lis]. }
    assert (Ep : pick [] (map kr_meta shares) is = map (fun i => kr_meta (nth i shares [])) is).
    { unfold pick. apply map_ext_in. intros i I. apply (nth_map' kr_meta). rewrite Ls. apply Hi, I. }
    rewrite Ep in C0.
    specialize (T (map (fun i => kr_meta (nth i shares [])) is) _ diff ltac:(rewrite map_map; exact Etags) C0 ltac:(rewrite app_length, Hk; reflexivity)).
    fold md in T. rewrite <- T. f_equal. rewrite replace_set_nth. rewrite (nth_map' (fun i => kr_meta (nth i shares [])) is a [] 0) by exact Lis'. fold a0.
    apply nth_ext with [] []; [rewrite set_nth_length, !map_length by (rewrite map_length; exact Lis'); reflexivity|]. intros k Hk'. rewrite map_length in Hk'.
    rewrite nth_set_nth by (rewrite map_length; exact Lis'). rewrite (nth_map' mt is k [] 0) by exact Hk'. unfold mt.
    destruct (Nat.eqb_spec k a) as [->|Hne].
    - fold a0. rewrite Nat.eqb_refl. reflexivity.
    - destruct (Nat.eqb_spec (nth k is 0) a0) as [X|_]; [exfalso; apply Hne; exact (proj1 (NoDup_nth is 0) ND k a Hk' Lis' X)|].
      rewrite (nth_map' (fun i => kr_meta (nth i shares [])) is k [] 0) by exact Hk'. reflexivity. }
  assert (Ess' : somes ss = map (fun i => mt i ++ xor_bytes (kr_piece (nth i shares [])) (repeat x00 len) ++ [i2b i]) is).
  { rewrite Ess, replace_set_nth. apply nth_ext with [] []; [rewrite set_nth_length; unfold pick; rewrite ?map_length; [reflexivity|exact Lis']|].
    intros k Hk'. rewrite set_nth_length in Hk' by (unfold pick; rewrite map_length; exact Lis'). unfold pick in Hk'. rewrite map_length in Hk'.
    rewrite nth_set_nth by (unfold pick; rewrite map_length; exact Lis').
    rewrite (nth_map' (fun i => mt i ++ xor_bytes (kr_piece (nth i shares [])) (repeat x00 len) ++ [i2b i]) is k [] 0) by exact Hk'.
    assert (Ik : In (nth k is 0) is) by (apply nth_In; exact Hk').
    assert (XP : nth (nth k is 0) shares [] = kr_meta (nth (nth k is 0) shares []) ++ xor_bytes (kr_piece (nth (nth k is 0) shares [])) (repeat x00 len) ++ [i2b (nth k is 0)]).
    { destruct (A _ (Hi _ Ik)) as (LA & TA). rewrite <- TA. symmetry. apply (xor_piece_nil (nth (nth k is 0) shares []) len); [lia|apply B, Hi, Ik]. }
    destruct (Nat.eqb_spec k a) as [->|Hne].
    - fold a0 in XP |- *. unfold mt. rewrite Nat.eqb_refl, Dk by exact I0. fold s in XP |- *.
      set (rest := xor_bytes (kr_piece s) (repeat x00 len) ++ [i2b a0]) in *. rewrite <- app_assoc. f_equal.
      rewrite XP at 1. pose proof (Lmeta a0 I0) as L0. fold s in L0. rewrite skipn_app, L0. cbn [Nat.sub]. rewrite skipn_O. f_equal. apply skipn_tag. exact L0.
    - unfold mt. destruct (Nat.eqb_spec (nth k is 0) a0) as [X|_]; [exfalso; apply Hne; exact (proj1 (NoDup_nth is 0) ND k a Hk' Lis' X)|].
      rewrite <- XP. apply (nth_map' (fun i => nth i shares [])). exact Hk'. }
  destruct (meta_core E zp rd secret key parts threshold shares ss is mt (fun _ => repeat x00 len) Hrd V Hk SH ND Hi Lis) as (md' & e & c & M1 & M2 & M3 & M4 & M5);
    [intros i _; apply repeat_length|exact Lmt|rewrite Tmt; exact NDt|exact Ess'|].
  rewrite CM in M1. injection M1 as <-. fold t n len in M3, M5. fold room in M5.
  assert (Ee : concat e = repeat x00 room) by (apply (zero_completion t n len is); assumption).
  assert (Lc : length c = length secret) by (destruct M4; assumption).
  assert (Emd : skipn 16 md = le32 (N.of_nat size)).
  { unfold md, diff. rewrite xor_bytes_app by (rewrite Hk; reflexivity). rewrite skipn_app, skipn_all2 by (rewrite xor_bytes_length; rewrite Hk; reflexivity || lia).
    rewrite xor_bytes_length, Hk by (rewrite Hk; reflexivity). rewrite Nat.sub_diag, skipn_O. cbn [app]. apply xor_xor. reflexivity. }
  assert (Fmd : firstn 16 md = key).
  { unfold md, diff. rewrite xor_bytes_app by (rewrite Hk; reflexivity). rewrite xor_zeros' by exact Hk. rewrite firstn_app, Hk, Nat.sub_diag, firstn_O, app_nil_r. apply firstn_all2. lia. }
  cbv zeta in M5. rewrite Emd, Fmd, le32_value_le32, Nat2N.id, Ee in M5 by exact Hsize. destruct M5 as (M5 & M6).
  split; [|exact M5]. intros Hr. destruct (M6 Hr) as (out & O1 & O2). exists out. split; [exact O1|].
  assert (Hroom : length secret <= room) by (unfold room; lia).
  rewrite xor_zeros' in O2 by (rewrite app_length, repeat_length; lia).
  apply ofb_cipher_iff in O2, M4. subst out. split; [rewrite xorStreamFrom_length, firstn_length, app_length, repeat_length; lia|].
  rewrite xorStream_firstn. rewrite firstn_firstn, Nat.min_comm, <- firstn_firstn. rewrite firstn_app, Lc, Nat.sub_diag, firstn_O, app_nil_r, (firstn_all2 c) by lia.
  subst c. rewrite xorStream_firstn, xorStream_twice. reflexivity.
Qed.

(** C93: who knows the tags that take part (the index of his own among them), and the length of the secret, can choose the length of the result: for a multiplier [m]
    computed from the tags, XORing his metadata with [m] times the XOR of the two lengths makes krawczyk.Combine return, without an error, a string of the length he chose whose
    first bytes are those of the secret: the secret cut short, or extended with bytes that were never in it. If the length is more than the pieces hold, it
    reports an error. *)
Lemma C93_resize_pf : forall tags a, NoDup tags -> ~ In x00 tags -> a < length tags ->
  exists m, m <> x00 /\ forall E zp rd ar growcap krand perm stream polB trB evBufs secret parts threshold shares ss is size,
  (forall i, 0 < rd i) -> grow_ok growcap -> Permutation perm (seq 0 255) ->
  krSplit E zp ar growcap krand perm stream polB trB evBufs secret parts threshold = Ret shares ->
  selection (Z.to_nat parts) (Z.to_nat threshold) is ->
  map (fun i => tag (kr_meta (nth i shares []))) is = tags -> (Z.of_nat size <= 4294967295)%Z ->
  let room := Z.to_nat threshold * ceil_div (length secret) (Z.to_nat threshold) in
  let s := nth (nth a is 0) shares [] in
  let diff := repeat x00 16 ++ xor_bytes (le32 (N.of_nat (length secret))) (le32 (N.of_nat size)) in
  somes ss = replace (pick [] shares is) a (xor_bytes (firstn 20 s) (map (gmul m) diff) ++ skipn 20 s) ->
  (size <= room -> exists out, krCombine E zp rd ss parts threshold = Ret out /\ length out = size /\ firstn (length secret) out = firstn size secret) /\
  (room < size -> krCombine E zp rd ss parts threshold = Fail ERSShortData).
Proof.
  intros tags a N1 N2 N3. destruct (resize_core tags a N1 N2 N3) as (m & Hm & T). exists m. split; [exact Hm|].
  intros E zp rd ar growcap krand perm stream polB trB evBufs secret parts threshold shares ss is size Hrd G P R.
  assert (V : kr_valid_args zp secret parts threshold) by (apply (C34_contract_pf E zp ar growcap krand perm stream polB trB evBufs secret parts threshold G P); exists shares; exact R).
  apply (T E zp rd secret (map krand (seq 0 16))); [exact Hrd|exact V|rewrite map_length; apply seq_length|].
  exact (C33_shape_pf E zp ar growcap krand perm stream polB trB evBufs secret parts threshold shares G P R).
Qed.

Lemma C93_resize_randomizer_pf : forall tags a, NoDup tags -> ~ In x00 tags -> a < length tags ->
  exists m, m <> x00 /\ forall fuel E zp rd ar growcap ks polB trB evBufs secret parts threshold shares ss is size,
  (forall i, 0 < rd i) -> grow_ok growcap ->
  krSplitWithRandomizer fuel E zp ar growcap ks polB trB evBufs secret parts threshold = Ret shares ->
  selection (Z.to_nat parts) (Z.to_nat threshold) is ->
  map (fun i => tag (kr_meta (nth i shares []))) is = tags -> (Z.of_nat size <= 4294967295)%Z ->
  let room := Z.to_nat threshold * ceil_div (length secret) (Z.to_nat threshold) in
  let s := nth (nth a is 0) shares [] in
  let diff := repeat x00 16 ++ xor_bytes (le32 (N.of_nat (length secret))) (le32 (N.of_nat size)) in
  somes ss = replace (pick [] shares is) a (xor_bytes (firstn 20 s) (map (gmul m) diff) ++ skipn 20 s) ->
  (size <= room -> exists out, krCombine E zp rd ss parts threshold = Ret out /\ length out = size /\ firstn (length secret) out = firstn size secret) /\
  (room < size -> krCombine E zp rd ss parts threshold = Fail ERSShortData).
Proof.
  intros tags a N1 N2 N3. destruct (resize_core tags a N1 N2 N3) as (m & Hm & T). exists m. split; [exact Hm|].
  intros fuel E zp rd ar growcap ks polB trB evBufs secret parts threshold shares ss is size Hrd G R.
  destruct (krSWR_inv _ _ _ _ _ _ _ _ _ _ _ _ _ G R) as (V & _).
  apply (T E zp rd secret (map ks (seq 0 16))); [exact Hrd|exact V|rewrite map_length; apply seq_length|].
  exact (C40_shape_pf fuel E zp ar growcap ks polB trB evBufs secret parts threshold shares G R).
Qed.

(*COPY
(** Three of five shares of "hello"; tags 2, 4 and 5 take part; the owner of the one with tag 4 cuts the secret to "he", extends it by a byte, or
    asks for more than the pieces hold. *)
Example C93_run :
  match krSplit AES true ex_ar growcap117 (fun i => i2b (5 * i + 9)) ex_perm ex_stream ex_stale ex_stale ex_ev ex_secret 5 3 with
  | Ret sh =>
      map (fun i => tag (kr_meta (nth i sh []))) [1; 3; 4] = [x02; x04; x05] /\
      map (fun size => let s := nth 3 sh [] in
         krCombine AES true (fun _ => 512) (map Some (replace (pick [] sh [1; 3; 4]) 1
           (xor_bytes (firstn 20 s) (map (gmul xf4) (repeat x00 16 ++ xor_bytes (le32 5) (le32 size))) ++ skipn 20 s))) 5 3) [2; 6; 7]%N =
      [Ret (firstn 2 ex_secret); Ret (ex_secret ++ [x2f]); Fail ERSShortData]
  | _ => False end.
Proof. vm_compute. split; reflexivity. Qed.
END*)
