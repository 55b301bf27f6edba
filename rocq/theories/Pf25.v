(** Proofs about when krawczyk.SplitWithRandomizer returns and what a zero tag gives away (C72). *)
From Coq Require Import List NArith ZArith Lia Arith Bool Permutation.
From Coq.Init Require Import Byte.
From Verif Require Import GoSem Bytes Spec SpecKr Galois GF PolyFacts GoFacts VectorFacts Vector Csprng Pool Polynomial PolynomialFacts Shamir SplitFacts
  CombineFacts Secrecy CsprngFacts Derived RandomizerFacts Libs Krawczyk KrawczykFacts KrawczykCombine Pf1 Pf4 Pf6.
Import ListNotations.

(*PROPS
From Coq Require Import List NArith ZArith Lia Arith Bool Permutation.
From Coq.Init Require Import Byte.
From Verif Require Import GoSem Bytes Spec SpecKr Vector Csprng Pool Polynomial Shamir Libs AES Krawczyk ExData Pf25.
Import ListNotations.
*)

Lemma key_length ks : length (Read ks (zeros 16)) = 16.
Proof. unfold Read. rewrite xorStreamFrom_length. apply zeros_length. Qed.

Definition kr_outcome {A} (o : outcome (list (list byte))) (f : list (list byte) -> A) : outcome A :=
  match o with Ret ms => Ret (f ms) | Fail e => Fail e | Panic p => Panic p | UB => UB | Diverge => Diverge end.

(** on valid arguments the outcome is that of the inner call of shamir.SplitWithRandomizer *)
Lemma krSWR_outcome fuel E zp ar growcap ks polB trB evBufs secret parts threshold : grow_ok growcap ->
  kr_valid_args zp secret parts threshold ->
  let key := Read ks (zeros 16) in
  valid_args (krMeta key (length secret)) parts threshold /\
  krSplitWithRandomizer fuel E zp ar growcap ks polB trB evBufs secret parts threshold =
  kr_outcome (SplitWithRandomizer fuel ar growcap ks polB trB evBufs (krMeta key (length secret)) parts threshold)
    (fun ms => map (krShare E key secret (Z.to_nat threshold) ms) (seq 0 (Z.to_nat parts))).
Proof.
  intros G V key. pose proof V as (Hs & HL & H2 & H3 & H4 & Hz). pose proof (key_length ks : length key = 16) as Hk.
  split; [apply meta_valid; assumption|].
  unfold krSplitWithRandomizer. change LenKey with 16. fold key. set (share := SplitWithRandomizer fuel ar growcap ks polB trB evBufs).
  destruct (krSplitWith_stuck E zp key share secret parts threshold Hk) as [(e & A & NT & X)|(_ & _ & _ & _ & _ & enc & Le & X)].
  - exfalso. clear X. revert A NT. unfold kr_arg_error. cbv zeta. destruct Hz as [-> | Hz]; intuition (try congruence; try lia).
  - destruct (share (krMeta key (length secret)) parts threshold) as [ms|e|p| |] eqn:Sh; cbn [kr_outcome]; [|rewrite X; rewrite ?Sh; reflexivity ..].
    destruct (SWR_sharing _ _ _ _ _ _ _ _ _ _ _ G Sh) as (V' & L & polys & tags & S).
    apply krSplitWith_ok; try assumption. intros i Hi.
    rewrite (is_sharing_lengths _ _ _ _ _ i S) by lia. rewrite krMeta_length by exact Hk. reflexivity.
Qed.

(** C72: with 20 or more parts, krawczyk.SplitWithRandomizer panics exactly when the first key stream byte is 254, and returns otherwise. *)
Lemma C72_large_pf : forall fuel E zp ar growcap ks polB trB evBufs secret parts threshold,
  grow_ok growcap -> kr_valid_args zp secret parts threshold -> (20 <= parts)%Z ->
  let call := krSplitWithRandomizer fuel E zp ar growcap ks polB trB evBufs secret parts threshold in
  (ks 0 = xfe -> call = Panic PIndex) /\
  (ks 0 <> xfe -> exists shares, call = Ret shares).
Proof.
  intros fuel E zp ar growcap ks polB trB evBufs secret parts threshold G V Hp call.
  destruct (krSWR_outcome fuel E zp ar growcap ks polB trB evBufs secret parts threshold G V) as (Vm & X). unfold call. rewrite X.
  destruct (C19_large_pf fuel ar growcap ks polB trB evBufs _ parts threshold G Vm Hp) as (A & B). split; intros H.
  - rewrite (A H). reflexivity.
  - destruct (B H) as (ms & Em). rewrite Em. eexists. reflexivity.
Qed.

(** C72: with fewer than 20 parts it never panics: it returns exactly when [parts] bytes can be picked from the key stream by the
    rule [picks] (one extra read per byte is enough), and otherwise loops forever. *)
Lemma C72_small_pf : forall E zp ar growcap ks polB trB evBufs secret parts threshold,
  grow_ok growcap -> kr_valid_args zp secret parts threshold -> (parts < 20)%Z ->
  let call fuel := krSplitWithRandomizer fuel E zp ar growcap ks polB trB evBufs secret parts threshold in
  let stuck := exists i out, i < Z.to_nat parts /\ picks ks i out /\ In (ks i) out /\ In (gadd (ks i) (ks 0)) out in
  ((exists shares, forall fuel, 1 <= fuel -> call fuel = Ret shares) <-> exists out, picks ks (Z.to_nat parts) out) /\
  ((forall fuel, call fuel = Diverge) <-> stuck) /\
  ((exists out, picks ks (Z.to_nat parts) out) \/ stuck) /\
  (forall fuel p, call fuel <> Panic p).
Proof.
  intros E zp ar growcap ks polB trB evBufs secret parts threshold G V Hp call stuck.
  destruct (krSWR_outcome 0 E zp ar growcap ks polB trB evBufs secret parts threshold G V) as (Vm & _).
  assert (X : forall fuel, call fuel = kr_outcome (SplitWithRandomizer fuel ar growcap ks polB trB evBufs (krMeta (Read ks (zeros 16)) (length secret)) parts threshold)
    (fun ms => map (krShare E (Read ks (zeros 16)) secret (Z.to_nat threshold) ms) (seq 0 (Z.to_nat parts)))).
  { intros fuel. apply (krSWR_outcome fuel E zp ar growcap ks polB trB evBufs secret parts threshold G V). }
  destruct (C19_small_pf ar growcap ks polB trB evBufs _ parts threshold G Vm Hp) as (A & B & C & D & F & _).
  assert (R : (exists out, picks ks (Z.to_nat parts) out) -> exists shares, forall fuel, 1 <= fuel -> call fuel = Ret shares).
  { intros P. apply A in P as (ms & P). eexists. intros fuel Hf. rewrite X, (P fuel Hf). reflexivity. }
  assert (S : stuck -> forall fuel, call fuel = Diverge).
  { intros P fuel. rewrite X, (proj2 B P fuel). reflexivity. }
  repeat split.
  - intros (sh & Y). destruct C as [C|C]; [exact C|]. specialize (Y 1 (le_n _)). rewrite (S C) in Y. discriminate.
  - exact R.
  - intros Y. destruct C as [C|C]; [|exact C]. destruct (R C) as (sh & Z). specialize (Z 1 (le_n _)). rewrite Y in Z. discriminate.
  - exact S.
  - exact C.
  - intros fuel p Y. rewrite X in Y. specialize (F fuel). cbv zeta in F.
    destruct (SplitWithRandomizer _ _ _ _ _ _ _ _ _ _) as [ms|e|q| |]; cbn [kr_outcome] in Y; try discriminate. exact (F q eq_refl).
Qed.

(** C72: with fewer than 20 parts, the metadata of share [i] carries tag 0 exactly when the byte picked at index [i] is 255; then that
    one share contains the AES key and the length of the secret in the clear, and its holder can decrypt every piece [j < threshold]
    of the ciphertext it gets hold of, its own to begin with. *)
Lemma C72_zero_tag_pf : forall fuel E zp rd ar growcap ks polB trB evBufs secret parts threshold shares i,
  (forall k, 0 < rd k) -> grow_ok growcap -> (parts < 20)%Z ->
  krSplitWithRandomizer fuel E zp ar growcap ks polB trB evBufs secret parts threshold = Ret shares -> i < Z.to_nat parts ->
  let share := nth i shares [] in let t := Z.to_nat threshold in let len := ceil_div (length secret) t in
  (tag (kr_meta share) = x00 <-> exists out, picks ks (Z.to_nat parts) out /\ nth i out x00 = xff) /\
  (tag (kr_meta share) = x00 ->
     firstn 16 share = map ks (seq 0 16) /\ firstn 4 (skipn 16 share) = le32 (N.of_nat (length secret)) /\
     forall j, j < t -> exists plain,
       decrypt E rd (repeat x00 (j * len) ++ kr_piece (nth j shares [])) (firstn 16 share) = Ret plain /\
       forall k, k < len -> j * len + k < length secret -> nth (j * len + k) plain x00 = nth (j * len + k) secret x00).
Proof.
  intros fuel E zp rd ar growcap ks polB trB evBufs secret parts threshold shares i Hrd G Hp R Hi share t len.
  destruct (krSWR_inv _ _ _ _ _ _ _ _ _ _ _ _ _ G R) as (V & Hk & ms & polys & tags & E1 & E2 & S & Esh). pose proof V as (Hs & HL & H2 & H3 & H4 & Hz).
  assert (M : forall i, i < Z.to_nat parts -> length (nth i ms []) = 21).
  { intros i0 Hi0. rewrite (is_sharing_lengths _ _ _ _ _ i0 S) by lia. rewrite krMeta_length by exact Hk. reflexivity. }
  assert (Em : kr_meta share = nth i ms []).
  { unfold share. rewrite Esh, nth_map_seq by exact Hi. apply krShare_meta, M, Hi. }
  destruct (C20_zero_tag_small_pf fuel ar growcap ks polB trB evBufs _ parts threshold ms i G Hp E1 Hi) as (A & B).
  rewrite Em. split; [exact A|]. intros T. specialize (B T).
  assert (Ef : firstn 20 share = krMeta (Read ks (zeros 16)) (length secret)).
  { rewrite <- B, <- Em. unfold data, kr_meta. rewrite removelast_firstn_len, firstn_firstn. f_equal.
    pose proof (M i Hi) as L. rewrite <- Em in L. unfold kr_meta in L. rewrite L. reflexivity. }
  assert (F16 : firstn 16 share = Read ks (zeros 16)).
  { change 16 with (Nat.min 16 20) at 1. rewrite <- firstn_firstn, Ef. unfold krMeta. rewrite firstn_app, Hk, Nat.sub_diag, firstn_O, app_nil_r.
    apply firstn_all2. lia. }
  split; [rewrite F16, Read_zeros; reflexivity|]. split.
  { replace (firstn 4 (skipn 16 share)) with (skipn 16 (firstn 20 share)) by (rewrite (skipn_firstn_comm 16 20 share); reflexivity).
    rewrite Ef. unfold krMeta. rewrite skipn_app, Hk, Nat.sub_diag, skipn_O. rewrite skipn_all2 by lia. cbn [app]. apply le32_leBytes, HL. }
  intros j Hj. rewrite F16. eexists. split; [apply decrypt_ok; [exact Hrd|apply aes16, Hk]|].
  intros k Hk1 Hk2. set (K := Read ks (zeros 16)) in *.
  assert (Ep : kr_piece (nth j shares []) = padded_piece t j (krCipher E K secret)).
  { rewrite Esh, nth_map_seq by lia. rewrite krShare_piece by (apply M; lia). apply krPiece_padded; lia. }
  rewrite xorStream_app, repeat_length. rewrite app_nth2; rewrite xorStreamFrom_length, repeat_length; [|lia].
  replace (j * len + k - j * len) with k by lia. cbn [Nat.add].
  assert (Lp : length (padded_piece t j (krCipher E K secret)) = len).
  { rewrite <- krPiece_padded by lia. apply krPiece_length. }
  rewrite Ep, nth_xorStreamFrom by (rewrite Lp; exact Hk1).
  assert (En : nth k (padded_piece t j (krCipher E K secret)) x00 = nth (j * len + k) (krCipher E K secret) x00).
  { unfold padded_piece. rewrite krCipher_length. fold len. rewrite nth_firstn by exact Hk1. rewrite nth_skipn.
    rewrite app_nth1 by (rewrite krCipher_length; lia). f_equal. lia. }
  rewrite En. unfold krCipher. rewrite nth_xorStreamFrom by exact Hk2. cbn [Nat.add]. change bxor with gadd. ring.
Qed.

(** C72: with 20 or more parts no metadata tag is 0. *)
Lemma C72_no_zero_tag_large_pf : forall fuel E zp ar growcap ks polB trB evBufs secret parts threshold shares,
  grow_ok growcap -> (20 <= parts)%Z ->
  krSplitWithRandomizer fuel E zp ar growcap ks polB trB evBufs secret parts threshold = Ret shares ->
  ~ In x00 (map (fun s => tag (kr_meta s)) shares).
Proof.
  intros fuel E zp ar growcap ks polB trB evBufs secret parts threshold shares G Hp R F.
  destruct (krSWR_inv _ _ _ _ _ _ _ _ _ _ _ _ _ G R) as (V & Hk & ms & polys & tags & E1 & E2 & S & ->). pose proof V as (Hs & HL & H2 & H3 & H4 & Hz).
  apply (C20_no_zero_tag_large_pf _ _ _ _ _ _ _ _ _ _ _ G Hp E1).
  rewrite map_map in F. apply in_map_iff in F as (i & T & Hi). apply in_seq in Hi.
  rewrite krShare_meta in T.
  - rewrite <- T. apply in_map, nth_In. lia.
  - rewrite (is_sharing_lengths _ _ _ _ _ i S) by lia. rewrite krMeta_length by exact Hk. reflexivity.
Qed.

(*COPY
Definition ex_long : list byte := map (fun i => i2b (3 * i + 1)) (seq 0 41).
(** a key stream that starts with 255: share 0 alone holds the AES key and decrypts the first third of the secret; a key stream of
    equal bytes makes the call loop, one that starts with 254 makes it panic for 30 parts *)
Example C72_run :
  match krSplitWithRandomizer 3 AES true ex_ar growcap117 (fun i => i2b (255 + i)) ex_stale ex_stale ex_ev ex_long 5 3 with
  | Ret sh => tag (kr_meta (nth 0 sh [])) = x00 /\
              match decrypt AES (fun _ => 512) (kr_piece (nth 0 sh [])) (firstn 16 (nth 0 sh [])) with
              | Ret plain => plain = firstn 14 ex_long | _ => False end
  | _ => False
  end /\
  kr_valid_args true ex_long 5 3 /\ kr_valid_args true ex_long 30 3 /\
  krSplitWithRandomizer 50 AES true ex_ar growcap117 (fun _ => x17) ex_stale ex_stale ex_ev ex_long 5 3 = Diverge /\
  krSplitWithRandomizer 50 AES true ex_ar growcap117 (fun _ => xfe) ex_stale ex_stale ex_ev ex_long 30 3 = Panic PIndex.
Proof.
  split; [vm_compute; split; reflexivity|]. split; [split; [discriminate|cbn; repeat split; try lia; auto]|].
  split; [split; [discriminate|cbn; repeat split; try lia; auto]|]. split; vm_compute; reflexivity.
Qed.
END*)
