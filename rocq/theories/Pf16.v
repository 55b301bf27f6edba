(** Proofs of the properties of krawczyk.Combine on memory (C63). *)
From Coq Require Import List NArith ZArith Lia Arith Bool Permutation.
From Coq.Init Require Import Byte.
From Verif Require Import GoSem Bytes Spec GF PolyFacts GoFacts Vector Pool Polynomial Shamir Libs AES Krawczyk KrawczykFacts KrawczykCombine KrawczykContract SpecKr
  Memory MemCalls SpecMemCalls MemFacts MemTop KrMem SpecKrMem KrMemFacts ExData Pf12.
Import ListNotations.

(*PROPS
From Coq Require Import List NArith ZArith Lia Arith Bool Permutation.
From Coq.Init Require Import Byte.
From Verif Require Import GoSem Bytes Spec SpecKr Vector Pool Polynomial Shamir Libs AES Krawczyk Memory MemCalls SpecMemCalls KrMem SpecKrMem ExData Pf16.
Import ListNotations.
*)

(** C63. For all shares in memory, of any contents and capacities, all memories with the pools in order and all parameters: unless a stub
    lies over another share, krawczyk.Combine ends as the function of values of C55 does, its result is a fresh slice, and the only bytes
    of the caller's memory it may have written are those of the stubs from the index on. *)
Lemma C63_combine_pf : forall E zp rd ss parts threshold m, mem_ok m -> usable_shares m ss -> stubs_apart ss ->
  call_ok_but (in_stub ss) m (mKrCombine E zp rd ss parts threshold m) (krCombineCap E zp rd (map (mshare m) ss) parts threshold).
Proof. intros E zp rd ss parts threshold m MO US AP. apply mKrCombine_call; assumption. Qed.

(** C63. In particular, without stubs among the shares it writes nothing that the caller can see: the contract that C62 gives for the
    functions of package shamir. (The split functions never return stubs.) *)
Lemma C63_no_stubs_pf : forall E zp rd ss parts threshold m, mem_ok m -> usable_shares m ss -> (forall s, In (Some s) ss -> sl_len s <> 22) ->
  call_ok m (one (mKrCombine E zp rd ss parts threshold m)) (do r <- krCombineCap E zp rd (map (mshare m) ss) parts threshold; Ret [r]).
Proof.
  intros E zp rd ss parts threshold m MO US NS.
  destruct (C63_combine_pf E zp rd ss parts threshold m MO US) as [K R].
  { intros i j s t _ N _ L. exfalso. apply (NS s); [eapply nth_error_In; exact N|exact L]. }
  destruct (mKrCombine E zp rd ss parts threshold m) as [m' o]. unfold one. cbn [fst snd] in *. split; cbn [fst snd].
  - destruct K as (K1 & K2 & K3). split; [exact K1|]. split; [exact K2|]. intros a La Np. destruct (K3 a La Np) as (A & B & C). split; [|exact A].
    apply (list_eq_nth x00); [exact B|]. intros k _. apply C. intros (s & Hs & L & _). exact (NS s Hs L).
  - destruct o as [s|e|p| |]; cbn [bind]; [|rewrite R; reflexivity..]. destruct R as [-> F]. cbn [bind map]. split; [reflexivity|]. split; [constructor; [exact F|constructor]|].
    intros i j H1 H2. cbn [length] in H2. lia.
Qed.

(** C63. And the stubs are written: when Combine succeeds, a stub with index [i] below the threshold, the last share with that index and with
    room for a piece behind its metadata, holds the completed piece [i] afterwards, in place of the index and of what followed it. *)
Lemma C63_overwrites_pf : forall E zp rd ss parts threshold m out pre s post i shares pieces len data, (forall k, 0 < rd k) ->
  mem_ok m -> usable_shares m ss -> stubs_apart ss ->
  let r := mKrCombine E zp rd ss parts threshold m in snd r = Ret out ->
  ss = pre ++ Some s :: post -> sl_len s = 22 -> tag (mcontents m s) = i2b i -> i < Z.to_nat threshold ->
  (forall t, In (Some t) post -> tag (mcontents m t) <> i2b i) ->
  kr_scanned zp (map (mshare m) ss) parts threshold shares pieces -> 0 < len -> (forall p, In p pieces -> length p = len \/ p = []) ->
  rs_completion (Z.to_nat threshold) len pieces data -> 21 + len <= sl_cap s ->
  bytesAt (fst r) s 21 len = nth i data [].
Proof.
  intros E zp rd ss parts threshold m out pre s post i shares pieces len data Hrd MO US AP r RR Es Ls Ti Hi NL SC Hl UN CO Cp.
  destruct (mKrCombine_call E zp rd ss parts threshold m MO US AP) as [_ FL]. fold r in FL.
  destruct (FL out RR) as (pieces' & mds & S1 & o & S2 & S3). clear FL.
  pose proof SC as (_ & (_ & _ & _ & K1 & K2) & Hp & Esh & FA & _ & _ & T & _ & LP & PA).
  assert (EP : pieces' = pieces).
  { rewrite somes_clean in S1. unfold splitShares in S1. fold (splitStep parts) in S1.
    assert (F' : Forall (fun x : list byte * list byte => kr_acceptable parts (fst x)) (somes (map (mshare m) ss))).
    { rewrite Esh in FA. apply Forall_forall. intros x Hx. rewrite Forall_forall in FA. apply FA, in_map, Hx. }
    destruct (scan_ok parts ltac:(lia) (somes (map (mshare m) ss)) (repeat [] (Z.to_nat parts)) [] (repeat_length _ _) F') as (q & E1 & E2 & E3).
    rewrite E1 in S1. injection S1 as <- _. apply (pieces_unique shares (Z.to_nat parts)); [exact E2|exact LP| |exact PA].
    intros k Hk. rewrite Esh. destruct (E3 k Hk) as [X|(X & Y)]; [left; destruct X as (a & b & c & X); exists a, b, c; exact X|right].
    split; [rewrite X; apply nth_repeat_lt; exact Hk|exact Y]. }
  subst pieces'.
  destruct (reconstruct_cases (Z.to_nat threshold) pieces ltac:(lia) ltac:(lia) ltac:(lia)) as [(R1 & R2)|[(R1 & R2)|(len' & R0 & R1 & R2 & [(R3 & R4)|(R3 & o' & R4 & R5 & R6)])]];
    rewrite LP in *; try congruence.
  rewrite R4 in S2. injection S2 as ->.
  destruct (completion_witness (Z.to_nat threshold) _ _ _ ltac:(lia) CO) as (p & I & N). pose proof (uniform_unique _ _ _ _ I N UN R1) as <-.
  pose proof (completion_unique (Z.to_nat threshold) len pieces data (firstn (Z.to_nat threshold) o) Hl ltac:(lia) CO R6) as ED.
  assert (B : i < 256) by lia.
  assert (TA : tagAt m s = i) by (unfold tagAt; rewrite Ti; apply b2i_i2b; lia).
  pose proof (S3 pre s post Es Ls ltac:(lia)) as S4. rewrite TA in S4.
  assert (LI : length (nth i o []) = len).
  { destruct CO as (_ & _ & CO). destruct (CO i Hi) as (X & _). rewrite ED, nth_firstn in X by exact Hi. exact X. }
  rewrite LI in S4. rewrite S4; [rewrite ED, nth_firstn by exact Hi; reflexivity| |lia].
  intros t Ht Q. apply (NL t Ht). unfold tagAt in Q. rewrite <- Q. rewrite i2b_b2i. reflexivity.
Qed.

(*COPY
(** Beside C63: the 5-byte secret split 2-of-3. Shares 1 and 2 are given in arrays of their own, share 0 as a stub of 22 bytes in an array of
    26. The hypotheses hold; Combine returns the secret, the stub has become a part of share 0, and the same call made again fails:
    the index of the stub is gone. *)
Definition ex_kr : list (list byte) :=
  match krSplit AES true ex_ar growcap117 (fun i => i2b (5 * i + 9)) ex_perm ex_stream ex_stale ex_stale ex_ev ex_secret 3 2 with Ret sh => sh | _ => [] end.
Definition whole (a n : nat) : gslice := {| sl_arr := a; sl_off := 0; sl_len := n; sl_cap := n |}.
Definition ex_stub : gslice := {| sl_arr := 2; sl_off := 0; sl_len := 22; sl_cap := 26 |}.
Definition ex_args : list (option gslice) := [Some (whole 0 25); Some ex_stub; None; Some (whole 1 25)].
Definition ex_mem (kr : list (list byte)) : memory :=
  {| m_heap := [nth 1 kr []; nth 2 kr []; firstn 21 (nth 0 kr []) ++ [x00; xaa; xbb; xcc; xdd]]; m_bpool := []; m_epool := [] |}.

Example C63_args : mem_ok (ex_mem ex_kr) /\ usable_shares (ex_mem ex_kr) ex_args /\ stubs_apart ex_args.
Proof.
  assert (L : map (@length byte) ex_kr = [25; 25; 25]) by (vm_compute; reflexivity).
  generalize dependent ex_kr. intros kr L. destruct kr as [|a [|b [|c [|d kr]]]]; try discriminate L. injection L as La Lb Lc.
  split; [split; constructor|]. split.
  - intros s [H|[H|[H|[H|[]]]]]; inversion H; subst s; clear H; (split; [cbn; lia|]); cbn [whole ex_stub sl_cap sl_arr sl_off ex_mem m_heap nth]; intros _;
      (split; [cbn; lia|]); (split; [|intros []]); rewrite ?app_length, ?firstn_length; cbn [length]; lia.
  - intros i j s t N A B L. unfold ex_args, apart in *.
    destruct i as [|[|[|[|i]]]]; cbn in A; try discriminate A; try (destruct i; discriminate A); inversion A; subst s; clear A; cbn in L; try lia.
    destruct j as [|[|[|[|j]]]]; cbn in B; try discriminate B; try (destruct j; discriminate B); try congruence; inversion B; subst t; cbn; lia.
Qed.

Example C63_run : let kr := ex_kr in
  let call := mKrCombine AES true (fun _ => 512) ex_args 3 2 in
  let (m1, r1) := call (ex_mem kr) in
  match r1 with Ret s => mcontents m1 s = ex_secret | _ => False end /\
  nth 2 (m_heap m1) [] = firstn 24 (nth 0 kr []) ++ [xcc; xdd] /\
  snd (call m1) = Fail EWrongPartId.
Proof. vm_compute. repeat split. Qed.
(** When a stub lies over share 1 (one array, the stub's capacity running on into the next share) the result is not the secret, although
    the contents of the slices are those of good shares: here with a secret of 60 bytes. *)
Example C63_overlap :
  match krSplit AES true ex_ar growcap117 (fun i => i2b (5 * i + 9)) ex_perm ex_stream ex_stale ex_stale ex_ev (repeat x61 60) 3 2 with
  | Ret [k0; k1; k2] =>
    let m := {| m_heap := [firstn 21 k0 ++ [x00] ++ k1; k2]; m_bpool := []; m_epool := [] |} in
    let ss := [Some {| sl_arr := 0; sl_off := 0; sl_len := 22; sl_cap := 74 |}; Some {| sl_arr := 0; sl_off := 22; sl_len := 52; sl_cap := 52 |}; Some (whole 1 52)] in
    krCombineCap AES true (fun _ => 512) (map (mshare m) ss) 3 2 = Ret (repeat x61 60) /\
    match mKrCombine AES true (fun _ => 512) ss 3 2 m with (m', Ret s) => mcontents m' s <> repeat x61 60 | _ => False end
  | _ => False
  end.
Proof. vm_compute. split; [reflexivity|discriminate]. Qed.
END*)
