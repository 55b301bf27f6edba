(** Proofs of the properties of Regenerate (C14-C17). *)
From Coq Require Import List NArith ZArith Lia Arith Bool Permutation.
From Coq.Init Require Import Byte.
From Verif Require Import GoSem Bytes Spec Galois GF PolyFacts GoFacts Csprng Polynomial PolynomialFacts Shamir SplitFacts
  CombineFacts Secrecy CsprngFacts Derived CountFacts RegenFacts Pf1.
Import ListNotations.

(*PROPS
From Coq Require Import List NArith ZArith Lia Arith Bool Permutation.
From Coq.Init Require Import Byte.
From Verif Require Import GoSem Bytes Spec Polynomial Shamir ExData Pf3.
Import ListNotations.
*)

Lemma Regenerate_ret fuel stream u parts num new : Regenerate fuel stream u parts num = Ret new ->
  exists r L, Combine parts = Ret r /\ (0 <= num)%Z /\ L = length (nth 0 parts []) /\ 2 <= length parts /\ 2 <= L /\
    (forall p, In p parts -> length p = L) /\ NoDup (map tag parts) /\ r = interpAt parts (L - 1) x00 /\
    new = map (regenShare parts L) (take_stream stream (Z.to_nat num)).
Proof.
  intros E. destruct (Regenerate_cases fuel stream u parts num) as [(e & _ & _ & H)|[(_ & _ & H)|[(_ & _ & H)|(r & Hr & Hn & [H|H])]]]; try congruence.
  destruct (Combine_inv parts r Hr) as (L & H1 & H2 & H3 & H4 & H5 & H6). exists r, L. rewrite H in E. injection E as <-. subst L.
  repeat (split; [assumption|]). split; [reflexivity|]. repeat (split; [assumption|]). reflexivity.
Qed.

Lemma tag_regenShare parts L x : tag (regenShare parts L x) = x.
Proof. unfold regenShare, tag. apply last_last. Qed.

Lemma regenShare_length parts L x : 1 <= L -> length (regenShare parts L x) = L.
Proof. intros H. unfold regenShare. rewrite app_length, interpAt_length. cbn. lia. Qed.

(** C14: every new share lies on the polynomials through the given parts: byte [j] of a new share is the value at its tag of the only
    polynomial with as many coefficients as there are parts that takes byte [j] of every part at the tag of that part. *)
Lemma C14_on_polynomials_pf : forall fuel stream u parts num new,
  Regenerate fuel stream u parts num = Ret new ->
  length new = Z.to_nat num /\
  forall s, In s new -> length s = length (nth 0 parts []) /\
    forall j, j < length (nth 0 parts []) - 1 ->
      exists f, length f = length parts /\ (forall p, In p parts -> peval f (tag p) = nth j p x00) /\
        nth j s x00 = peval f (tag s) /\
        forall g, length g = length parts -> (forall p, In p parts -> peval g (tag p) = nth j p x00) -> g = f.
Proof.
  intros fuel stream u parts num new E. destruct (Regenerate_ret _ _ _ _ _ _ E) as (r & L & Er & Hn & EL & H1 & H2 & H3 & ND & Hr & En).
  split; [rewrite En, map_length, take_stream_length; reflexivity|].
  intros s Hs. rewrite En in Hs. apply in_map_iff in Hs as (x & <- & _). rewrite <- EL. split; [apply regenShare_length; lia|].
  intros j Hj.
  destruct (C07_combine_interpolates_pf parts r j Er) as (f & Lf & Ef & _ & Uf); [rewrite Hr, interpAt_length; exact Hj|].
  exists f. split; [exact Lf|]. split; [exact Ef|]. split; [|exact Uf].
  rewrite tag_regenShare. unfold regenShare. rewrite app_nth1 by (rewrite interpAt_length; exact Hj). rewrite nth_interpAt by exact Hj.
  destruct (lagrange_polyfun (map tag parts) (ycol parts j)) as (g & Lg & Eg). rewrite map_length in Lg.
  assert (Eq : g ++ repeat x00 (length parts - length g) = f).
  { apply Uf; [rewrite app_length, repeat_length; lia|]. intros p Hp. rewrite peval_heval, heval_app_zeros, Eg. apply interp_at_part; assumption. }
  rewrite <- Eq, peval_heval, heval_app_zeros, Eg. reflexivity.
Qed.

(** C14: shares regenerated from at least [t] shares of a sharing with threshold [t] are further shares of the same sharing: each is the
    share with its tag (so a new share with the tag of an old one is that old one), and any [t] or more shares, old and new mixed
    in any order, with pairwise distinct tags combine to the secret. *)
Lemma C14_mix_combines_pf : forall fuel stream u secret t polys tags shares is num new,
  2 <= t -> secret <> [] -> is_sharing secret t polys tags shares -> selection (length shares) t is ->
  Regenerate fuel stream u (pick [] shares is) num = Ret new ->
  (forall s, In s new -> s = share_at polys (tag s)) /\
  (forall s o, In s new -> In o shares -> tag s = tag o -> s = o) /\
  forall mix, (forall s, In s mix -> In s shares \/ In s new) -> NoDup (map tag mix) -> t <= length mix -> Combine mix = Ret secret.
Proof.
  intros fuel stream u secret t polys tags shares is num new Ht Hs (S1 & S2 & S3 & S4) (I1 & I2 & I3) E.
  assert (Lp : length polys = length secret) by (rewrite <- S1, map_length; reflexivity).
  rewrite S4, map_length in I2. rewrite S4 in E. rewrite (pick_map (share_at polys) tags is [] x00) in E by exact I2.
  set (xs := pick x00 tags is) in *.
  assert (NDx : NoDup xs) by (apply pick_NoDup; assumption).
  destruct (Regenerate_ret _ _ _ _ _ _ E) as (r & L & Er & Hn & EL & H1 & H2 & H3 & ND & Hr & En).
  assert (HL : L = length polys + 1).
  { rewrite <- (H3 (nth 0 (map (share_at polys) xs) [])) by (apply nth_In; lia). 
    rewrite (nth_map' _ _ 0 [] x00) by (rewrite map_length in H1; lia). apply share_at_length. }
  assert (New : forall s, In s new -> s = share_at polys (tag s)).
  { intros s Hin. rewrite En in Hin. apply in_map_iff in Hin as (x & <- & _). rewrite tag_regenShare. rewrite HL.
    apply regenShare_sharing with t; [exact NDx|exact S2|]. unfold xs. rewrite pick_length. exact I3. }
  split; [exact New|]. split.
  - intros s o Hin Ho Et. rewrite S4 in Ho. apply in_map_iff in Ho as (y & <- & _). rewrite tag_share_at in Et. rewrite (New s Hin), Et. reflexivity.
  - intros mix Hm NDm Lm.
    assert (Em : mix = map (share_at polys) (map tag mix)).
    { rewrite map_map. rewrite <- (map_id mix) at 1. apply map_ext_in. intros s Hin. destruct (Hm s Hin) as [Ho|Hw]; [|apply New, Hw].
      rewrite S4 in Ho. apply in_map_iff in Ho as (y & <- & _). rewrite tag_share_at. reflexivity. }
    assert (Ep : pick [] mix (seq 0 (length mix)) = mix) by (transitivity (map (fun s => s) mix); [symmetry; exact (map_as_seq (fun s => s) mix [])|apply map_id]).
    rewrite <- Ep. apply (Combine_is_sharing secret t polys (map tag mix)); [exact Ht|exact Hs| |].
    + split; [exact S1|]. split; [exact S2|]. split; [exact NDm|exact Em].
    + split; [apply seq_NoDup|]. split; [intros i Hi; apply in_seq in Hi; lia|rewrite seq_length; exact Lm].
Qed.

(** C14: a new share with the tag of a given part is that part (for any accepted parts). *)
Lemma C14_same_tag_same_share_pf : forall fuel stream u parts num new s p,
  Regenerate fuel stream u parts num = Ret new -> In s new -> In p parts -> tag s = tag p -> s = p.
Proof.
  intros fuel stream u parts num new s p E Hs Hp Et. destruct (Regenerate_ret _ _ _ _ _ _ E) as (r & L & Er & Hn & EL & H1 & H2 & H3 & ND & Hr & En).
  rewrite En in Hs. apply in_map_iff in Hs as (x & <- & _). rewrite tag_regenShare in Et. subst x. apply regenShare_part; try assumption. lia.
Qed.

(*COPY
(** regenerating 2 shares from 2 shares of a 2-of-2 sharing of "hello": one new share with tag 7, and tag 0, which is the secret itself *)
Example C14_run : exists shares new,
  SplitGeneric ex_perm ex_stream ex_secret 2 2 = Ret shares /\
  Regenerate 10 (stream_of [x07; x00]) (fun _ => x33) shares 2 = Ret new /\
  Combine [nth 0 new []; nth 1 shares []] = Ret ex_secret /\ nth 1 new [] = ex_secret ++ [x00].
Proof. eexists _, _. split; [vm_compute; reflexivity|]. split; [vm_compute; reflexivity|]. split; vm_compute; reflexivity. Qed.
END*)

(** C15: the tags of the new shares are the raw bytes drawn by rand.Read: the duplicate elimination (which draws from [u]) never changes them. *)
Lemma C15_raw_tags_pf : forall fuel stream u parts num new,
  Regenerate fuel stream u parts num = Ret new -> map tag new = map stream (seq 0 (Z.to_nat num)).
Proof.
  intros fuel stream u parts num new E. destruct (Regenerate_ret _ _ _ _ _ _ E) as (r & L & Er & Hn & EL & H1 & H2 & H3 & ND & Hr & En).
  rewrite En, map_map. rewrite <- (map_id (map stream (seq 0 (Z.to_nat num)))). apply map_ext. intros x. apply tag_regenShare.
Qed.

(** C15: a new share with tag 0 carries the secret in the clear. *)
Lemma C15_zero_tag_is_plaintext_pf : forall fuel stream u parts num new s,
  Regenerate fuel stream u parts num = Ret new -> In s new -> tag s = x00 -> Combine parts = Ret (data s).
Proof.
  intros fuel stream u parts num new s E Hs Et. destruct (Regenerate_ret _ _ _ _ _ _ E) as (r & L & Er & Hn & EL & H1 & H2 & H3 & ND & Hr & En).
  rewrite En in Hs. apply in_map_iff in Hs as (x & <- & _). rewrite tag_regenShare in Et. subst x.
  unfold data, regenShare. rewrite removelast_app by discriminate. cbn [removelast]. rewrite app_nil_r, Er, Hr. reflexivity.
Qed.

(** C15: every list of at most 256-len(parts) bytes occurs as the tags of the new shares of some run: also lists with tags of the
    given parts, with repeated bytes, or with 0. The run does not depend on the source [u] of replacement bytes, as long as
    every byte value keeps occurring in it. *)
Lemma C15_any_tags_occur_pf : forall parts xs u, acceptable parts -> length parts + length xs <= 256 -> recurring u ->
  exists f0, forall fuel, f0 <= fuel -> exists new,
    Regenerate fuel (stream_of xs) u parts (Z.of_nat (length xs)) = Ret new /\ map tag new = xs.
Proof.
  intros parts xs u (A1 & A2 & A3 & A4) H Ru.
  destruct (dedupLoop_terminates u (map tag parts) xs Ru) as (f0 & F); [rewrite map_length; exact H|].
  exists f0. intros fuel Hf. destruct (F fuel Hf) as (r & Er).
  assert (Et : take_stream (stream_of xs) (Z.to_nat (Z.of_nat (length xs))) = xs) by (rewrite Nat2Z.id; apply take_stream_of; reflexivity).
  eexists. split.
  - eapply Regenerate_dedup; [lia|exact A1|exact A2|exact A3|exact A4|]. rewrite Et. exact Er.
  - rewrite Et, map_map. rewrite <- (map_id xs) at 2. apply map_ext. intros x. apply tag_regenShare.
Qed.

(*COPY
Example C15_cases : acceptable [[x05; x01]; [x06; x02]] /\ recurring (fun k => i2b k) /\
  Regenerate 10 (stream_of [x02; x07; x07; x00]) (fun k => i2b (k + 20)) [[x05; x01]; [x06; x02]] 4
  = Ret [[x06; x02]; [x03; x07]; [x03; x07]; [x04; x00]].
Proof.
  split; [|split; [|vm_compute; reflexivity]].
  - split; [cbn; lia|]. split; [cbn; lia|]. split; [intros p [<-|[<-|[]]]; reflexivity|]. repeat constructor; cbn; intuition discriminate.
  - intros b k. exists (256 * k + b2i b). split; [lia|]. unfold i2b, b2i. rewrite <- (n2b_b2n b) at 2. apply b2n_inj. rewrite !b2n_n2b.
    replace (N.of_nat (256 * k + N.to_nat (b2n b))) with (b2n b + N.of_nat k * 256)%N by lia. apply N.mod_add. discriminate.
Qed.
END*)

(** C16: when more than 256 distinct tags would be needed, Regenerate never returns, whatever the random sources deliver: it
    exhausts every amount of fuel. *)
Lemma C16_hangs_pf : forall fuel stream u parts num,
  acceptable parts -> (256 < Z.of_nat (length parts) + num)%Z -> Regenerate fuel stream u parts num = Diverge.
Proof.
  intros fuel stream u parts num (A1 & A2 & A3 & A4) H.
  assert (Hn : (0 <= num)%Z). 
  { pose proof (NoDup_bytes_256 _ A4) as B. rewrite map_length in B. lia. }
  eapply Regenerate_diverge; [exact Hn|exact A1|exact A2|exact A3|exact A4|].
  apply dedupLoop_hangs; [exact A4|]. rewrite map_length, take_stream_length. lia.
Qed.

(** C16: otherwise it returns on every source in which all byte values keep occurring: once the fuel is large enough. *)
Lemma C16_terminates_pf : forall stream u parts num,
  acceptable parts -> (0 <= num)%Z -> (Z.of_nat (length parts) + num <= 256)%Z -> recurring u ->
  exists f0, forall fuel, f0 <= fuel -> exists new, Regenerate fuel stream u parts num = Ret new.
Proof.
  intros stream u parts num (A1 & A2 & A3 & A4) Hn H Ru.
  destruct (dedupLoop_terminates u (map tag parts) (take_stream stream (Z.to_nat num)) Ru) as (f0 & F); [rewrite map_length, take_stream_length; lia|].
  exists f0. intros fuel Hf. destruct (F fuel Hf) as (r & Er). eexists. eapply Regenerate_dedup; eassumption.
Qed.

(** C16: a negative number of new shares panics, on all parts that pass the length checks (the allocation precedes the duplicate check). *)
Lemma C16_negative_panics_pf : forall fuel stream u parts num, (num < 0)%Z ->
  (Regenerate fuel stream u parts num = Panic PMakeLen <-> acceptable parts \/ Combine parts = Fail EDuplicatePart).
Proof.
  intros fuel stream u parts num Hn.
  destruct (C05_combine_contract_pf parts) as (_ & _ & _ & _ & Acc & _).
  destruct (Regenerate_cases fuel stream u parts num) as [(e & Ec & Hne & H)|[((O1 & O2 & O3) & _ & H)|[(_ & F & H)|(r & Hr & F & H)]]]; try lia; rewrite H.
  - split; [discriminate|]. intros [A|A]; [apply Acc in A as (r & X & _)|]; congruence.
  - split; [intros _|reflexivity].
    destruct (Combine_cases parts) as [(A & E)|[(A & B & E)|[(A & B & (p & Hp & C) & E)|[(_ & D & E)|((A & B & C) & D & E)]]]]; try lia.
    + exfalso. apply C, O3, Hp.
    + right. exact E.
    + left. split; [exact A|]. split; [exact B|]. split; [exact C|exact D].
Qed.

(*COPY
Definition two_parts : list (list byte) := [[x05; x01]; [x06; x02]].
Example C16_cases : acceptable two_parts /\ (256 < Z.of_nat (length two_parts) + 255)%Z /\
  Regenerate 100 ex_stream ex_stream two_parts 255 = Diverge /\
  Regenerate 5 ex_stream ex_stream two_parts 3 = Ret [[x07; x03]; [x0e; x0a]; [x15; x11]] /\
  Regenerate 5 ex_stream ex_stream two_parts (-1) = Panic PMakeLen.
Proof.
  split; [|split; [reflexivity|repeat split; vm_compute; reflexivity]]. split; [cbn; lia|]. split; [cbn; lia|]. split; [intros p [<-|[<-|[]]]; reflexivity|].
  repeat constructor; cbn; intuition discriminate.
Qed.
END*)

(** C17: with numNewShares >= 0, Regenerate reports exactly Combine's errors, and never panics. *)
Lemma C17_contract_pf : forall fuel stream u parts num,
  ((0 <= num)%Z -> forall e, Regenerate fuel stream u parts num = Fail e <-> Combine parts = Fail e) /\
  (forall e, Regenerate fuel stream u parts num = Fail e -> Combine parts = Fail e) /\
  ((0 <= num)%Z -> forall p, Regenerate fuel stream u parts num <> Panic p) /\
  Regenerate fuel stream u parts num <> UB /\
  ((0 <= num)%Z -> (Regenerate fuel stream u parts num = Diverge \/ exists new, Regenerate fuel stream u parts num = Ret new) <-> acceptable parts).
Proof.
  intros fuel stream u parts num.
  destruct (C05_combine_contract_pf parts) as (_ & _ & _ & _ & Acc & _).
  destruct (Regenerate_cases fuel stream u parts num) as [(e & Ec & _ & H)|[(O & F & H)|[(Ec & F & H)|(r & Hr & F & H)]]].
  - rewrite H, Ec. split; [intros _ e'; split; congruence|]. split; [congruence|]. split; [discriminate|]. split; [discriminate|].
    intros _. split; [intros [X|(n & X)]; discriminate|]. intros A. apply Acc in A as (r & X & _). congruence.
  - rewrite H. split; [lia|]. split; [discriminate|]. split; [lia|]. split; [discriminate|lia].
  - rewrite H, Ec. split; [intros _ e'; split; congruence|]. split; [congruence|]. split; [discriminate|]. split; [discriminate|].
    intros _. split; [intros [X|(n & X)]; discriminate|]. intros A. apply Acc in A as (r & X & _). congruence.
  - assert (A : acceptable parts).
    { apply Acc. exists r. split; [exact Hr|]. destruct (Combine_inv parts r Hr) as (L & _ & _ & _ & _ & -> & ->). apply interpAt_length. }
    rewrite Hr. destruct H as [H|H]; rewrite H.
    + split; [intros _ e'; split; congruence|]. split; [congruence|]. split; [discriminate|]. split; [discriminate|]. intros _. tauto.
    + split; [intros _ e'; split; congruence|]. split; [congruence|]. split; [discriminate|]. split; [discriminate|]. intros _. split; [intros _; exact A|]. intros _. right. eauto.
Qed.

(*COPY
Example C17_cases : Regenerate 5 ex_stream ex_stream [[x05; x01]] 3 = Fail ETooFewParts /\ Regenerate 5 ex_stream ex_stream [[x05; x01]; [x06; x01]] 3 = Fail EDuplicatePart /\
  Regenerate 5 ex_stream ex_stream [[x05; x01]; [x06; x09; x02]] 0 = Fail EPartsLength /\ Regenerate 5 ex_stream ex_stream two_parts 0 = Ret [].
Proof. repeat split; vm_compute; reflexivity. Qed.
END*)
