(** Theorems: the properties of Regenerate (C14-C17).
    Generated from Pf3.v by tools/genprops.py: every theorem is proved there as the lemma of the same name with suffix _pf. *)
From Coq Require Import List NArith ZArith Lia Arith Bool Permutation.
From Coq.Init Require Import Byte.
From Verif Require Import GoSem Bytes Spec Polynomial Shamir ExData Pf3.
Import ListNotations.

(** C14: every new share lies on the polynomials through the given parts: byte [j] of a new share is the value at its tag of the only
    polynomial with as many coefficients as there are parts that takes byte [j] of every part at the tag of that part. *)
Theorem C14_on_polynomials : forall fuel stream u parts num new,
  Regenerate fuel stream u parts num = Ret new ->
  length new = Z.to_nat num /\
  forall s, In s new -> length s = length (nth 0 parts []) /\
    forall j, j < length (nth 0 parts []) - 1 ->
      exists f, length f = length parts /\ (forall p, In p parts -> peval f (tag p) = nth j p x00) /\
        nth j s x00 = peval f (tag s) /\
        forall g, length g = length parts -> (forall p, In p parts -> peval g (tag p) = nth j p x00) -> g = f.
Proof. exact C14_on_polynomials_pf. Qed.
Print Assumptions C14_on_polynomials.

(** C14: shares regenerated from at least [t] shares of a sharing with threshold [t] are further shares of the same sharing: each is the
    share with its tag (so a new share with the tag of an old one is that old one), and any [t] or more shares, old and new mixed
    in any order, with pairwise distinct tags combine to the secret. *)
Theorem C14_mix_combines : forall fuel stream u secret t polys tags shares is num new,
  2 <= t -> secret <> [] -> is_sharing secret t polys tags shares -> selection (length shares) t is ->
  Regenerate fuel stream u (pick [] shares is) num = Ret new ->
  (forall s, In s new -> s = share_at polys (tag s)) /\
  (forall s o, In s new -> In o shares -> tag s = tag o -> s = o) /\
  forall mix, (forall s, In s mix -> In s shares \/ In s new) -> NoDup (map tag mix) -> t <= length mix -> Combine mix = Ret secret.
Proof. exact C14_mix_combines_pf. Qed.
Print Assumptions C14_mix_combines.

(** C14: a new share with the tag of a given part is that part (for any accepted parts). *)
Theorem C14_same_tag_same_share : forall fuel stream u parts num new s p,
  Regenerate fuel stream u parts num = Ret new -> In s new -> In p parts -> tag s = tag p -> s = p.
Proof. exact C14_same_tag_same_share_pf. Qed.
Print Assumptions C14_same_tag_same_share.

(** regenerating 2 shares from 2 shares of a 2-of-2 sharing of "hello": one new share with tag 7, and tag 0, which is the secret itself *)
Example C14_run : exists shares new,
  SplitGeneric ex_perm ex_stream ex_secret 2 2 = Ret shares /\
  Regenerate 10 (stream_of [x07; x00]) (fun _ => x33) shares 2 = Ret new /\
  Combine [nth 0 new []; nth 1 shares []] = Ret ex_secret /\ nth 1 new [] = ex_secret ++ [x00].
Proof. eexists _, _. split; [vm_compute; reflexivity|]. split; [vm_compute; reflexivity|]. split; vm_compute; reflexivity. Qed.

(** C15: the tags of the new shares are the raw bytes drawn by rand.Read: the duplicate elimination (which draws from [u]) never changes them. *)
Theorem C15_raw_tags : forall fuel stream u parts num new,
  Regenerate fuel stream u parts num = Ret new -> map tag new = map stream (seq 0 (Z.to_nat num)).
Proof. exact C15_raw_tags_pf. Qed.
Print Assumptions C15_raw_tags.

(** C15: a new share with tag 0 carries the secret in the clear. *)
Theorem C15_zero_tag_is_plaintext : forall fuel stream u parts num new s,
  Regenerate fuel stream u parts num = Ret new -> In s new -> tag s = x00 -> Combine parts = Ret (data s).
Proof. exact C15_zero_tag_is_plaintext_pf. Qed.
Print Assumptions C15_zero_tag_is_plaintext.

(** C15: every list of at most 256-len(parts) bytes occurs as the tags of the new shares of some run: also lists with tags of the
    given parts, with repeated bytes, or with 0. The run does not depend on the source [u] of replacement bytes, as long as
    every byte value keeps occurring in it. *)
Theorem C15_any_tags_occur : forall parts xs u, acceptable parts -> length parts + length xs <= 256 -> recurring u ->
  exists f0, forall fuel, f0 <= fuel -> exists new,
    Regenerate fuel (stream_of xs) u parts (Z.of_nat (length xs)) = Ret new /\ map tag new = xs.
Proof. exact C15_any_tags_occur_pf. Qed.
Print Assumptions C15_any_tags_occur.

Example C15_cases : acceptable [[x05; x01]; [x06; x02]] /\ recurring (fun k => i2b k) /\
  Regenerate 10 (stream_of [x02; x07; x07; x00]) (fun k => i2b (k + 20)) [[x05; x01]; [x06; x02]] 4
  = Ret [[x06; x02]; [x03; x07]; [x03; x07]; [x04; x00]].
Proof.
  split; [|split; [|vm_compute; reflexivity]].
  - split; [cbn; lia|]. split; [cbn; lia|]. split; [intros p [<-|[<-|[]]]; reflexivity|]. repeat constructor; cbn; intuition discriminate.
  - intros b k. exists (256 * k + b2i b). split; [lia|]. unfold i2b, b2i. rewrite <- (n2b_b2n b) at 2. apply b2n_inj. rewrite !b2n_n2b.
    replace (N.of_nat (256 * k + N.to_nat (b2n b))) with (b2n b + N.of_nat k * 256)%N by lia. apply N.mod_add. discriminate.
Qed.

(** C16: when more than 256 distinct tags would be needed, Regenerate never returns, whatever the random sources deliver: it
    exhausts every amount of fuel. *)
Theorem C16_hangs : forall fuel stream u parts num,
  acceptable parts -> (256 < Z.of_nat (length parts) + num)%Z -> Regenerate fuel stream u parts num = Diverge.
Proof. exact C16_hangs_pf. Qed.
Print Assumptions C16_hangs.

(** C16: otherwise it returns on every source in which all byte values keep occurring: once the fuel is large enough. *)
Theorem C16_terminates : forall stream u parts num,
  acceptable parts -> (0 <= num)%Z -> (Z.of_nat (length parts) + num <= 256)%Z -> recurring u ->
  exists f0, forall fuel, f0 <= fuel -> exists new, Regenerate fuel stream u parts num = Ret new.
Proof. exact C16_terminates_pf. Qed.
Print Assumptions C16_terminates.

(** C16: a negative number of new shares panics, on all parts that pass the length checks (the allocation precedes the duplicate check). *)
Theorem C16_negative_panics : forall fuel stream u parts num, (num < 0)%Z ->
  (Regenerate fuel stream u parts num = Panic PMakeLen <-> acceptable parts \/ Combine parts = Fail EDuplicatePart).
Proof. exact C16_negative_panics_pf. Qed.
Print Assumptions C16_negative_panics.

Definition two_parts : list (list byte) := [[x05; x01]; [x06; x02]].
Example C16_cases : acceptable two_parts /\ (256 < Z.of_nat (length two_parts) + 255)%Z /\
  Regenerate 100 ex_stream ex_stream two_parts 255 = Diverge /\
  Regenerate 5 ex_stream ex_stream two_parts 3 = Ret [[x07; x03]; [x0e; x0a]; [x15; x11]] /\
  Regenerate 5 ex_stream ex_stream two_parts (-1) = Panic PMakeLen.
Proof.
  split; [|split; [reflexivity|repeat split; vm_compute; reflexivity]]. split; [cbn; lia|]. split; [cbn; lia|]. split; [intros p [<-|[<-|[]]]; reflexivity|].
  repeat constructor; cbn; intuition discriminate.
Qed.

(** C17: with numNewShares >= 0, Regenerate reports exactly Combine's errors, and never panics. *)
Theorem C17_contract : forall fuel stream u parts num,
  ((0 <= num)%Z -> forall e, Regenerate fuel stream u parts num = Fail e <-> Combine parts = Fail e) /\
  (forall e, Regenerate fuel stream u parts num = Fail e -> Combine parts = Fail e) /\
  ((0 <= num)%Z -> forall p, Regenerate fuel stream u parts num <> Panic p) /\
  Regenerate fuel stream u parts num <> UB /\
  ((0 <= num)%Z -> (Regenerate fuel stream u parts num = Diverge \/ exists new, Regenerate fuel stream u parts num = Ret new) <-> acceptable parts).
Proof. exact C17_contract_pf. Qed.
Print Assumptions C17_contract.

Example C17_cases : Regenerate 5 ex_stream ex_stream [[x05; x01]] 3 = Fail ETooFewParts /\ Regenerate 5 ex_stream ex_stream [[x05; x01]; [x06; x01]] 3 = Fail EDuplicatePart /\
  Regenerate 5 ex_stream ex_stream [[x05; x01]; [x06; x09; x02]] 0 = Fail EPartsLength /\ Regenerate 5 ex_stream ex_stream two_parts 0 = Ret [].
Proof. repeat split; vm_compute; reflexivity. Qed.
