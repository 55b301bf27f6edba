(** Proofs about Regenerate called on altered or foreign parts (C91).
    Generated from Pf46.v by tools/genprops.py: every theorem is proved there as the lemma of the same name with suffix _pf. *)
From Coq Require Import List NArith ZArith Lia Arith Bool Permutation.
From Coq.Init Require Import Byte.
From Verif Require Import GoSem Bytes Spec Polynomial Shamir SpecKr ExData Pf46.
Import ListNotations.

(** C91: whatever the parts are - genuine, altered, of different splits - any number of the given parts and of the new shares with distinct tags, as
    many as there were parts, combine to what the given parts combine to. *)
Theorem C91_consistent : forall fuel stream u parts num new,
  Regenerate fuel stream u parts num = Ret new ->
  exists r, Combine parts = Ret r /\
    forall mix, (forall s, In s mix -> In s parts \/ In s new) -> NoDup (map tag mix) -> length parts <= length mix -> Combine mix = Ret r.
Proof. exact C91_consistent_pf. Qed.
Print Assumptions C91_consistent.

(** C91: one part is replaced by another of the same length and tag; the random bytes are the same. Regenerate then draws the same tags. A new share with the
    tag of one of the other parts is still that part. Any other new share changes at exactly the positions where the replaced part changed. *)
Theorem C91_one_part : forall fuel stream u parts num new i p',
  Regenerate fuel stream u parts num = Ret new -> i < length parts ->
  length p' = length (nth i parts []) -> tag p' = tag (nth i parts []) ->
  exists new', Regenerate fuel stream u (replace parts i p') num = Ret new' /\ length new' = length new /\
    forall m, m < length new ->
      let s := nth m new [] in let s' := nth m new' [] in
      length s' = length s /\ tag s' = tag s /\
      forall j, j < length p' ->
        (nth j s' x00 = nth j s x00 <->
         nth j p' x00 = nth j (nth i parts []) x00 \/ exists k, k < length parts /\ k <> i /\ tag (nth k parts []) = tag s).
Proof. exact C91_one_part_pf. Qed.
Print Assumptions C91_one_part.

(** C91: shares of a sharing with threshold [t], one of them altered (length and tag intact): every new share is the genuine share with its tag exactly at the positions
    where the altered share is right, or everywhere if its tag is that of another given share. *)
Theorem C91_spreads : forall fuel stream u secret t polys tags shares is num new i p',
  2 <= t -> secret <> [] -> is_sharing secret t polys tags shares -> selection (length shares) t is -> i < length is ->
  let genuine := pick [] shares is in
  length p' = length (nth i genuine []) -> tag p' = tag (nth i genuine []) ->
  Regenerate fuel stream u (replace genuine i p') num = Ret new ->
  forall s, In s new -> length s = length p' /\ forall j, j < length p' ->
    (nth j s x00 = nth j (share_at polys (tag s)) x00 <->
     nth j p' x00 = nth j (nth i genuine []) x00 \/ exists k, k < length is /\ k <> i /\ tag (nth k genuine []) = tag s).
Proof. exact C91_spreads_pf. Qed.
Print Assumptions C91_spreads.

(** C91: a participant whose part is handed to Regenerate can, by one change of that part, make the new shares shares of the secret with any difference [delta]: any as many of
    the given parts and new shares as there were parts then combine to it. The change depends on the tags and on [delta] only. *)
Theorem C91_steer : forall tags i, NoDup tags -> ~ In x00 tags -> i < length tags ->
  exists m, m <> x00 /\ forall fuel stream u parts num r delta new, map tag parts = tags -> Combine parts = Ret r -> length delta = length r ->
    let altered := replace parts i (xor_bytes (data (nth i parts [])) (map (gmul m) delta) ++ [tag (nth i parts [])]) in
    Regenerate fuel stream u altered num = Ret new ->
    forall mix, (forall s, In s mix -> In s altered \/ In s new) -> NoDup (map tag mix) -> length parts <= length mix -> Combine mix = Ret (xor_bytes r delta).
Proof. exact C91_steer_pf. Qed.
Print Assumptions C91_steer.

(** two parts of a 2-of-2 sharing of "hello"; then with one byte of the first altered: the fresh share changes there, and combines with the other part to a wrong secret *)
Example C91_case : exists shares new p' new',
  SplitGeneric ex_perm ex_stream ex_secret 2 2 = Ret shares /\
  Regenerate 10 (stream_of [x07]) (fun _ => x33) shares 1 = Ret new /\
  p' = replace (nth 0 shares []) 2 x00 /\ length p' = length (nth 0 shares []) /\ tag p' = tag (nth 0 shares []) /\
  Regenerate 10 (stream_of [x07]) (fun _ => x33) (replace shares 0 p') 1 = Ret new' /\
  nth 2 (nth 0 new' []) x00 <> nth 2 (nth 0 new []) x00 /\ nth 1 (nth 0 new' []) x00 = nth 1 (nth 0 new []) x00 /\
  exists r, Combine [nth 0 new' []; nth 1 shares []] = Ret r /\ Combine [p'; nth 1 shares []] = Ret r /\ r <> ex_secret.
Proof.
  eexists _, _, _, _. split; [vm_compute; reflexivity|]. split; [vm_compute; reflexivity|]. split; [reflexivity|]. split; [vm_compute; reflexivity|]. split; [vm_compute; reflexivity|].
  split; [vm_compute; reflexivity|]. split; [vm_compute; discriminate|]. split; [vm_compute; reflexivity|].
  eexists. split; [vm_compute; reflexivity|]. split; [vm_compute; reflexivity|]. vm_compute. discriminate.
Qed.
