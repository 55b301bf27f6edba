(** Proofs about what the access pattern of SplitGeneric, SplitWithRandomizer, SplitWithRandomizerOld, SplitP and Regenerate shows (C73).
    Generated from Pf26.v by tools/genprops.py: every theorem is proved there as the lemma of the same name with suffix _pf. *)
From Coq Require Import List NArith ZArith Lia Arith Bool Permutation.
From Coq.Init Require Import Byte.
From Verif Require Import GoSem Bytes Spec Vector Csprng Pool Polynomial Shamir SplitP Trace SpecTrace TraceMore SpecTraceMore ExData Pf26.
Import ListNotations.

(** C73. SplitGeneric: the function of values, and for the polynomials that the shares lie on exactly the table entries read. *)
Theorem C73_generic : forall perm stream secret parts threshold shares, Permutation perm (seq 0 255) ->
  fst (tSplitGeneric perm stream secret parts threshold) = SplitGeneric perm stream secret parts threshold /\
  (SplitGeneric perm stream secret parts threshold = Ret shares ->
   exists polys, is_sharing secret (Z.to_nat threshold) polys (map tag shares) shares /\
     snd (tSplitGeneric perm stream secret parts threshold) = splitRecords ArchGeneric (Z.to_nat threshold) polys (map tag shares)).
Proof. exact C73_generic_pf. Qed.
Print Assumptions C73_generic.

(** C73. SplitWithRandomizerOld, and SplitWithRandomizer. *)
Theorem C73_old : forall ar growcap ks evBufs secret parts threshold shares, grow_ok growcap ->
  fst (tSplitWithRandomizerOld ar growcap ks evBufs secret parts threshold) = SplitWithRandomizerOld ar growcap ks evBufs secret parts threshold /\
  (SplitWithRandomizerOld ar growcap ks evBufs secret parts threshold = Ret shares ->
   exists polys, is_sharing secret (Z.to_nat threshold) polys (map tag shares) shares /\
     snd (tSplitWithRandomizerOld ar growcap ks evBufs secret parts threshold) = splitRecords ar (Z.to_nat threshold) polys (map tag shares)).
Proof. exact C73_old_pf. Qed.
Print Assumptions C73_old.

Theorem C73_randomizer : forall fuel ar growcap ks polB trB evBufs secret parts threshold shares, grow_ok growcap ->
  fst (tSplitWithRandomizer fuel ar growcap ks polB trB evBufs secret parts threshold) = SplitWithRandomizer fuel ar growcap ks polB trB evBufs secret parts threshold /\
  (SplitWithRandomizer fuel ar growcap ks polB trB evBufs secret parts threshold = Ret shares ->
   exists polys, is_sharing secret (Z.to_nat threshold) polys (map tag shares) shares /\
     snd (tSplitWithRandomizer fuel ar growcap ks polB trB evBufs secret parts threshold) = splitRecords ar (Z.to_nat threshold) polys (map tag shares)).
Proof. exact C73_randomizer_pf. Qed.
Print Assumptions C73_randomizer.

(** C73. With the same randomness the records of these three functions do not depend on the secret, only on its length. *)
Theorem C73_generic_blind : forall perm stream secret1 secret2 parts threshold, Permutation perm (seq 0 255) -> length secret1 = length secret2 ->
  snd (tSplitGeneric perm stream secret1 parts threshold) = snd (tSplitGeneric perm stream secret2 parts threshold).
Proof. exact C73_generic_blind_pf. Qed.
Print Assumptions C73_generic_blind.

Theorem C73_old_blind : forall ar growcap ks evBufs1 evBufs2 secret1 secret2 parts threshold, grow_ok growcap -> length secret1 = length secret2 ->
  snd (tSplitWithRandomizerOld ar growcap ks evBufs1 secret1 parts threshold) = snd (tSplitWithRandomizerOld ar growcap ks evBufs2 secret2 parts threshold).
Proof. exact C73_old_blind_pf. Qed.
Print Assumptions C73_old_blind.

Theorem C73_randomizer_blind : forall fuel ar growcap ks polB trB1 trB2 evBufs1 evBufs2 secret1 secret2 parts threshold, grow_ok growcap -> length secret1 = length secret2 ->
  snd (tSplitWithRandomizer fuel ar growcap ks polB trB1 evBufs1 secret1 parts threshold) = snd (tSplitWithRandomizer fuel ar growcap ks polB trB2 evBufs2 secret2 parts threshold).
Proof. exact C73_randomizer_blind_pf. Qed.
Print Assumptions C73_randomizer_blind.

(** C73. But together with one single share the records determine the secret (SplitGeneric), or its last bytes: as many as the build treats one
    by one. *)
Theorem C73_generic_leak : forall perm1 perm2 stream1 stream2 secret1 secret2 parts threshold shares1 shares2 records i,
  Permutation perm1 (seq 0 255) -> Permutation perm2 (seq 0 255) -> length secret1 = length secret2 ->
  tSplitGeneric perm1 stream1 secret1 parts threshold = (Ret shares1, records) ->
  tSplitGeneric perm2 stream2 secret2 parts threshold = (Ret shares2, records) ->
  map tag shares1 = map tag shares2 -> i < length shares1 -> nth i shares1 [] = nth i shares2 [] ->
  secret1 = secret2.
Proof. exact C73_generic_leak_pf. Qed.
Print Assumptions C73_generic_leak.

Theorem C73_old_leak : forall ar growcap ks1 ks2 evBufs1 evBufs2 secret1 secret2 parts threshold shares1 shares2 records i,
  grow_ok growcap -> length secret1 = length secret2 ->
  tSplitWithRandomizerOld ar growcap ks1 evBufs1 secret1 parts threshold = (Ret shares1, records) ->
  tSplitWithRandomizerOld ar growcap ks2 evBufs2 secret2 parts threshold = (Ret shares2, records) ->
  map tag shares1 = map tag shares2 -> i < length shares1 -> nth i shares1 [] = nth i shares2 [] -> ar = ArchGeneric \/ tag (nth i shares1 []) <> x01 ->
  lastBytes (scalarPart ar (length secret1)) secret1 = lastBytes (scalarPart ar (length secret1)) secret2.
Proof. exact C73_old_leak_pf. Qed.
Print Assumptions C73_old_leak.

Theorem C73_randomizer_leak : forall fuel1 fuel2 ar growcap ks1 ks2 polB1 polB2 trB1 trB2 evBufs1 evBufs2 secret1 secret2 parts threshold shares1 shares2 records i,
  grow_ok growcap -> length secret1 = length secret2 ->
  tSplitWithRandomizer fuel1 ar growcap ks1 polB1 trB1 evBufs1 secret1 parts threshold = (Ret shares1, records) ->
  tSplitWithRandomizer fuel2 ar growcap ks2 polB2 trB2 evBufs2 secret2 parts threshold = (Ret shares2, records) ->
  map tag shares1 = map tag shares2 -> i < length shares1 -> nth i shares1 [] = nth i shares2 [] -> ar = ArchGeneric \/ tag (nth i shares1 []) <> x01 ->
  lastBytes (scalarPart ar (length secret1)) secret1 = lastBytes (scalarPart ar (length secret1)) secret2.
Proof. exact C73_randomizer_leak_pf. Qed.
Print Assumptions C73_randomizer_leak.

(** C73. SplitP: for the polynomials that the shares lie on, exactly what each goroutine (number k works on the bytes from 1024*k on) leaves,
    whatever the schedule. *)
Theorem C73_splitp : forall perm stream secret parts threshold sched shares,
  Permutation perm (seq 0 255) -> (N.of_nat (length secret) < 4294967296)%N ->
  SplitPRun perm stream secret parts threshold sched = Some (Ret shares) ->
  exists polys, is_sharing secret (Z.to_nat threshold) polys (map tag shares) shares /\
    forall k, recordsOf (S k) (SplitPRecords perm stream secret parts threshold sched) =
              flat_map (fun p => flat_map (evalRecords p) (map tag shares)) (firstn 1024 (skipn (1024 * k) polys)).
Proof. exact C73_splitp_pf. Qed.
Print Assumptions C73_splitp.

(** C73. With the same randomness and the same schedule the records of SplitP do not depend on the secret. *)
Theorem C73_splitp_blind : forall perm stream secret1 secret2 parts threshold sched shares,
  Permutation perm (seq 0 255) -> (N.of_nat (length secret1) <= 4294967296 - 1024)%N -> length secret1 = length secret2 ->
  SplitPRun perm stream secret1 parts threshold sched = Some (Ret shares) ->
  SplitPRecords perm stream secret1 parts threshold sched = SplitPRecords perm stream secret2 parts threshold sched.
Proof. exact C73_splitp_blind_pf. Qed.
Print Assumptions C73_splitp_blind.

(** C73. But what the goroutines leave, together with one single share, determines the secret, whatever the two schedules were. *)
Theorem C73_splitp_leak : forall perm1 perm2 stream1 stream2 secret1 secret2 parts threshold sched1 sched2 shares1 shares2 i,
  Permutation perm1 (seq 0 255) -> Permutation perm2 (seq 0 255) -> (N.of_nat (length secret1) < 4294967296)%N -> length secret1 = length secret2 ->
  SplitPRun perm1 stream1 secret1 parts threshold sched1 = Some (Ret shares1) ->
  SplitPRun perm2 stream2 secret2 parts threshold sched2 = Some (Ret shares2) ->
  (forall k, recordsOf (S k) (SplitPRecords perm1 stream1 secret1 parts threshold sched1) = recordsOf (S k) (SplitPRecords perm2 stream2 secret2 parts threshold sched2)) ->
  map tag shares1 = map tag shares2 -> i < length shares1 -> nth i shares1 [] = nth i shares2 [] ->
  secret1 = secret2.
Proof. exact C73_splitp_leak_pf. Qed.
Print Assumptions C73_splitp_leak.

(** C73. Regenerate: the function of values; a call that returns takes the same branches whatever the shares are... *)
Theorem C73_regenerate_branches : forall fuel stream u parts num r,
  fst (tRegenerate fuel stream u parts num) = Regenerate fuel stream u parts num /\
  (Regenerate fuel stream u parts num = Ret r ->
   branches (snd (tRegenerate fuel stream u parts num)) = repeat (Branch false) (length r * ((length (nth 0 parts []) - 1) * (length parts * (length parts - 1))))).
Proof. exact C73_regenerate_branches_pf. Qed.
Print Assumptions C73_regenerate_branches.

(** ... but if it makes at least one share, the table entries it reads determine the bodies of the shares completely, and their tags up to adding the
    difference of the new tags to all of them; together with one of the new shares, everything. *)
Theorem C73_regenerate_leak : forall fuel1 fuel2 stream1 stream2 u1 u2 parts1 parts2 num r1 r2 records k,
  tRegenerate fuel1 stream1 u1 parts1 num = (Ret r1, records) -> tRegenerate fuel2 stream2 u2 parts2 num = (Ret r2, records) ->
  map (@length byte) parts1 = map (@length byte) parts2 -> k < length r1 ->
  map (@removelast byte) parts1 = map (@removelast byte) parts2 /\
  map tag parts2 = map (gadd (gadd (tag (nth k r1 [])) (tag (nth k r2 [])))) (map tag parts1) /\
  (tag (nth k r1 []) = tag (nth k r2 []) -> parts1 = parts2).
Proof. exact C73_regenerate_leak_pf. Qed.
Print Assumptions C73_regenerate_leak.

(** "hello", 3 of 5: what SplitGeneric, SplitWithRandomizerOld, SplitWithRandomizer and one goroutine of SplitP leave; and 2 new shares of a 2-of-2 sharing. *)
Example C73_runs :
  (exists sh r, tSplitGeneric ex_perm ex_stream ex_secret 5 3 = (Ret sh, r) /\ length sh = 5 /\ length r = 50) /\
  (exists sh r, tSplitWithRandomizerOld ex_ar growcap117 ex_stream ex_ev ex_secret 5 3 = (Ret sh, r) /\ length sh = 5 /\ length r = 60) /\
  (exists sh r, tSplitWithRandomizer 10 ex_ar growcap117 ex_stream ex_stale ex_stale ex_ev ex_secret 5 3 = (Ret sh, r) /\ length sh = 5 /\ length r = 60).
Proof. split; [|split]; eexists _, _; (split; [vm_compute; reflexivity|split; vm_compute; reflexivity]). Qed.
Example C73_splitp_run : exists sh, SplitPRun ex_perm ex_stream [x68; x69] 2 2 [0; 1; 0; 1; 1; 1; 1; 1; 1; 1; 1; 0] = Some (Ret sh) /\
  length (recordsOf 1 (SplitPRecords ex_perm ex_stream [x68; x69] 2 2 [0; 1; 0; 1; 1; 1; 1; 1; 1; 1; 1; 0])) = 8.
Proof. eexists. split; vm_compute; reflexivity. Qed.
Example C73_regenerate_run : exists r1 r2,
  fst (tRegenerate 10 (fun i => i2b (9 + i)) ex_stream [[x05; x01]; [x07; x02]] 2) = Ret r1 /\
  fst (tRegenerate 10 (fun i => i2b (9 + i)) ex_stream [[x05; x01]; [x08; x02]] 2) = Ret r2 /\
  snd (tRegenerate 10 (fun i => i2b (9 + i)) ex_stream [[x05; x01]; [x07; x02]] 2) <> snd (tRegenerate 10 (fun i => i2b (9 + i)) ex_stream [[x05; x01]; [x08; x02]] 2) /\
  branches (snd (tRegenerate 10 (fun i => i2b (9 + i)) ex_stream [[x05; x01]; [x07; x02]] 2)) = repeat (Branch false) 4.
Proof. eexists _, _. split; [vm_compute; reflexivity|]. split; [vm_compute; reflexivity|]. split; [vm_compute; discriminate|vm_compute; reflexivity]. Qed.
(** Both hypotheses of the leak theorems are met by any run compared with itself; and equal records alone do not determine the secret: the two
    runs below differ in the secret only, and their shares differ. *)
Example C73_generic_same_records : forall r1 r2, r1 = tSplitGeneric ex_perm ex_stream ex_secret 5 3 -> r2 = tSplitGeneric ex_perm ex_stream (x00 :: tl ex_secret) 5 3 ->
  snd r1 = snd r2 /\ fst r1 <> fst r2.
Proof. intros r1 r2 -> ->. split; [apply C73_generic_blind_pf; [apply ex_perm_ok|reflexivity]|vm_compute; discriminate]. Qed.
