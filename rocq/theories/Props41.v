(** Proofs about what the access pattern of krawczyk's Split, SplitWithRandomizer and Combine shows (C86).
    Generated from Pf41.v by tools/genprops.py: every theorem is proved there as the lemma of the same name with suffix _pf. *)
From Coq Require Import List NArith ZArith Lia Arith Bool Permutation.
From Coq.Init Require Import Byte.
From Verif Require Import GoSem Bytes Spec SpecKr Vector Csprng Pool Polynomial Shamir Libs Krawczyk Asm Trace SpecTrace TraceMore KrTrace ExData Pf41.
Import ListNotations.

(** C86. krawczyk.Split: the function of values, and the records are those of the shamir sharing of key and length on which the metadata lie. *)
Theorem C86_split : forall E zp ar growcap krand perm stream polB trB evBufs secret parts threshold shares,
  grow_ok growcap -> Permutation perm (seq 0 255) ->
  let call := tkrSplit E zp ar growcap krand perm stream polB trB evBufs secret parts threshold in
  fst call = krSplit E zp ar growcap krand perm stream polB trB evBufs secret parts threshold /\
  (fst call = Ret shares ->
   exists polys, is_sharing (map krand (seq 0 16) ++ le32 (N.of_nat (length secret))) (Z.to_nat threshold) polys (map (fun s => tag (kr_meta s)) shares) (map kr_meta shares) /\
     snd call = splitRecords ar (Z.to_nat threshold) polys (map (fun s => tag (kr_meta s)) shares)).
Proof. exact C86_split_pf. Qed.
Print Assumptions C86_split.

(** C86. The same for krawczyk.SplitWithRandomizer. *)
Theorem C86_randomizer : forall fuel E zp ar growcap ks polB trB evBufs secret parts threshold shares,
  grow_ok growcap ->
  let call := tkrSplitWithRandomizer fuel E zp ar growcap ks polB trB evBufs secret parts threshold in
  fst call = krSplitWithRandomizer fuel E zp ar growcap ks polB trB evBufs secret parts threshold /\
  (fst call = Ret shares ->
   exists polys, is_sharing (map ks (seq 0 16) ++ le32 (N.of_nat (length secret))) (Z.to_nat threshold) polys (map (fun s => tag (kr_meta s)) shares) (map kr_meta shares) /\
     snd call = splitRecords ar (Z.to_nat threshold) polys (map (fun s => tag (kr_meta s)) shares)).
Proof. exact C86_randomizer_pf. Qed.
Print Assumptions C86_randomizer.

(** C86. The records of krawczyk.Split depend neither on the secret (not even on its length) nor on the AES key, and of the random bytes only on
    those for the last bytes of the 20 bytes of key and length. *)
Theorem C86_split_blind : forall E1 E2 zp1 zp2 ar growcap krand1 krand2 perm stream1 stream2 polB1 polB2 trB1 trB2 evBufs1 evBufs2 secret1 secret2 parts threshold,
  grow_ok growcap -> Permutation perm (seq 0 255) -> kr_valid_args zp1 secret1 parts threshold -> kr_valid_args zp2 secret2 parts threshold ->
  (forall j, Z.to_nat threshold * (20 - scalarPart ar 20) <= j < Z.to_nat threshold * 20 -> stream1 j = stream2 j) ->
  snd (tkrSplit E1 zp1 ar growcap krand1 perm stream1 polB1 trB1 evBufs1 secret1 parts threshold) =
  snd (tkrSplit E2 zp2 ar growcap krand2 perm stream2 polB2 trB2 evBufs2 secret2 parts threshold).
Proof. exact C86_split_blind_pf. Qed.
Print Assumptions C86_split_blind.

(** C86. But with the metadata of one single share (whose tag is not 1, or in a build without assembler) they determine the last bytes of key and
    length, as many as the build treats one by one... *)
Theorem C86_split_leak : forall E zp ar growcap krand1 krand2 perm stream1 stream2 polB1 polB2 trB1 trB2 evBufs1 evBufs2 secret1 secret2 parts threshold
    shares1 shares2 records i,
  grow_ok growcap -> Permutation perm (seq 0 255) ->
  tkrSplit E zp ar growcap krand1 perm stream1 polB1 trB1 evBufs1 secret1 parts threshold = (Ret shares1, records) ->
  tkrSplit E zp ar growcap krand2 perm stream2 polB2 trB2 evBufs2 secret2 parts threshold = (Ret shares2, records) ->
  i < length shares1 -> kr_meta (nth i shares1 []) = kr_meta (nth i shares2 []) -> ar = ArchGeneric \/ tag (kr_meta (nth i shares1 [])) <> x01 ->
  let key_and_length krand (secret : list byte) := map krand (seq 0 16) ++ le32 (N.of_nat (length secret)) in
  lastBytes (scalarPart ar 20) (key_and_length krand1 secret1) = lastBytes (scalarPart ar 20) (key_and_length krand2 secret2).
Proof. exact C86_split_leak_pf. Qed.
Print Assumptions C86_split_leak.

(** ... which are the whole AES key and the length in every build but the one for amd64 with SSSE3 and without AVX2 (and there the length): then
    the pieces, of which [threshold] suffice, and the records determine the secret. *)
Theorem C86_split_secret : forall E zp ar growcap krand1 krand2 perm stream1 stream2 polB1 polB2 trB1 trB2 evBufs1 evBufs2 secret1 secret2 parts threshold
    shares1 shares2 records i is,
  grow_ok growcap -> Permutation perm (seq 0 255) -> (forall sse2, ar <> ArchAmd64 sse2 true false) ->
  tkrSplit E zp ar growcap krand1 perm stream1 polB1 trB1 evBufs1 secret1 parts threshold = (Ret shares1, records) ->
  tkrSplit E zp ar growcap krand2 perm stream2 polB2 trB2 evBufs2 secret2 parts threshold = (Ret shares2, records) ->
  i < length shares1 -> kr_meta (nth i shares1 []) = kr_meta (nth i shares2 []) -> ar = ArchGeneric \/ tag (kr_meta (nth i shares1 [])) <> x01 ->
  map krand1 (seq 0 16) = map krand2 (seq 0 16) /\ length secret1 = length secret2 /\
  (selection (Z.to_nat parts) (Z.to_nat threshold) is -> map kr_piece (pick [] shares1 is) = map kr_piece (pick [] shares2 is) -> secret1 = secret2).
Proof. exact C86_split_secret_pf. Qed.
Print Assumptions C86_split_secret.

(** C86. krawczyk.Combine: the function of values; a call that returns takes the same branches whatever the shares are... *)
Theorem C86_combine_branches : forall E zp rd ss parts threshold out,
  let call := tkrCombineCap E zp rd ss parts threshold in
  fst call = krCombineCap E zp rd ss parts threshold /\
  (fst call = Ret out -> branches (snd call) = repeat (Branch false) (20 * (length (somes ss) * (length (somes ss) - 1)))).
Proof. exact C86_combine_branches_pf. Qed.
Print Assumptions C86_combine_branches.

(** ... and its records are a function of the metadata of the shares (the pieces, the parameters and the cipher leave none), from which the metadata
    can be read off: two calls with equally many shares leave the same records if and only if the metadata are the same. *)
Theorem C86_combine_metadata : forall E1 E2 zp1 zp2 rd1 rd2 ss1 ss2 parts1 parts2 threshold1 threshold2 out1 out2 records1 records2,
  tkrCombineCap E1 zp1 rd1 ss1 parts1 threshold1 = (Ret out1, records1) -> tkrCombineCap E2 zp2 rd2 ss2 parts2 threshold2 = (Ret out2, records2) ->
  length (somes ss1) = length (somes ss2) ->
  (records1 = records2 <-> map (fun s => kr_meta (fst s)) (somes ss1) = map (fun s => kr_meta (fst s)) (somes ss2)).
Proof. exact C86_combine_metadata_pf. Qed.
Print Assumptions C86_combine_metadata.

(** So the records of krawczyk.Combine, and the pieces, determine the secret. *)
Theorem C86_combine_secret : forall E zp rd shares1 shares2 parts threshold out1 out2 records,
  tkrCombine E zp rd (map Some shares1) parts threshold = (Ret out1, records) -> tkrCombine E zp rd (map Some shares2) parts threshold = (Ret out2, records) ->
  length shares1 = length shares2 -> map (skipn 21) shares1 = map (skipn 21) shares2 -> out1 = out2.
Proof. exact C86_combine_secret_pf. Qed.
Print Assumptions C86_combine_secret.

(** the 20 bytes of key and length in the builds: generic, amd64 with AVX2, with SSSE3 only, with neither, arm64 *)
Example C86_builds : map (fun ar => scalarPart ar 20) [ArchGeneric; ArchAmd64 true true true; ArchAmd64 true true false; ArchAmd64 true false false; ArchArm64] = [20; 20; 4; 20; 20].
Proof. reflexivity. Qed.

(** two runs that return, with different records *)
Example C86_case : exists shares records, tkrSplit xor_bytes true ex_ar growcap117 (fun i => i2b (5 * i + 9)) ex_perm ex_stream ex_stale ex_stale ex_ev ex_secret 5 3 = (Ret shares, records) /\
  length records = 170 /\ tag (kr_meta (nth 1 shares [])) = x02 /\ kr_valid_args true ex_secret 5 3 /\
  exists records', tkrCombine xor_bytes true (fun _ => 512) (map Some (pick [] shares [4; 1; 2])) 5 3 = (Ret ex_secret, records') /\ length records' = 1020.
Proof.
  eexists _, _. split; [vm_compute; reflexivity|]. split; [vm_compute; reflexivity|]. split; [vm_compute; reflexivity|].
  split; [repeat split; try discriminate; left; reflexivity|]. eexists. split; vm_compute; reflexivity.
Qed.
