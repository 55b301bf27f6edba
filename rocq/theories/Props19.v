(** Proofs about what the access pattern of Split and Combine shows (C66).
    Generated from Pf19.v by tools/genprops.py: every theorem is proved there as the lemma of the same name with suffix _pf. *)
From Coq Require Import List NArith ZArith Lia Arith Bool Permutation.
From Coq.Init Require Import Byte.
From Verif Require Import GoSem Bytes Spec Vector Csprng Pool Polynomial Shamir Asm Trace SpecTrace ExData Pf19.
Import ListNotations.

(** C66. MulConstVector: the function of values, and exactly the table entries read. *)
Theorem C66_mulconstvector : forall ar c v,
  fst (tMulConstVector ar c v) = MulConstVector ar c v /\ snd (tMulConstVector ar c v) = mulRecords ar c v.
Proof. exact C66_mulconstvector_pf. Qed.
Print Assumptions C66_mulconstvector.

(** C66. Split: the function of values, and for the polynomials that the shares lie on exactly the table entries read and branches taken. *)
Theorem C66_split : forall ar growcap perm stream polB trB evBufs secret parts threshold shares,
  grow_ok growcap -> Permutation perm (seq 0 255) ->
  fst (tSplit ar growcap perm stream polB trB evBufs secret parts threshold) = Split ar growcap perm stream polB trB evBufs secret parts threshold /\
  (Split ar growcap perm stream polB trB evBufs secret parts threshold = Ret shares ->
   exists polys, is_sharing secret (Z.to_nat threshold) polys (map tag shares) shares /\
     snd (tSplit ar growcap perm stream polB trB evBufs secret parts threshold) = splitRecords ar (Z.to_nat threshold) polys (map tag shares)).
Proof. exact C66_split_pf. Qed.
Print Assumptions C66_split.

(** C66. The records of Split do not depend on the secret, and of the random bytes only on those for the last bytes of the secret (as many as
    the build treats one by one); with none such, on nothing but the arguments' sizes and the tags. *)
Theorem C66_split_blind : forall ar growcap perm stream1 stream2 polB1 polB2 trB1 trB2 evBufs1 evBufs2 secret1 secret2 parts threshold,
  grow_ok growcap -> Permutation perm (seq 0 255) -> length secret1 = length secret2 ->
  (forall j, Z.to_nat threshold * (length secret1 - scalarPart ar (length secret1)) <= j < Z.to_nat threshold * length secret1 -> stream1 j = stream2 j) ->
  snd (tSplit ar growcap perm stream1 polB1 trB1 evBufs1 secret1 parts threshold) =
  snd (tSplit ar growcap perm stream2 polB2 trB2 evBufs2 secret2 parts threshold).
Proof. exact C66_split_blind_pf. Qed.
Print Assumptions C66_split_blind.

(** C66. But together with one single share (whose tag is not 1, or in a build without assembler) the records of Split determine the last bytes
    of the secret: as many as the build treats one by one, all of them without assembler. *)
Theorem C66_split_leak : forall ar growcap perm stream1 stream2 polB1 polB2 trB1 trB2 evBufs1 evBufs2 secret1 secret2 parts threshold shares1 shares2 records i,
  grow_ok growcap -> Permutation perm (seq 0 255) -> length secret1 = length secret2 ->
  tSplit ar growcap perm stream1 polB1 trB1 evBufs1 secret1 parts threshold = (Ret shares1, records) ->
  tSplit ar growcap perm stream2 polB2 trB2 evBufs2 secret2 parts threshold = (Ret shares2, records) ->
  i < length shares1 -> nth i shares1 [] = nth i shares2 [] -> ar = ArchGeneric \/ tag (nth i shares1 []) <> x01 ->
  lastBytes (scalarPart ar (length secret1)) secret1 = lastBytes (scalarPart ar (length secret1)) secret2.
Proof. exact C66_split_leak_pf. Qed.
Print Assumptions C66_split_leak.

(** With AVX2 a secret of 64 bytes is handled by vector instructions only (other secret, other random bytes, same records), one of 32 bytes is
    looked up byte by byte; for the 5 bytes of "hello" the records differ as soon as the random bytes do, and share 1 alone does not show the
    difference between these two runs. *)
Example C66_sizes : map (scalarPart (ArchAmd64 true true true)) [5; 32; 33; 64; 100; 128; 160] = [5; 32; 1; 0; 4; 0; 32] /\
  map (scalarPart (ArchAmd64 true true false)) [5; 16; 17] = [5; 16; 1] /\ map (scalarPart ArchArm64) [5; 32; 33] = [5; 0; 1].
Proof. vm_compute. repeat split. Qed.
Example C66_run64 : forall sec1 sec2, sec1 = repeat x41 64 -> sec2 = map i2b (seq 7 64) ->
  snd (tSplit ex_ar growcap117 ex_perm ex_stream ex_stale ex_stale ex_ev sec1 5 3) =
  snd (tSplit ex_ar growcap117 ex_perm (fun i => i2b (i * i)) [] [] ex_ev sec2 5 3) /\
  length (snd (tSplit ex_ar growcap117 ex_perm ex_stream ex_stale ex_stale ex_ev sec1 5 3)) = 10.
Proof. intros sec1 sec2 -> ->. split; vm_compute; reflexivity. Qed.
Definition ex_other (i : nat) : byte := if i =? 1 then x55 else if i =? 2 then x88 else ex_stream i.
Example C66_run5 : forall sec2, sec2 = x88 :: tl ex_secret ->
  exists sh1 sh2 r1 r2,
    tSplit ex_ar growcap117 ex_perm ex_stream ex_stale ex_stale ex_ev ex_secret 5 3 = (Ret sh1, r1) /\
    tSplit ex_ar growcap117 ex_perm ex_other ex_stale ex_stale ex_ev sec2 5 3 = (Ret sh2, r2) /\
    nth 1 sh1 [] = nth 1 sh2 [] /\ tag (nth 1 sh1 []) = x02 /\ r1 <> r2 /\ length r1 = 50.
Proof. intros sec2 ->. eexists _, _, _, _. split; [vm_compute; reflexivity|]. split; [vm_compute; reflexivity|]. split; [vm_compute; reflexivity|]. split; [vm_compute; reflexivity|]. split; [vm_compute; discriminate|vm_compute; reflexivity]. Qed.

(** C66. Combine: the function of values; a call that returns takes the same branches whatever the shares are (the promise of the comments at
    mult and div)... *)
Theorem C66_combine_branches : forall parts r, fst (tCombine parts) = Combine parts /\
  (Combine parts = Ret r -> branches (snd (tCombine parts)) = repeat (Branch false) (length r * (length parts * (length parts - 1)))).
Proof. exact C66_combine_branches_pf. Qed.
Print Assumptions C66_combine_branches.

(** ... but the table entries it reads determine the shares completely, and so the secret. *)
Theorem C66_combine_leak : forall parts1 parts2 r1 r2 records,
  tCombine parts1 = (Ret r1, records) -> tCombine parts2 = (Ret r2, records) -> length parts1 = length parts2 -> length r1 = length r2 ->
  parts1 = parts2 /\ r1 = r2.
Proof. exact C66_combine_leak_pf. Qed.
Print Assumptions C66_combine_leak.

(** two calls for the shares of two different secrets: the same branches, other table entries *)
Example C66_combine_run : exists r1 r2, fst (tCombine [[x01; x02; x01]; [x03; x04; x02]]) = Ret r1 /\ fst (tCombine [[x01; x02; x01]; [x03; x05; x02]]) = Ret r2 /\ r1 <> r2 /\
  branches (snd (tCombine [[x01; x02; x01]; [x03; x04; x02]])) = repeat (Branch false) 4 /\
  length (snd (tCombine [[x01; x02; x01]; [x03; x04; x02]])) = 40 /\
  snd (tCombine [[x01; x02; x01]; [x03; x04; x02]]) <> snd (tCombine [[x01; x02; x01]; [x03; x05; x02]]).
Proof. eexists _, _. split; [vm_compute; reflexivity|]. split; [vm_compute; reflexivity|]. split; [discriminate|]. split; [vm_compute; reflexivity|]. split; [vm_compute; reflexivity|vm_compute; discriminate]. Qed.

(** C66. The assembler routines: which instruction is executed next and which addresses are read and written do not depend on the bytes in
    memory; for every program made of the modelled instructions, for any number of steps. *)
Theorem C66_asm_amd64 : forall code args n s1 s2, xlike s1 s2 -> xtrace code args n s1 = xtrace code args n s2.
Proof. exact C66_asm_amd64_pf. Qed.
Print Assumptions C66_asm_amd64.

Theorem C66_asm_arm64 : forall code args n s1 s2, alike s1 s2 -> atrace code args n s1 = atrace code args n s2.
Proof. exact C66_asm_arm64_pf. Qed.
Print Assumptions C66_asm_arm64.

(** C66. These records are what the instructions do: the k-th record belongs to the state after k steps, and says exactly which bytes of memory the
    next step accesses ([acts_on]); there is such a record for every instruction executed. *)
Theorem C66_asm_amd64_faithful : forall code args n s k, xwide s ->
  match nth_error (xtrace code args n s) k with
  | Some (pc, acc) => exists s', steps (xstep code args) k s = Some s' /\ pc = xpc s' /\ acts_on (xstep code args) xmem xput s' acc
  | None => k < n -> match steps (xstep code args) k s with Some s' => nth_error code (xpc s') = None | None => True end
  end.
Proof. exact C66_asm_amd64_faithful_pf. Qed.
Print Assumptions C66_asm_amd64_faithful.

Theorem C66_asm_arm64_faithful : forall code args n s k, awide s ->
  match nth_error (atrace code args n s) k with
  | Some (pc, acc) => exists s', steps (astep code args) k s = Some s' /\ pc = apc s' /\ acts_on (astep code args) amem aput s' acc
  | None => k < n -> match steps (astep code args) k s with Some s' => nth_error code (apc s') = None | None => True end
  end.
Proof. exact C66_asm_arm64_faithful_pf. Qed.
Print Assumptions C66_asm_arm64_faithful.

(** 64 bytes at address 1000 multiplied into address 2000, tables at 4000 and 5000, for memories full of zeros and full of other bytes: 40
    instructions, six of them reading and two writing *)
Definition ex_xstate (b : byte) : xstate :=
  {| xg := fun _ => 0%N; xv := fun _ => (repeat b 16, repeat b 16); xz := false; xmem := fun a => if (a <? 8192)%N then Some b else None; xpc := 0 |}.
Definition ex_args (off : N) : N :=
  match off with 0%N => 4000%N | 24%N => 5000%N | 48%N => 1000%N | 56%N => 64%N | 72%N => 2000%N | _ => 64%N end.
Example C66_asm_run : xlike (ex_xstate x00) (ex_xstate x5a) /\
  xtrace galMulAVX2_code ex_args 100 (ex_xstate x00) = xtrace galMulAVX2_code ex_args 100 (ex_xstate x5a) /\
  map snd (filter (fun e => match snd e with Some _ => true | None => false end) (xtrace galMulAVX2_code ex_args 100 (ex_xstate x5a))) =
    [Some (4000%N, 16, false); Some (5000%N, 16, false); Some (1000%N, 32, false); Some (2000%N, 32, true); Some (1032%N, 32, false); Some (2032%N, 32, true)].
Proof.
  assert (X : xlike (ex_xstate x00) (ex_xstate x5a)).
  { split; [reflexivity|]. split; [reflexivity|]. split; [reflexivity|]. split; [|intros r; split; reflexivity].
    intros a. unfold ex_xstate. cbn [xmem]. destruct (a <? 8192)%N; split; (discriminate || reflexivity). }
  split; [exact X|]. split; [apply C66_asm_amd64, X|]. vm_compute. reflexivity.
Qed.
Example C66_asm_wide : xwide (ex_xstate x5a).
Proof. intros r. split; reflexivity. Qed.
