(** Theorems: the properties of the worker and of sequences of calls (C42, C44, C45).
    Generated from Pf7.v by tools/genprops.py: every theorem is proved there as the lemma of the same name with suffix _pf. *)
From Coq Require Import List NArith ZArith Lia Arith Bool Permutation String.
From Coq.Init Require Import Byte.
From Verif Require Import GoSem Bytes Spec SpecKr Vector Csprng Pool Polynomial Shamir Libs AES Krawczyk Worker ExData Pf7.
Import ListNotations.

(** C42: which errors Worker.Split returns. *)
Theorem C42_split_errors : forall fuel E zp ar growcap w polB trB evBufs algorithm input n k e,
  grow_ok growcap ->
  (WorkerSplit fuel E zp ar growcap w polB trB evBufs algorithm input n k = Fail e <->
     (algorithm = "shamir"%string /\ arg_error input n k e) \/
     (algorithm = "krawczyk"%string /\ kr_arg_error zp input n k e) \/
     (algorithm <> "shamir"%string /\ algorithm <> "krawczyk"%string /\ e = EInvalidAlgorithm)).
Proof. exact C42_split_errors_pf. Qed.
Print Assumptions C42_split_errors.

(** C42: which errors Worker.Combine returns: for an unknown name always the same one, for "shamir" exactly on unacceptable parts;
    otherwise it is the Combine of the chosen package. *)
Theorem C42_combine_dispatch : forall E zp rd algorithm ss n k,
  let parts := map (fun s => match s with Some s => s | None => [] end) ss in
  (algorithm <> "shamir"%string -> algorithm <> "krawczyk"%string -> WorkerCombine E zp rd algorithm ss n k = Fail EInvalidAlgorithm) /\
  (WorkerCombine E zp rd "shamir" ss n k = Combine parts) /\
  (~ acceptable parts -> exists e, WorkerCombine E zp rd "shamir" ss n k = Fail e) /\
  (acceptable parts -> exists r, WorkerCombine E zp rd "shamir" ss n k = Ret r) /\
  (WorkerCombine E zp rd "krawczyk" ss n k = krCombine E zp rd ss n k).
Proof. exact C42_combine_dispatch_pf. Qed.
Print Assumptions C42_combine_dispatch.

(** C42: whatever Worker.Split returns, Worker.Combine puts together again. *)
Theorem C42_round_trip : forall fuel E zp rd ar growcap w polB trB evBufs algorithm input n k shares,
  (forall i, 0 < rd i) -> grow_ok growcap ->
  WorkerSplit fuel E zp ar growcap w polB trB evBufs algorithm input n k = Ret shares ->
  List.length shares = Z.to_nat n /\
  forall ss is, selection (Z.to_nat n) (Z.to_nat k) is -> somes ss = pick [] shares is ->
    (algorithm = "shamir"%string -> ~ In None ss) ->
    WorkerCombine E zp rd algorithm ss n k = Ret input.
Proof. exact C42_round_trip_pf. Qed.
Print Assumptions C42_round_trip.

(** C42: a worker draws the same tags, respectively the same key, in every call: two successful calls with the same number of
    parts give shares with the same tags. *)
Theorem C42_same_tags : forall fuel fuel' E zp ar ar' growcap growcap' w polB polB' trB trB' evBufs evBufs' input input' n k k' shares shares',
  grow_ok growcap -> grow_ok growcap' ->
  WorkerSplit fuel E zp ar growcap w polB trB evBufs "shamir" input n k = Ret shares ->
  WorkerSplit fuel' E zp ar' growcap' w polB' trB' evBufs' "shamir" input' n k' = Ret shares' ->
  map tag shares = map tag shares'.
Proof. exact C42_same_tags_pf. Qed.
Print Assumptions C42_same_tags.

Example C42_run :
  match WorkerSplit 3 AES true ex_ar growcap117 (NewWorker AES ex_stream) [] [] ex_ev "shamir" ex_secret 5 3 with
  | Ret sh => WorkerCombine AES true (fun _ => 512) "shamir" (map Some (pick [] sh [3; 1; 0])) 5 3 = Ret ex_secret
  | _ => False end /\
  match WorkerSplit 3 AES true ex_ar growcap117 (NewWorker AES ex_stream) [] [] ex_ev "krawczyk" ex_secret 5 3 with
  | Ret sh => WorkerCombine AES true (fun _ => 512) "krawczyk" (None :: map Some (pick [] sh [3; 1; 0])) 5 3 = Ret ex_secret
  | _ => False end /\
  WorkerSplit 3 AES true ex_ar growcap117 (NewWorker AES ex_stream) [] [] ex_ev "rsa" ex_secret 5 3 = Fail EInvalidAlgorithm /\
  WorkerSplit 3 AES true ex_ar growcap117 (NewWorker AES ex_stream) [] [] ex_ev "shamir" ex_secret 5 1 = Fail EThresholdSmall.
Proof. split; [vm_compute; reflexivity|]. split; [vm_compute; reflexivity|]. split; vm_compute; reflexivity. Qed.

(** C44: Split does not depend on what earlier calls left in the pool. *)
Theorem C44_split : forall ar growcap size calls perm stream evBufs evBufs' secret parts threshold,
  grow_ok growcap -> Permutation perm (seq 0 255) ->
  let result pool ev := fst (runCall ar growcap size pool (CallSplit perm stream ev secret parts threshold)) in
  result (poolAfter ar growcap size calls) evBufs = result [] evBufs' /\
  (valid_args secret parts threshold -> exists shares, result (poolAfter ar growcap size calls) evBufs = Ret shares).
Proof. exact C44_split_pf. Qed.
Print Assumptions C44_split.

(** C44: SplitWithRandomizer after any history: the same success or failure, the same tags, and shares that combine. *)
Theorem C44_randomizer : forall ar growcap size calls fuel ks evBufs evBufs' secret parts threshold,
  grow_ok growcap ->
  let result pool ev := fst (runCall ar growcap size pool (CallSplitWithRandomizer fuel ks ev secret parts threshold)) in
  match result (poolAfter ar growcap size calls) evBufs, result [] evBufs' with
  | Ret shares, Ret shares' =>
      map tag shares = map tag shares' /\
      forall is, selection (Z.to_nat parts) (Z.to_nat threshold) is -> Combine (pick [] shares is) = Ret secret
  | o, o' => o = o'
  end.
Proof. exact C44_randomizer_pf. Qed.
Print Assumptions C44_randomizer.

(** a history that leaves two non-empty buffers; Split gives the same shares as on an empty pool, SplitWithRandomizer different ones *)
Example C44_run :
  let history := [CallSplit ex_perm ex_stream ex_ev ex_secret 5 3; CallSplitWithRandomizer 3 ex_stream ex_ev ex_secret 4 2;
                  CallSplit ex_perm ex_stream ex_ev [] 5 3] in
  let pool := poolAfter ex_ar growcap117 8 history in
  map (@List.length byte) pool = [64; 64] /\
  fst (runCall ex_ar growcap117 8 pool (CallSplit ex_perm ex_stream ex_ev ex_secret 5 3)) =
  fst (runCall ex_ar growcap117 8 [] (CallSplit ex_perm ex_stream ex_ev ex_secret 5 3)) /\
  fst (runCall ex_ar growcap117 8 pool (CallSplitWithRandomizer 3 ex_stream ex_ev ex_secret 5 3)) <>
  fst (runCall ex_ar growcap117 8 [] (CallSplitWithRandomizer 3 ex_stream ex_ev ex_secret 5 3)).
Proof. vm_compute. split; [reflexivity|]. split; [reflexivity|discriminate]. Qed.

(** C44: a sequence of calls leaves at most two buffers in the pool, and never more than its size. *)
Theorem C44_pool_bounded : forall ar growcap size calls,
  List.length (poolAfter ar growcap size calls) <= 2 /\ List.length (poolAfter ar growcap size calls) <= size.
Proof. exact C44_pool_bounded_pf. Qed.
Print Assumptions C44_pool_bounded.

(** C45: in the second of two calls with the same randomizer (fresh pool, same threshold and length), the bytes of the first secret
    are coefficients: data byte [j] of every share of B is the value, at its tag, of the polynomial with constant term B[j] and
    coefficients A[t*j+c] XOR (key stream byte t*j+c), as far as A reaches. *)
Theorem C45_coefficients : forall fuel fuel' ar ar' growcap size ks ev ev' A B parts parts' threshold shares shares' pool' pool'' s j,
  grow_ok growcap -> 2 <= size -> List.length A = List.length B ->
  runCall ar growcap size [] (CallSplitWithRandomizer fuel ks ev A parts threshold) = (Ret shares, pool') ->
  runCall ar' growcap size pool' (CallSplitWithRandomizer fuel' ks ev' B parts' threshold) = (Ret shares', pool'') ->
  let t := Z.to_nat threshold in
  In s shares' -> t * j + t <= List.length A ->
  nth j s x00 = peval (nth j B x00 :: map (fun c => gadd (nth (t * j + c) A x00) (ks (t * j + c))) (seq 1 (t - 1))) (tag s).
Proof. exact C45_coefficients_pf. Qed.
Print Assumptions C45_coefficients.

(** C45, threshold 2: share number 2j+1 of the second split, with byte [j] of its secret, gives away byte 2j+1 of the first secret. *)
Theorem C45_leak : forall fuel fuel' ar ar' growcap size ks ev ev' A B parts shares shares' pool' pool'' j,
  grow_ok growcap -> 2 <= size -> List.length A = List.length B -> (parts < 20)%Z -> NoDup (map ks (seq 0 (Z.to_nat parts))) ->
  runCall ar growcap size [] (CallSplitWithRandomizer fuel ks ev A parts 2) = (Ret shares, pool') ->
  runCall ar' growcap size pool' (CallSplitWithRandomizer fuel' ks ev' B parts 2) = (Ret shares', pool'') ->
  2 * j + 1 < List.length A -> 2 * j + 1 < Z.to_nat parts ->
  let s := nth (2 * j + 1) shares' [] in let x := tag s in
  x <> x00 ->
  forall a, gmul x (gadd a (bsub x x01)) = gadd (nth j s x00) (nth j B x00) <-> a = nth (2 * j + 1) A x00.
Proof. exact C45_leak_pf. Qed.
Print Assumptions C45_leak.

(** two splits by the same randomizer, secrets "hello" and 5 zeros, threshold 2: share 1 of the second shows byte 1 of the first *)
Example C45_run :
  NoDup (map ex_stream (seq 0 5)) /\
  match runCall ex_ar growcap117 8 [] (CallSplitWithRandomizer 3 ex_stream ex_ev ex_secret 5 2) with
  | (Ret _, pool) =>
    match runCall ex_ar growcap117 8 pool (CallSplitWithRandomizer 3 ex_stream ex_ev (repeat x00 5) 5 2) with
    | (Ret sh, _) => let s := nth 1 sh [] in
        tag s <> x00 /\ gmul (tag s) (gadd x65 (bsub (tag s) x01)) = nth 0 s x00 /\ nth 1 ex_secret x00 = x65
    | _ => False
    end
  | _ => False
  end.
Proof.
  split; [|vm_compute; split; [discriminate|split; reflexivity]].
  assert (H : map ex_stream (seq 0 5) = nodup byte_eq_dec (map ex_stream (seq 0 5))) by (vm_compute; reflexivity). rewrite H. apply NoDup_nodup.
Qed.
