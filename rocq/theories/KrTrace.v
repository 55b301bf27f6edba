(** krawczyk.Split, SplitWithRandomizer and Combine once more, recording which entries of the lookup tables of /repo (packages shamir and galois)
    are read and which branches are taken on bytes of the data, as in Trace.v. What the AES and Reed-Solomon libraries read is not recorded: they
    are not part of /repo, see Libs.v. The definitions are those of Krawczyk.v with the records of the inner shamir call added; the lemmas [.._erase]
    of KrTraceFacts.v say that without the records they are the same functions. *)
From Coq Require Import List NArith ZArith Lia Arith Bool.
From Coq.Init Require Import Byte.
From Verif Require Import GoSem Bytes Spec Vector Csprng Pool Shamir Libs Krawczyk Trace TraceMore.
Import ListNotations.

(** krawczyk/krawczyk.go:22-88 and 93-160, as [krSplitWith] *)
Definition tkrSplitWith (E : blockCipher) (zp : bool) (key : list byte)
           (share : list byte -> Z -> Z -> T (list (list byte)))
           (secret : list byte) (parts threshold : Z) : T (list (list byte)) :=
  match krCheck (length secret) parts threshold with
  | Some e => tlift (Fail e)
  | None =>
    tdo encryptedSecret <- tlift (encrypt E secret key);
    match rsNew zp threshold (parts - threshold) with
    | Some e => tlift (Fail e)
    | None =>
      let d := Z.to_nat threshold in
      let total := Z.to_nat parts in
      tdo encodedSecret <- tlift (rsSplit d total encryptedSecret);
      tdo encodedSecret <- tlift (rsEncode d total encodedSecret);
      tdo encodedSecret <- tlift (foreach (seq 0 (length encodedSecret))
        (fun i enc => do s <- idx enc i; upd enc i (s ++ [i2b i])) encodedSecret);
      let lenSecret := (N.of_nat (length encryptedSecret) mod 4294967296)%N in
      let keyLenPair := key ++ leBytes LenLen lenSecret in
      tdo ssKeyLenPair <- share keyLenPair parts threshold;
      tlift (krAssemble total ssKeyLenPair encodedSecret)
    end
  end.

(** krawczyk/krawczyk.go:21-89 [Split] *)
Definition tkrSplit (E : blockCipher) (zp : bool) (ar : arch) (growcap : nat -> nat -> nat) (krand : nat -> byte)
           (perm : list nat) (stream : nat -> byte) (polB trB : bbuf) (evBufs : nat -> bbuf)
           (secret : list byte) (parts threshold : Z) : T (list (list byte)) :=
  tkrSplitWith E zp (take_stream krand LenKey) (tSplit ar growcap perm stream polB trB evBufs) secret parts threshold.

(** krawczyk/krawczyk.go:92-161 [SplitWithRandomizer] *)
Definition tkrSplitWithRandomizer (fuel : nat) (E : blockCipher) (zp : bool) (ar : arch) (growcap : nat -> nat -> nat)
           (ks : nat -> byte) (polB trB : bbuf) (evBufs : nat -> bbuf)
           (secret : list byte) (parts threshold : Z) : T (list (list byte)) :=
  tkrSplitWith E zp (Read ks (zeros LenKey)) (tSplitWithRandomizer fuel ar growcap ks polB trB evBufs) secret parts threshold.

(** krawczyk/krawczyk.go:174-256 [Combine], as [krCombineCap] *)
Definition tkrCombineCap (E : blockCipher) (zp : bool) (rd : nat -> nat) (ssData : list kshare) (parts threshold : Z)
  : T (list byte) :=
  tdo s0 <- tlift (idx ssData 0);
  match krCheck (match s0 with Some (s, _) => length s | None => 0 end) parts threshold with
  | Some e => tlift (Fail e)
  | None =>
    let ssData := cleanShares ssData in
    tdo total <- tlift (make_len parts);
    tdo '(encodedData, ssMetadata) <- tlift (splitShares parts ssData (repeat [] total));
    tdo metadata <- tCombine ssMetadata;
    tlift (
    do key <- slice metadata 0 LenKey;
    do lenBytes <- slice metadata LenKey (length metadata);
    if length lenBytes <? 4 then Panic PIndex else
    let length := leNum (firstn 4 lenBytes) in
    match rsNew zp threshold (parts - threshold) with
    | Some e => Fail e
    | None =>
      do encodedData <- rsReconstructData (Z.to_nat threshold) total encodedData;
      do ciphertext <- rsJoin (Z.to_nat threshold) encodedData (N.to_nat length);
      decrypt E rd ciphertext key
    end)
  end.

(** [Combine] on slices without spare capacity, as [krCombine]. (krawczyk/krawczyk.go:174-256) *)
Definition tkrCombine E zp rd (ssData : list (option (list byte))) (parts threshold : Z) : T (list byte) :=
  tkrCombineCap E zp rd (map (option_map (fun s => (s, []))) ssData) parts threshold.
