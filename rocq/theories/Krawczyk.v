(** Model of krawczyk/aes.go and krawczyk/krawczyk.go. Randomness and pool buffers are passed in, as in Shamir.v;
    [E] is the AES block function, [zp] and [rd] describe library behaviour that is not fixed by /repo (see Libs.v). *)
From Coq Require Import List NArith ZArith Lia Arith Bool.
From Coq.Init Require Import Byte.
From Verif Require Import GoSem Bytes Spec Vector Csprng Pool Shamir Libs.
Import ListNotations.

(** krawczyk/aes.go:10-26 [encrypt]: OFB with an all-zero IV. [bytes.Reader.WriteTo] hands the whole plaintext to one
    [Write], so the key stream is used from its start. *)
Definition encrypt (E : blockCipher) (plaintext key : list byte) : outcome (list byte) :=
  if aesKeyOk key then Ret (xorStreamFrom (ofbStream E key (zeros 16)) 0 plaintext)
  else Fail EKeySize.

(** [bytes.Buffer.ReadFrom(reader)] of krawczyk/aes.go:39: the i-th [Read] is offered a buffer of [rd i] bytes; the
    stream cipher continues at offset [off]. [fuel] bounds the number of reads. *)
Fixpoint decryptLoop (fuel : nat) (ks : nat -> byte) (rd : nat -> nat) (i off : nat) (rest : list byte)
  : outcome (list byte) :=
  match rest with
  | [] => Ret []
  | _ :: _ =>
    match fuel with
    | O => Diverge
    | S f =>
      let chunk := firstn (rd i) rest in
      do r <- decryptLoop f ks rd (S i) (off + length chunk) (skipn (rd i) rest);
      Ret (xorStreamFrom ks off chunk ++ r)
    end
  end.

(** krawczyk/aes.go:28-44 [decrypt] *)
Definition decrypt (E : blockCipher) (rd : nat -> nat) (ciphertext key : list byte) : outcome (list byte) :=
  if aesKeyOk key
  then decryptLoop (length ciphertext) (ofbStream E key (zeros 16)) rd 0 0 ciphertext
  else Fail EKeySize.

(** krawczyk/krawczyk.go:18-19 *)
Definition LenKey := 16.
(** krawczyk/krawczyk.go:19 *)
Definition LenLen := 4.

(** encoding/binary [LittleEndian.PutUint32] and [Uint32]. (krawczyk/krawczyk.go:70-73) *)
Fixpoint leBytes (k : nat) (n : N) : list byte :=
  match k with O => [] | S k' => n2b n :: leBytes k' (n / 256)%N end.
(** [Uint32], krawczyk/krawczyk.go:233 *)
Fixpoint leNum (l : list byte) : N :=
  match l with [] => 0%N | b :: r => (b2n b + 256 * leNum r)%N end.

(** krawczyk/krawczyk.go:22-36, 93-107 and 175-189: the checks at the start of [Split], [SplitWithRandomizer] and
    [Combine]; [len] is the length that is compared with math.MaxUint32. *)
Definition krCheck (len : nat) (parts threshold : Z) : option err :=
  if (4294967295 <? Z.of_nat len)%Z then Some ESecretTooLarge
  else if (threshold =? 0)%Z || (parts =? 0)%Z then Some EZeroParam
  else if (parts <? threshold)%Z then Some EThresholdGtParts
  else if (255 <? threshold)%Z || (255 <? parts)%Z then Some EParamsTooBig
  else None.

(** krawczyk/krawczyk.go:163-172 [newByteMatrix]: zeroed rows (capacity cut to their length; Memory.v models the aliasing) *)
Definition newByteMatrix (r c : nat) : list (list byte) := repeat (zeros c) r.

(** krawczyk/krawczyk.go:79-86 and 151-158: paste metadata share and shard together. *)
Definition krAssemble (parts : nat) (ssKeyLenPair encodedSecret : list (list byte)) : outcome (list (list byte)) :=
  do e0 <- idx encodedSecret 0;
  do m0 <- idx ssKeyLenPair 0;
  let lenEncodedSecret := length e0 in
  let lenEncodedMetadata := length m0 in
  foreach (seq 0 parts)
    (fun i results =>
       do r <- idx results i;
       do m <- idx ssKeyLenPair i;
       do w <- slice r 0 lenEncodedMetadata;
       let r := splice r 0 (gocopy w m) in
       do e <- idx encodedSecret i;
       do w <- slice r lenEncodedMetadata (length r);
       let r := splice r lenEncodedMetadata (gocopy w e) in
       upd results i r) (newByteMatrix parts (lenEncodedSecret + lenEncodedMetadata)).

(** krawczyk/krawczyk.go:22-88 and 93-160, which differ only in where the key comes from (lines 38-43 / 109-114) and in the
    shamir function called (line 74 / 146): both are arguments here. *)
Definition krSplitWith (E : blockCipher) (zp : bool) (key : list byte)
           (share : list byte -> Z -> Z -> outcome (list (list byte)))
           (secret : list byte) (parts threshold : Z) : outcome (list (list byte)) :=
  match krCheck (length secret) parts threshold with
  | Some e => Fail e
  | None =>
    do encryptedSecret <- encrypt E secret key;
    match rsNew zp threshold (parts - threshold) with
    | Some e => Fail e
    | None =>
      let d := Z.to_nat threshold in
      let total := Z.to_nat parts in
      do encodedSecret <- rsSplit d total encryptedSecret;
      do encodedSecret <- rsEncode d total encodedSecret;
      do encodedSecret <- foreach (seq 0 (length encodedSecret))
        (fun i enc => do s <- idx enc i; upd enc i (s ++ [i2b i])) encodedSecret;
      let lenSecret := (N.of_nat (length encryptedSecret) mod 4294967296)%N in
      let keyLenPair := key ++ leBytes LenLen lenSecret in
      do ssKeyLenPair <- share keyLenPair parts threshold;
      krAssemble total ssKeyLenPair encodedSecret
    end
  end.

(** krawczyk/krawczyk.go:21-89 [Split]: [krand] is what [rand.Read(key)] delivers, the other random arguments are those of
    [shamir.Split]. *)
Definition krSplit (E : blockCipher) (zp : bool) (ar : arch) (growcap : nat -> nat -> nat) (krand : nat -> byte)
           (perm : list nat) (stream : nat -> byte) (polB trB : bbuf) (evBufs : nat -> bbuf)
           (secret : list byte) (parts threshold : Z) : outcome (list (list byte)) :=
  krSplitWith E zp (take_stream krand LenKey) (Split ar growcap perm stream polB trB evBufs) secret parts threshold.

(** krawczyk/krawczyk.go:92-161 [SplitWithRandomizer] *)
Definition krSplitWithRandomizer (fuel : nat) (E : blockCipher) (zp : bool) (ar : arch) (growcap : nat -> nat -> nat)
           (ks : nat -> byte) (polB trB : bbuf) (evBufs : nat -> bbuf)
           (secret : list byte) (parts threshold : Z) : outcome (list (list byte)) :=
  krSplitWith E zp (Read ks (zeros LenKey)) (SplitWithRandomizer fuel ar growcap ks polB trB evBufs) secret parts threshold.

(** A share given to Combine: [None] is a nil slice, [Some (s, spare)] a slice with contents [s] whose capacity extends
    over the further bytes [spare]. (krawczyk/krawczyk.go:174) *)
Definition kshare : Type := option (list byte * list byte).

(** krawczyk/krawczyk.go:191-209: remove the nil shares *)
Fixpoint cleanShares (ssData : list kshare) : list (list byte * list byte) :=
  match ssData with
  | [] => []
  | None :: r => cleanShares r
  | Some s :: r => s :: cleanShares r
  end.

(** krawczyk/krawczyk.go:211-224: split encoded data and metadata. State: (encodedData, ssMetadata). A reslice
    [s[:21]] may extend into the spare capacity. *)
Definition splitShares (parts : Z) (ssData : list (list byte * list byte)) (encodedData : list (list byte))
  : outcome (list (list byte) * list (list byte)) :=
  foreach ssData
    (fun '(s, spare) '(encodedData, ssMetadata) =>
       do m <- slice (s ++ spare) 0 (LenKey + LenLen + 1);
       if length s =? 0 then Panic PIndex else
       do partID <- idx s (length s - 1);
       if bltb (z2b parts) partID then Fail EWrongPartId else
       do d <- slice s (LenKey + LenLen + 1) (length s - 1);
       do encodedData <- upd encodedData (b2i partID) d;
       Ret (encodedData, ssMetadata ++ [m])) (encodedData, []).

(** krawczyk/krawczyk.go:174-256 [Combine] *)
Definition krCombineCap (E : blockCipher) (zp : bool) (rd : nat -> nat) (ssData : list kshare) (parts threshold : Z)
  : outcome (list byte) :=
  do s0 <- idx ssData 0;
  match krCheck (match s0 with Some (s, _) => length s | None => 0 end) parts threshold with
  | Some e => Fail e
  | None =>
    let ssData := cleanShares ssData in
    do total <- make_len parts;
    do '(encodedData, ssMetadata) <- splitShares parts ssData (repeat [] total);
    do metadata <- Combine ssMetadata;
    do key <- slice metadata 0 LenKey;
    do lenBytes <- slice metadata LenKey (length metadata);
    if length lenBytes <? 4 then Panic PIndex else
    let length := leNum (firstn 4 lenBytes) in
    match rsNew zp threshold (parts - threshold) with
    | Some e => Fail e
    | None =>
      do encodedData <- rsReconstructData (Z.to_nat threshold) total encodedData;
      do ciphertext <- rsJoin (Z.to_nat threshold) encodedData (N.to_nat length);
      decrypt E rd ciphertext key
    end
  end.

(** [Combine] on slices without spare capacity (what the split functions return). (krawczyk/krawczyk.go:174-256) *)
Definition krCombine E zp rd (ssData : list (option (list byte))) (parts threshold : Z) : outcome (list byte) :=
  krCombineCap E zp rd (map (option_map (fun s => (s, []))) ssData) parts threshold.
