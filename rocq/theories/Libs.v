(** Models of the library code the repository calls: AES key sizes, the OFB and CTR stream modes, and the
    Reed-Solomon codec github.com/klauspost/reedsolomon v1.9.15 (go.mod:8). None of this is in /repo: the definitions
    follow the documented behaviour of the libraries and are part of the trusted base.
    The AES block function is an arbitrary function [E key block]; nothing is assumed about it. *)
From Coq Require Import List NArith ZArith Lia Arith Bool.
From Coq.Init Require Import Byte.
From Verif Require Import GoSem Bytes Spec GF PolyFacts.
Import ListNotations.

(** [cipher.Block] as used at krawczyk/aes.go:11 and csprng/csprng.go:21: key, block -> block *)
Definition blockCipher := list byte -> list byte -> list byte.

(** crypto/aes [NewCipher]: only keys of 16, 24 or 32 bytes are accepted. (krawczyk/aes.go:11) *)
Definition aesKeyOk (key : list byte) : bool :=
  (length key =? 16) || (length key =? 24) || (length key =? 32).

(** crypto/cipher [NewOFB(block, iv)]: the key stream is E(iv), E(E(iv)), ... (krawczyk/aes.go:17) *)
Fixpoint ofbBlock (E : blockCipher) (key iv : list byte) (i : nat) : list byte :=
  match i with
  | O => E key iv
  | S j => E key (ofbBlock E key iv j)
  end.
(** the OFB key stream of krawczyk/aes.go:17 (standard library) *)
Definition ofbStream (E : blockCipher) (key iv : list byte) (j : nat) : byte :=
  nth (j mod 16) (ofbBlock E key iv (j / 16)) x00.

(** A 16-byte string as a big-endian number and back: the AES-CTR counter. (csprng/csprng.go:30-33) *)
Definition be_num (l : list byte) : N := fold_left (fun acc b => (acc * 256 + b2n b)%N) l 0%N.
(** big-endian bytes of the counter, csprng/csprng.go:30-33 (aesctrat) *)
Fixpoint be_bytes (k : nat) (n : N) : list byte :=
  match k with
  | O => []
  | S k' => be_bytes k' (n / 256)%N ++ [n2b n]
  end.

(** github.com/starius/aesctrat [XORKeyStreamAt] at offset 0: block i of the stream is E(iv + i), the counter being a
    128-bit big-endian number. (csprng/csprng.go:30-33) *)
Definition ctrStream (E : blockCipher) (key iv : list byte) (j : nat) : byte :=
  nth (j mod 16) (E key (be_bytes 16 (be_num iv + N.of_nat (j / 16)))) x00.

(** ** reedsolomon *)

(** [reedsolomon.New(dataShards, parityShards)]. Whether zero parity shards are accepted changed between releases; [zp]
    says whether the installed one accepts them. (krawczyk/krawczyk.go:51-62) *)
Definition rsNew (zp : bool) (d p : Z) : option err :=
  if (d <=? 0)%Z || (p <? 0)%Z || ((p =? 0)%Z && negb zp) then Some ERSInvShardNum
  else if (256 <? d + p)%Z then Some ERSMaxShardNum
  else None.

(** number of bytes per shard in [Split]. (krawczyk/krawczyk.go:51-62) *)
Definition rsPerShard (d len : nat) : nat := (len + d - 1) / d.

(** [Encoder.Split]: [d] equal pieces, the last ones padded with zeros, and zeroed parity shards. (krawczyk/krawczyk.go:51-62) *)
Definition rsSplit (d total : nat) (data : list byte) : outcome (list (list byte)) :=
  if length data =? 0 then Fail ERSShortData else
  let per := rsPerShard d (length data) in
  let padded := data ++ zeros (d * per - length data) in
  Ret (map (fun i => firstn per (skipn (per * i) padded)) (seq 0 d) ++ repeat (zeros per) (total - d)).

(** The points of the code: shard [i] holds the values at [i] of polynomials with [d] coefficients. (The library multiplies
    by the matrix V * (top of V)^-1 where V[r][c] = r^c, which is evaluation at r of the polynomial interpolating
    the data shards at 0..d-1, in the field of modulus 0x11d.). (krawczyk/krawczyk.go:51-62) *)
Definition rsPoint (i : nat) : byte := i2b i.

(** bytes of shard [j] computed from the shards number [src] (exactly [d] of them), whose contents are [rows]. (krawczyk/krawczyk.go:51-62) *)
Definition rsShardFrom (src : list nat) (rows : list (list byte)) (per j : nat) : list byte :=
  map (fun k => lagrange (map rsPoint src) (map (fun r => nth k r x00) rows) (rsPoint j)) (seq 0 per).

(** the size of the first non-empty shard. (krawczyk/krawczyk.go:51-62) *)
Definition rsShardSize (shards : list (list byte)) : nat :=
  match find (fun s => negb (length s =? 0)) shards with Some s => length s | None => 0 end.

(** [checkShards(shards, nilok)]. (krawczyk/krawczyk.go:60 and krawczyk/krawczyk.go:236-250) *)
Definition rsCheckShards (nilok : bool) (shards : list (list byte)) : option err :=
  let size := rsShardSize shards in
  if size =? 0 then Some ERSShardNoData
  else if forallb (fun s => (length s =? size) || (nilok && (length s =? 0))) shards then None
  else Some ERSShardSize.

(** [Encoder.Encode]: overwrite the parity shards. (krawczyk/krawczyk.go:51-62) *)
Definition rsEncode (d total : nat) (shards : list (list byte)) : outcome (list (list byte)) :=
  if negb (length shards =? total) then Fail ERSTooFewShards else
  match rsCheckShards false shards with
  | Some e => Fail e
  | None =>
    Ret (firstn d shards ++
         map (rsShardFrom (seq 0 d) (firstn d shards) (rsShardSize shards)) (seq d (total - d)))
  end.

(** [Encoder.ReconstructData]: empty shards are missing; missing data shards are recomputed from the first [d] present
    shards. (krawczyk/krawczyk.go:236-250) *)
Definition rsReconstructData (d total : nat) (shards : list (list byte)) : outcome (list (list byte)) :=
  if negb (length shards =? total) then Fail ERSTooFewShards else
  match rsCheckShards true shards with
  | Some e => Fail e
  | None =>
    let present := filter (fun i => negb (length (nth i shards []) =? 0)) (seq 0 total) in
    let dataPresent := filter (fun i => i <? d) present in
    if (length present =? total) || (length dataPresent =? d) then Ret shards
    else if length present <? d then Fail ERSTooFewShards
    else
      let src := firstn d present in
      let rows := map (fun i => nth i shards []) src in
      Ret (map (fun i => if (i <? d) && (length (nth i shards []) =? 0)
                         then rsShardFrom src rows (rsShardSize shards) i
                         else nth i shards []) (seq 0 total))
  end.

(** [Encoder.Join]: the first [outSize] bytes of the data shards. (krawczyk/krawczyk.go:236-250) *)
Definition rsJoin (d : nat) (shards : list (list byte)) (outSize : nat) : outcome (list byte) :=
  if length shards <? d then Fail ERSTooFewShards else
  let all := concat (firstn d shards) in
  if length all <? outSize then Fail ERSShortData else Ret (firstn outSize all).
