(** krawczyk.Combine run on memory: the shares are slices with capacities, and the Reed-Solomon library writes the pieces it recomputes
    into the memory it is given. *)
From Coq Require Import List NArith ZArith Lia Arith Bool.
From Coq.Init Require Import Byte.
From Verif Require Import GoSem Bytes Vector Pool Polynomial Shamir Libs Krawczyk Memory MemCalls.
Import ListNotations.

(** the bytes between the length and the capacity of a slice. (krawczyk/krawczyk.go:174-224) *)
Definition mspare (m : memory) (s : gslice) : list byte :=
  firstn (sl_cap s - sl_len s) (skipn (sl_off s + sl_len s) (nth (sl_arr s) (m_heap m) [])).
(** a share as Krawczyk.v sees it; [None] is a nil slice. (krawczyk/krawczyk.go:174-224) *)
Definition mshare (m : memory) (o : option gslice) : kshare := option_map (fun s => (mcontents m s, mspare m s)) o.

(** krawczyk/krawczyk.go:191-209: remove the nil shares *)
Fixpoint mcleanShares (ssData : list (option gslice)) : list gslice :=
  match ssData with
  | [] => []
  | None :: r => mcleanShares r
  | Some s :: r => s :: mcleanShares r
  end.

(** krawczyk/krawczyk.go:211-224: the metadata and the pieces are slices of the shares; a piece keeps the capacity of its share *)
Definition mSplitShares (parts : Z) (ssData encodedData : list gslice) : M (list gslice * list gslice) :=
  mforeach ssData
    (fun s '(encodedData, ssMetadata) =>
       mdo md <- mslice s 0 (LenKey + LenLen + 1);
       if sl_len s =? 0 then mlift (Panic PIndex) else
       mdo partID <- mload s (sl_len s - 1);
       if bltb (z2b parts) partID then mlift (Fail EWrongPartId) else
       mdo d <- mslice s (LenKey + LenLen + 1) (sl_len s - 1);
       mdo encodedData <- mlift (upd encodedData (b2i partID) d);
       mret (encodedData, ssMetadata ++ [md])) (encodedData, []).

(** reedsolomon [ReconstructData] (v1.9.15, not in /repo). Its documentation: "You indicate that a shard is missing by setting it to nil or
    zero-length. If a shard is zero-length but has sufficient capacity, that memory will be used, otherwise a new []byte will be
    allocated." First the slices for the missing data shards ... (called at krawczyk/krawczyk.go:236-250) *)
Definition mrsTargets (size d : nat) (shards : list gslice) : M (list gslice) :=
  mforeach (seq 0 d)
    (fun i shards =>
       mdo s <- mlift (idx shards i);
       if sl_len s =? 0
       then mdo t <- (if size <=? sl_cap s then mslice s 0 size else mmake size);
            mlift (upd shards i t)
       else mret shards) shards.
(** ... then their bytes. Simplification: all bytes are computed before the first is written (the order matters only when a slice that is
    written overlaps a shard that is read, which the theorems exclude). (called at krawczyk/krawczyk.go:236-250) *)
Definition mrsReconstructData (d total : nat) (shards : list gslice) : M (list gslice) := fun m =>
  let old := map (mcontents m) shards in
  if negb (length shards =? total) then (m, Fail ERSTooFewShards) else
  match rsCheckShards true old with
  | Some e => (m, Fail e)
  | None =>
    let size := rsShardSize old in
    let present := filter (fun i => negb (length (nth i old []) =? 0)) (seq 0 total) in
    let dataPresent := filter (fun i => i <? d) present in
    if (length present =? total) || (length dataPresent =? d) then (m, Ret shards)
    else if length present <? d then (m, Fail ERSTooFewShards)
    else
      let src := firstn d present in
      let rows := map (fun i => nth i old []) src in
      (mdo shards' <- mrsTargets size d shards;
       mdo _ <- mforeach (seq 0 d)
         (fun i _ =>
            if length (nth i old []) =? 0
            then mdo t <- mlift (idx shards' i); mwrite t (rsShardFrom src rows size i)
            else mret tt) tt;
       mret shards') m
  end.

(** krawczyk/krawczyk.go:174-256 [Combine]. The ciphertext (a new bytes.Buffer) and the result are new arrays. *)
Definition mKrCombine (E : blockCipher) (zp : bool) (rd : nat -> nat) (ssData : list (option gslice)) (parts threshold : Z) : M gslice :=
  mdo s0 <- mlift (idx ssData 0);
  match krCheck (match s0 with Some s => sl_len s | None => 0 end) parts threshold with
  | Some e => mlift (Fail e)
  | None =>
    let ssData := mcleanShares ssData in
    mdo total <- mlift (make_len parts);
    mdo '(encodedData, ssMetadata) <- mSplitShares parts ssData (repeat nilSlice total);
    mdo metadata <- mCombine ssMetadata;
    mdo key <- mslice metadata 0 LenKey;
    mdo lenBytes <- mslice metadata LenKey (sl_len metadata);
    if sl_len lenBytes <? 4 then mlift (Panic PIndex) else
    mdo size <- (fun m => (m, Ret (leNum (firstn 4 (mcontents m lenBytes)))));
    match rsNew zp threshold (parts - threshold) with
    | Some e => mlift (Fail e)
    | None =>
      mdo encodedData <- mrsReconstructData (Z.to_nat threshold) total encodedData;
      mdo ciphertext <- (fun m => match rsJoin (Z.to_nat threshold) (map (mcontents m) encodedData) (N.to_nat size) with
                                  | Ret c => let (h, s) := alloc (m_heap m) c in (setHeap m h, Ret s)
                                  | o => (m, do _ <- o; Diverge)
                                  end);
      fun m => match decrypt E rd (mcontents m ciphertext) (mcontents m key) with
               | Ret out => let (h, s) := alloc (m_heap m) out in (setHeap m h, Ret s)
               | o => (m, do _ <- o; Diverge)
               end
    end
  end.
