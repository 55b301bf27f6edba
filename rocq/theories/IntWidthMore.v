(** [Combine], [Regenerate] and [SplitP] of shamir/shamir.go again, with a [W]-bit [int] and an allocator that refuses more than
    [maxAlloc] bytes (see IntWidth.v). Loop counters that run below the length of an existing slice or below an [int] cannot
    wrap and stay natural numbers. *)
From Coq Require Import List NArith ZArith Lia Arith Bool.
From Coq.Init Require Import Byte.
From Verif Require Import GoSem Bytes Galois Vector Polynomial Shamir SplitP SpecWidth SpecWidthMore IntWidth.
Import ListNotations.

Section Width.
  Variables (W maxAlloc : Z).

  (** [make([][]byte, n)]: [runtime.makeslice] panics on a negative length and when [n] slice headers cannot be allocated
      (shamir/shamir.go:443) *)
  Definition zmakeSlices (n : Z) : outcome nat :=
    if ((n <? 0) || (maxAlloc <? header W * n))%Z then Panic PMakeLen else Ret (Z.to_nat n).

  (** shamir/shamir.go:368-418 [Combine] *)
  Definition CombineW (parts : list (list byte)) : outcome (list byte) :=
    match checkParts parts with
    | Some e => Fail e
    | None =>
      let firstPartLen := length (nth 0 parts []) in
      do secret <- zmake maxAlloc (int W (Z.of_nat firstPartLen - 1));
      do _ <- zmake maxAlloc (len parts);
      do _ <- zmake maxAlloc (len parts);
      do x_samples <- collectTags firstPartLen [] parts;
      interpolateAll (length secret) parts x_samples x00 secret
    end.

  (** shamir/shamir.go:424-488 [Regenerate] *)
  Definition RegenerateW (fuel : nat) (stream u : nat -> byte) (parts : list (list byte)) (numNewShares : Z)
    : outcome (list (list byte)) :=
    match checkParts parts with
    | Some e => Fail e
    | None =>
      let firstPartLen := length (nth 0 parts []) in
      do num <- zmakeSlices numNewShares;
      do _ <- zmake maxAlloc (len parts);
      do _ <- zmake maxAlloc (len parts);
      do newXs <- zmake maxAlloc numNewShares;
      do x_samples <- collectTags firstPartLen [] parts;
      let newXs := take_stream stream (length newXs) in
      do _ <- dedupLoop fuel u x_samples newXs;
      foreach (seq 0 num)
        (fun k newShares =>
           do sh <- zmake maxAlloc (Z.of_nat firstPartLen);
           do nx <- idx newXs k;
           do sh <- zupd sh (int W (Z.of_nat firstPartLen - 1)) nx;
           do sh <- interpolateAll (firstPartLen - 1) parts x_samples nx sh;
           upd newShares k sh) (repeat [] num)
    end.

  (** shamir/shamir.go:290-364 [SplitP]: the machine of SplitP.v (whose counters are [uint32] on every machine) after the
      allocation of the shares. The 255 bytes at most of a polynomial are assumed to be available. *)
  Inductive SplitPW (perm : list nat) (stream : nat -> byte) (secret : list byte) (parts threshold : Z)
    : list nat -> outcome (list (list byte)) -> Prop :=
  | SPW_fail e : checkArgs secret parts threshold = Some e -> SplitPW perm stream secret parts threshold [] (Fail e)
  | SPW_panic0 p : checkArgs secret parts threshold = None ->
      layoutRowsW W maxAlloc (len secret) (Z.to_nat parts) (map i2b perm) = Panic p ->
      SplitPW perm stream secret parts threshold [] (Panic p)
  | SPW_return out sched s : checkArgs secret parts threshold = None ->
      layoutRowsW W maxAlloc (len secret) (Z.to_nat parts) (map i2b perm) = Ret out ->
      execution secret (Z.to_nat parts) (z2b (threshold - 1)) (map i2b perm) stream (pinit out) sched s ->
      p_main s = MReturned ->
      SplitPW perm stream secret parts threshold sched (Ret (p_out s))
  | SPW_crash out sched s th p : checkArgs secret parts threshold = None ->
      layoutRowsW W maxAlloc (len secret) (Z.to_nat parts) (map i2b perm) = Ret out ->
      execution secret (Z.to_nat parts) (z2b (threshold - 1)) (map i2b perm) stream (pinit out) sched s ->
      pstep secret (Z.to_nat parts) (z2b (threshold - 1)) (map i2b perm) stream th s = Crash p ->
      SplitPW perm stream secret parts threshold (sched ++ [th]) (Panic p).
End Width.
