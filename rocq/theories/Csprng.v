(** Model of csprng/csprng.go.
    A [CSPRNG] value is represented by its key stream [ks : nat -> byte] (the stream that
    [aesctrat.XORKeyStreamAt] produces at offset 0 for its key and IV; Libs.v ([ctrStream]) builds it from a block cipher). *)
From Coq Require Import List NArith ZArith Lia Arith Bool.
From Coq.Init Require Import Byte.
From Verif Require Import GoSem Bytes.
Import ListNotations.

(** aesctrat [XORKeyStreamAt(dst, src, iv, 0)] with dst = src (library github.com/starius/aesctrat):
    XOR the first [len(buff)] key stream bytes into the buffer. (csprng/csprng.go:30-33) *)
Fixpoint xorStreamFrom (ks : nat -> byte) (off : nat) (buff : list byte) : list byte :=
  match buff with
  | [] => []
  | b :: r => bxor b (ks off) :: xorStreamFrom ks (S off) r
  end.

(** csprng/csprng.go:30-33 [CSPRNG.Read]: the new contents of [buff]. The offset argument is the
    constant 0, so the generator has no state that advances. *)
Definition Read (ks : nat -> byte) (buff : list byte) : list byte := xorStreamFrom ks 0 buff.

(** csprng/csprng.go:44-49: body of the shuffling loop of [Perm]; [i], [j], [n] are bytes. *)
Definition permStep (n : byte) (shuffler : list byte) (i : nat) (buff : list byte) : outcome (list byte) :=
  do si <- idx shuffler i;
  let m := bsub n (i2b i) in
  if beq m x00 then Panic PDivZero else
  let j := badd x01 (bmod si m) in
  do temp <- idx buff i;
  do bj <- idx buff (b2i j);
  do buff1 <- upd buff i bj;
  upd buff1 (b2i j) temp.

(** csprng/csprng.go:37-51 [CSPRNG.Perm]; [n-2] wraps around as a byte. *)
Definition Perm (ks : nat -> byte) (n : byte) : outcome (list byte) :=
  let buff := zeros (b2i n) in
  do buff <- foreach (seq 0 (b2i n)) (fun i b => upd b i (i2b i)) buff;
  let shuffler := Read ks (zeros (b2i n)) in
  foreach (seq 0 (b2i (bsub n x02))) (permStep n shuffler) buff.

(** membership test in a Go [map[byte]bool] / [map[byte]..] used as a set, represented by the list of its keys. (the map of csprng/csprng.go:63-74) *)
Definition mem (b : byte) (s : list byte) : bool := existsb (beq b) s.

(** csprng/csprng.go:66-73: the inner loop: while [buff[i]] is in [isExist], read one key stream byte
    (at offset 0 again) into [buff[i:i+1]]. Fuel bounds the iterations. *)
Fixpoint uniqueAt (fuel : nat) (ks : nat -> byte) (isExist : list byte) (b : byte) : outcome byte :=
  if mem b isExist then
    match fuel with
    | O => Diverge
    | S f => match Read ks [b] with
             | b' :: _ => uniqueAt f ks isExist b'
             | [] => Panic PIndex
             end
    end
  else Ret b.

(** csprng/csprng.go:58-77 [CSPRNG.GetUniqueBytes] *)
Definition GetUniqueBytes (fuel : nat) (ks : nat -> byte) (n : byte) : outcome (list byte) :=
  if (20 <=? b2n n)%N then
    do p <- Perm ks xff;
    slice p 0 (b2i n)
  else
    let buff := Read ks (zeros (b2i n)) in
    do '(buff, _) <- foreach (seq 0 (b2i n))
      (fun i '(buff, isExist) =>
         do b <- idx buff i;
         do b' <- uniqueAt fuel ks isExist b;
         do buff' <- upd buff i b';
         Ret (buff', b' :: isExist)) (buff, []);
    Ret buff.
