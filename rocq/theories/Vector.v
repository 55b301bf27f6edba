(** Model of galois/vector.go, vector_noasm.go, vector_amd64.go, vector_amd64.s,
    vector_arm64.go, vector_arm64.s.
    A function that overwrites its argument slice returns the new contents of that slice.
    Simplifications: the two argument slices do not partially overlap; the capacity of a slice is its
    length (so [out[:len(in)]] panics when [out] is shorter than [in]). *)
From Coq Require Import List NArith ZArith Lia Arith Bool.
From Coq.Init Require Import Byte.
From Verif Require Import GoSem Bytes GaloisTables Galois.
Import ListNotations.

(** ** vector_noasm.go *)

(** encoding/binary [LittleEndian.Uint64]: value of a little-endian byte string (standard library). (galois/vector_noasm.go:38-58) *)
Fixpoint le_load (l : list byte) : N :=
  match l with [] => 0%N | b :: r => (b2n b + 256 * le_load r)%N end.
(** encoding/binary [LittleEndian.PutUint64]: the [n] low-order bytes of a number (standard library). (galois/vector_noasm.go:38-58) *)
Fixpoint le_bytes (n : nat) (v : N) : list byte :=
  match n with O => [] | S m => n2b v :: le_bytes m (v / 256)%N end.

(** [binary.LittleEndian.Uint64(l[k:])]: needs 8 bytes. (galois/vector_noasm.go:38-58) *)
Definition uint64_at (l : list byte) (k : nat) : outcome N :=
  do w <- slice l k (k + 8); Ret (le_load w).

(** galois/vector_noasm.go:45-58: the loop over 32-byte pieces, then the tail loop
    [for n, input := range a { b[n] ^= input }]. [fuel] is the number of iterations still possible;
    the caller passes [length b], and exhaustion is reported as [Diverge]. The four XORed words are
    stored after all loads, as in the source. *)
Fixpoint addBatch (fuel : nat) (a b : list byte) : outcome (list byte) :=
  if 32 <=? length b then
    match fuel with
    | O => Diverge
    | S f =>
      do inS <- slice a 0 32;
      do b0 <- uint64_at b 0; do i0 <- uint64_at inS 0;
      do b1 <- uint64_at b 8; do i1 <- uint64_at inS 8;
      do b2 <- uint64_at b 16; do i2 <- uint64_at inS 16;
      do b3 <- uint64_at b 24; do i3 <- uint64_at inS 24;
      let v0 := N.lxor b0 i0 in let v1 := N.lxor b1 i1 in
      let v2 := N.lxor b2 i2 in let v3 := N.lxor b3 i3 in
      do b' <- slice b 32 (length b);
      do a' <- slice a 32 (length a);
      do rest <- addBatch f a' b';
      Ret (le_bytes 8 v0 ++ le_bytes 8 v1 ++ le_bytes 8 v2 ++ le_bytes 8 v3 ++ rest)
    end
  else
    foreach (seq 0 (length a))
      (fun n b => do input <- idx a n; do old <- idx b n; upd b n (bxor old input)) b.

(** galois/vector_noasm.go:38-61 [AddVectorBatchGeneric] *)
Definition AddVectorBatchGeneric (a b : list byte) : outcome (list byte) :=
  if negb (length a =? length b) then Panic PLength
  else addBatch (length b) a b.

(** galois/vector_noasm.go:10-25 [AddVectorGeneric] *)
Definition AddVectorGeneric (a b : list byte) : outcome (list byte) :=
  if negb (length a =? length b) then Panic PLength
  else if 256 <=? length a then AddVectorBatchGeneric a b
  else foreach (seq 0 (length a))
         (fun i b => do val <- idx a i; do old <- idx b i; upd b i (GalAdd val old)) b.

(** galois/vector_noasm.go:29-34 [MulConstVectorGeneric] (in place) *)
Definition MulConstVectorGeneric (c : byte) (a : list byte) : outcome (list byte) :=
  foreach (seq 0 (length a))
    (fun i a => do val <- idx a i; upd a i (GalMultiply val c)) a.

(** ** vector instructions (x86 SSE/AVX2 and ARM NEON manuals). A register is its list of bytes, lowest first. (galois/vector_amd64.s:11-370) *)
Fixpoint map2 {A B C : Type} (f : A -> B -> C) (l : list A) (m : list B) : list C :=
  match l, m with a :: r, b :: s => f a b :: map2 f r s | _, _ => [] end.

(** PXOR / VPXOR / VEOR and PAND / VPAND / VAND. (galois/vector_amd64.s:77-136, galois/vector_arm64.s:29-126) *)
Definition pxor (a b : list byte) : list byte := map2 bxor a b.
(** PAND of galois/vector_amd64.s:77-136 *)
Definition pand (a b : list byte) : list byte := map2 band a b.
(** PSRLQ $4: logical right shift by 4 of one 64-bit lane. (galois/vector_amd64.s:77-136) *)
Definition shr4_lane (l : list byte) : list byte := le_bytes 8 (N.shiftr (le_load l) 4).
(** PSRLQ $4 on an xmm register (two lanes). (galois/vector_amd64.s:77-136) *)
Definition psrlq4 (v : list byte) : list byte :=
  shr4_lane (firstn 8 v) ++ shr4_lane (skipn 8 v).
(** VPSRLQ $4 on a ymm register (four lanes). (galois/vector_amd64.s:180-216) *)
Definition vpsrlq4 (v : list byte) : list byte :=
  psrlq4 (firstn 16 v) ++ psrlq4 (skipn 16 v).
(** PSHUFB: table lookup by the low 4 bits, 0 if bit 7 of the control byte is set. (galois/vector_amd64.s:77-136) *)
Definition pshufb (tbl ctl : list byte) : list byte :=
  map (fun i => if N.testbit (b2n i) 7 then x00 else nth (N.to_nat (N.land (b2n i) 15)) tbl x00) ctl.
(** VPSHUFB on a ymm register: each 128-bit half separately. (galois/vector_amd64.s:180-216) *)
Definition vpshufb (tbl ctl : list byte) : list byte :=
  pshufb (firstn 16 tbl) (firstn 16 ctl) ++ pshufb (skipn 16 tbl) (skipn 16 ctl).
(** NEON VUSHR $4 on bytes. (galois/vector_arm64.s:29-62) *)
Definition vushr4 (v : list byte) : list byte := map (fun b => bshr b 4) v.
(** NEON VTBL with one table register: 0 for indices >= 16. (galois/vector_arm64.s:29-62) *)
Definition vtbl (tbl ctl : list byte) : list byte :=
  map (fun i => if (b2n i <? 16)%N then nth (b2i i) tbl x00 else x00) ctl.

(** A SIMD loop over [length inp / bs] blocks of [bs] bytes: loads block k of [inp] (and of [out]),
    stores [f inblock outblock] to block k of [out]; touching memory outside either slice is [UB]. (the loops of galois/vector_amd64.s:77-370 and galois/vector_arm64.s:29-126) *)
Definition blockLoop (bs : nat) (f : list byte -> list byte -> list byte) (inp out : list byte)
  : outcome (list byte) :=
  foreach (seq 0 (length inp / bs))
    (fun k out =>
       if (bs * k + bs <=? length inp) && (bs * k + bs <=? length out)
       then Ret (splice out (bs * k)
                   (f (firstn bs (skipn (bs * k) inp)) (firstn bs (skipn (bs * k) out))))
       else UB) out.

(** galois/vector_amd64.s:100-116 / 118-133: one 16-byte step of [galMulSSSE3] (the aligned and the
    unaligned loop differ only in the move instruction). X8 is the byte 15 broadcast by
    PSHUFB with a zero control register (lines 83-88). *)
Definition mulStep16 (low high x : list byte) : list byte :=
  let mask := repeat x0f 16 in
  let x1 := psrlq4 x in
  let x0 := pand x mask in
  let x1 := pand x1 mask in
  let x2 := pshufb low x0 in
  let x3 := pshufb high x1 in
  pxor x3 x2.

(** galois/vector_amd64.s:77-136 [galMulSSSE3] *)
Definition galMulSSSE3 (low high inp out : list byte) : outcome (list byte) :=
  blockLoop 16 (fun x _ => mulStep16 low high x) inp out.

(** galois/vector_amd64.s:199-212: one 32-byte step of [galMulAVX2]; the tables are duplicated into
    both halves by VINSERTI128 (lines 189-190) *)
Definition mulStep32 (low high x : list byte) : list byte :=
  let mask := repeat x0f 32 in
  let y6 := low ++ low in
  let y7 := high ++ high in
  let y1 := vpsrlq4 x in
  let y0 := pand mask x in
  let y1 := pand mask y1 in
  let y2 := vpshufb y6 y0 in
  let y3 := vpshufb y7 y1 in
  pxor y2 y3.

(** galois/vector_amd64.s:180-216 [galMulAVX2] *)
Definition galMulAVX2 (low high inp out : list byte) : outcome (list byte) :=
  blockLoop 32 (fun x _ => mulStep32 low high x) inp out.

(** galois/vector_amd64.s:292-336 [galMulAVX2_64]: two interleaved 32-byte steps per iteration *)
Definition galMulAVX2_64 (low high inp out : list byte) : outcome (list byte) :=
  blockLoop 64 (fun x _ => mulStep32 low high (firstn 32 x) ++ mulStep32 low high (skipn 32 x)) inp out.

(** galois/vector_amd64.s:219-238 [sSE2XorSlice] *)
Definition sSE2XorSlice (inp out : list byte) : outcome (list byte) :=
  blockLoop 16 (fun x y => pxor y x) inp out.

(** galois/vector_amd64.s:339-370 [sSE2XorSlice_64]: four 16-byte registers per iteration *)
Definition sSE2XorSlice_64 (inp out : list byte) : outcome (list byte) :=
  blockLoop 64 (fun x y =>
    pxor (firstn 16 y) (firstn 16 x) ++
    pxor (firstn 16 (skipn 16 y)) (firstn 16 (skipn 16 x)) ++
    pxor (firstn 16 (skipn 32 y)) (firstn 16 (skipn 32 x)) ++
    pxor (skipn 48 y) (skipn 48 x)) inp out.

(** ** vector_amd64.go *)

(** scalar tail of [MulConstVector]: [out = out[:len(in)]; for i := range in { out[i] = mt[in[i]] }],
    galois/vector_amd64.go:97-101; returns the new contents of all of [out]. *)
Definition mulTail (c : byte) (inp out : list byte) : outcome (list byte) :=
  do o <- slice out 0 (length inp);
  do o' <- foreach (seq 0 (length inp))
             (fun i o => do v <- idx inp i; upd o i (GalMultiply c v)) o;
  Ret (o' ++ skipn (length inp) out).

(** galois/vector_amd64.go:67-104 [MulConstVector]. [pre] collects the finished front part of the output
    that [out = out[done:]] leaves behind; the result is the whole output. *)
Definition MulConstVector_amd64 (useAVX2 useSSSE3 : bool) (c : byte) (inp : list byte)
  : outcome (list byte) :=
  let out := zeros (length inp) in
  if beq c x01 then Ret (gocopy out inp)
  else
    let low := nth (b2i c) mulTableLow [] in
    let high := nth (b2i c) mulTableHigh [] in
    if useAVX2 then
      do '(pre1, inp1, out1) <-
        (if 128 <=? length inp then
           do o <- galMulAVX2_64 low high inp out;
           let done := length inp / 64 * 64 in
           do i' <- slice inp done (length inp);
           do o' <- slice o done (length o);
           Ret (firstn done o, i', o')
         else Ret ([], inp, out));
      do '(pre2, inp2, out2) <-
        (if 32 <? length inp1 then
           do o <- galMulAVX2 low high inp1 out1;
           let done := length inp1 / 32 * 32 in
           do i' <- slice inp1 done (length inp1);
           do o' <- slice o done (length o);
           Ret (firstn done o, i', o')
         else Ret ([], inp1, out1));
      do tl <- mulTail c inp2 out2;
      Ret (pre1 ++ pre2 ++ tl)
    else if useSSSE3 then
      do o <- galMulSSSE3 low high inp out;
      let done := length inp / 16 * 16 in
      if done <? length o then
        do i' <- slice inp done (length inp);
        do o' <- slice o done (length o);
        do tl <- mulTail c i' o';
        Ret (firstn done o ++ tl)
      else mulTail c inp o
    else mulTail c inp out.

(** scalar tail of [AddVector]: galois/vector_amd64.go:123-126 *)
Definition xorTail (inp out : list byte) : outcome (list byte) :=
  do o <- slice out 0 (length inp);
  do o' <- foreach (seq 0 (length inp))
             (fun i o => do v <- idx inp i; do old <- idx o i; upd o i (bxor old v)) o;
  Ret (o' ++ skipn (length inp) out).

(** galois/vector_amd64.go:107-129 [AddVector] *)
Definition AddVector_amd64 (useSSE2 : bool) (inp out : list byte) : outcome (list byte) :=
  if useSSE2 then
    do '(pre1, inp1, out1) <-
      (if 128 <=? length inp then
         do o <- sSE2XorSlice_64 inp out;
         let done := length inp / 64 * 64 in
         do i' <- slice inp done (length inp);
         do o' <- slice o done (length o);
         Ret (firstn done o, i', o')
       else Ret ([], inp, out));
    do '(pre2, inp2, out2) <-
      (if 16 <=? length inp1 then
         do o <- sSE2XorSlice inp1 out1;
         let done := length inp1 / 16 * 16 in
         do i' <- slice inp1 done (length inp1);
         do o' <- slice o done (length o);
         Ret (firstn done o, i', o')
       else Ret ([], inp1, out1));
    do tl <- xorTail inp2 out2;
    Ret (pre1 ++ pre2 ++ tl)
  else xorTail inp out.

(** ** vector_arm64.s and vector_arm64.go *)

(** galois/vector_arm64.s:8-27, 50-57: macros LOAD and GALOIS_MUL and the store, one 32-byte step *)
Definition mulStepNeon (low high x : list byte) : list byte :=
  let mask := repeat x0f 16 in
  let v0 := firstn 16 x in let v1 := skipn 16 x in
  let v10 := vushr4 v0 in let v11 := vushr4 v1 in
  let v0 := pand v0 mask in let v1 := pand v1 mask in
  let v4 := vtbl low v0 in let v5 := vtbl high v10 in
  let v14 := vtbl low v1 in let v15 := vtbl high v11 in
  pxor v4 v5 ++ pxor v14 v15.

(** galois/vector_arm64.s:29-61 [galMulNEON] *)
Definition galMulNEON (low high inp out : list byte) : outcome (list byte) :=
  blockLoop 32 (fun x _ => mulStepNeon low high x) inp out.

(** galois/vector_arm64.s:104-126 [galXorNEON] *)
Definition galXorNEON (inp out : list byte) : outcome (list byte) :=
  blockLoop 32 (fun x y => pxor (firstn 16 x) (firstn 16 y) ++ pxor (skipn 16 x) (skipn 16 y)) inp out.

(** galois/vector_arm64.go:17-37 [MulConstVector] *)
Definition MulConstVector_arm64 (c : byte) (inp : list byte) : outcome (list byte) :=
  let out := zeros (length inp) in
  if beq c x01 then Ret (gocopy out inp)
  else
    do o <- galMulNEON (nth (b2i c) mulTableLow []) (nth (b2i c) mulTableHigh []) inp out;
    let done := length inp / 32 * 32 in
    foreach (seq done (length inp - done))
      (fun i o => do v <- idx inp i; upd o i (GalMultiply c v)) o.

(** galois/vector_arm64.go:40-53 [AddVector] *)
Definition AddVector_arm64 (inp out : list byte) : outcome (list byte) :=
  do o <- galXorNEON inp out;
  let done := length inp / 32 * 32 in
  foreach (seq done (length inp - done))
    (fun i o => do v <- idx inp i; do old <- idx o i; upd o i (bxor old v)) o.

(** ** Build targets: which implementation [AddVector]/[MulConstVector] is.
    galois/vector.go:1-18 (portable), galois/vector_amd64.go:10-20 (CPU feature flags), vector_arm64.go.
    [useAVX512] is never read. *)
Inductive arch : Type :=
  | ArchGeneric
  | ArchAmd64 (useSSE2 useSSSE3 useAVX2 : bool)
  | ArchArm64.

(** [AddVector] of the build: galois/vector.go:10-14, galois/vector_amd64.go:107-129, galois/vector_arm64.go:40-53 *)
Definition AddVector (ar : arch) (a b : list byte) : outcome (list byte) :=
  match ar with
  | ArchGeneric => AddVectorGeneric a b
  | ArchAmd64 sse2 _ _ => AddVector_amd64 sse2 a b
  | ArchArm64 => AddVector_arm64 a b
  end.

(** [MulConstVector] of the build: galois/vector.go:16-18, galois/vector_amd64.go:68-105, galois/vector_arm64.go:17-37 *)
Definition MulConstVector (ar : arch) (c : byte) (a : list byte) : outcome (list byte) :=
  match ar with
  | ArchGeneric => MulConstVectorGeneric c a
  | ArchAmd64 _ ssse3 avx2 => MulConstVector_amd64 avx2 ssse3 c a
  | ArchArm64 => MulConstVector_arm64 c a
  end.
