(** The assembler routines of galois/vector_amd64.s and galois/vector_arm64.s, instruction by instruction.
    The programs are listed as data, one constructor per line of the source, and run by small machines that follow the
    processor manuals: registers, flags and one flat memory in which accessing an unmapped address is a fault. Operands are in the
    order of the Go assembler (source first). Not modelled: flags other than Z (amd64) and N (arm64), which the programs do not
    test, and time. *)
From Coq Require Import List NArith ZArith Lia Arith Bool String.
From Coq.Init Require Import Byte.
From Verif Require Import GoSem Bytes Vector.
Import ListNotations.
Local Open Scope N_scope.

(** processor semantics, for galois/vector_amd64.s:11-370 *)
Definition word (n : N) : N := n mod 2 ^ 64.

(** ** memory: [None] is an address that is not mapped. (processor semantics, for galois/vector_amd64.s:11-370) *)
Definition memory : Type := N -> option byte.

(** [n] bytes from address [a] on. (processor semantics, for galois/vector_amd64.s:11-370) *)
Fixpoint load (m : memory) (a : N) (n : nat) : option (list byte) :=
  match n with
  | O => Some []
  | S k => match m a, load m (a + 1) k with Some b, Some l => Some (b :: l) | _, _ => None end
  end.

(** store the bytes [l] at address [a]; all must be mapped. (processor semantics, for galois/vector_amd64.s:11-370) *)
Fixpoint store (m : memory) (a : N) (l : list byte) : option memory :=
  match l with
  | [] => Some m
  | b :: r => match m a with Some _ => store (fun x => if x =? a then Some b else m x) (a + 1) r | None => None end
  end.

(** ** amd64. (processor semantics, for galois/vector_amd64.s:11-370) *)
Inductive gp : Type := AX | BX | DX | SI | R9.

(** processor semantics, for galois/vector_amd64.s:11-370 *)
Inductive xinstr : Type :=
  | MOVQarg (off : N) (d : gp)               (* MOVQ name+off(FP), d *)
  | MOVQimm (v : N) (d : gp)                 (* MOVQ $v, d *)
  | MOVQ (s d : gp)                          (* MOVQ s, d *)
  | MOVQx (s : gp) (x : nat)                 (* MOVQ s, Xx *)
  | MOVOUld (off : N) (b : gp) (x : nat)     (* MOVOU off(b), Xx *)
  | MOVOUst (x : nat) (off : N) (b : gp)     (* MOVOU Xx, off(b) *)
  | MOVOU (s d : nat)                        (* MOVOU Xs, Xd *)
  | MOVOAld (off : N) (b : gp) (x : nat)     (* MOVOA off(b), Xx: faults unless the address is a multiple of 16 *)
  | MOVOAst (x : nat) (off : N) (b : gp)
  | MOVOA (s d : nat)
  | PXOR (s d : nat) | PAND (s d : nat) | PSHUFB (s d : nat)
  | PSRLQ4 (d : nat)                         (* PSRLQ $4, Xd *)
  | VMOVDQUld (off : N) (b : gp) (y : nat) | VMOVDQUst (y : nat) (off : N) (b : gp)
  | VINSERTI128 (x a d : nat)                (* VINSERTI128 $1, Xx, Ya, Yd *)
  | VPBROADCASTB (x d : nat)                 (* VPBROADCASTB Xx, Yd *)
  | VPSRLQ4 (s d : nat)                      (* VPSRLQ $4, Ys, Yd *)
  | VPAND (a b d : nat) | VPXOR (a b d : nat)
  | VPSHUFB (ctl tbl d : nat)
  | VZEROUPPER
  | SHRQ (k : N) (d : gp) | ANDQ (v : N) (d : gp) | ORQ (s d : gp) | ADDQ (v : N) (d : gp) | SUBQ (v : N) (d : gp)
  | CMPQ (a : gp) (v : N) | TESTQ (a b : gp)
  | JEQ (l : string) | JZ (l : string) | JNZ (l : string) | JMP (l : string)
  | LABEL (l : string)
  | RET.

(** A vector register is its two halves of 16 bytes; X registers are the low halves. (processor semantics, for galois/vector_amd64.s:11-370) *)
Record xstate : Type := { xg : gp -> N; xv : nat -> list byte * list byte; xz : bool; xmem : memory; xpc : nat }.

(** processor semantics, for galois/vector_amd64.s:11-370 *)
Definition gp_eqb (a b : gp) : bool :=
  match a, b with AX, AX => true | BX, BX => true | DX, DX => true | SI, SI => true | R9, R9 => true | _, _ => false end.
(** processor semantics, for galois/vector_amd64.s:11-370 *)
Definition setg (g : gp -> N) (d : gp) (v : N) : gp -> N := fun r => if gp_eqb r d then v else g r.
(** processor semantics, for galois/vector_amd64.s:11-370 *)
Definition setv {A : Type} (g : nat -> A) (d : nat) (v : A) : nat -> A := fun r => if (r =? d)%nat then v else g r.

(** position of a label. (processor semantics, for galois/vector_amd64.s:11-370) *)
Fixpoint xlabel (p : list xinstr) (l : string) (i : nat) : nat :=
  match p with
  | [] => i
  | LABEL l' :: r => if (l' =? l)%string then i else xlabel r l (S i)
  | _ :: r => xlabel r l (S i)
  end.

(** one instruction; [args off] is the 8-byte word at offset [off] of the caller's argument frame. [None]: the processor faults (or the
    program counter leaves the program). [RET] is not executed here. (processor semantics, for galois/vector_amd64.s:11-370) *)
Definition xstep (p : list xinstr) (args : N -> N) (s : xstate) : option xstate :=
  let g := xg s in let v := xv s in let m := xmem s in let pc := S (xpc s) in
  let setreg d x := Some {| xg := setg g d x; xv := v; xz := xz s; xmem := m; xpc := pc |} in
  let alu d x := Some {| xg := setg g d x; xv := v; xz := (x =? 0); xmem := m; xpc := pc |} in
  let flag z := Some {| xg := g; xv := v; xz := z; xmem := m; xpc := pc |} in
  let setx d lo := Some {| xg := g; xv := setv v d (lo, snd (v d)); xz := xz s; xmem := m; xpc := pc |} in
  let sety d y := Some {| xg := g; xv := setv v d y; xz := xz s; xmem := m; xpc := pc |} in
  let jump (c : bool) l := Some {| xg := g; xv := v; xz := xz s; xmem := m; xpc := if c then xlabel p l 0 else pc |} in
  let put a l := match store m a l with
                 | Some m' => Some {| xg := g; xv := v; xz := xz s; xmem := m'; xpc := pc |}
                 | None => None end in
  let ld16 a d := match load m a 16 with Some l => setx d l | None => None end in
  match nth_error p (xpc s) with
  | None | Some RET => None
  | Some i =>
    match i with
    | MOVQarg off d => setreg d (args off)
    | MOVQimm x d => setreg d x
    | MOVQ a d => setreg d (g a)
    | MOVQx a x => setx x (le_bytes 8 (g a) ++ le_bytes 8 0)
    | MOVOUld off b x => ld16 (word (g b + off)) x
    | MOVOUst x off b => put (word (g b + off)) (fst (v x))
    | MOVOU a d => setx d (fst (v a))
    | MOVOAld off b x => if (word (g b + off) mod 16 =? 0) then ld16 (word (g b + off)) x else None
    | MOVOAst x off b => if (word (g b + off) mod 16 =? 0) then put (word (g b + off)) (fst (v x)) else None
    | MOVOA a d => setx d (fst (v a))
    | PXOR a d => setx d (pxor (fst (v d)) (fst (v a)))
    | PAND a d => setx d (pand (fst (v d)) (fst (v a)))
    | PSHUFB a d => setx d (pshufb (fst (v d)) (fst (v a)))
    | PSRLQ4 d => setx d (psrlq4 (fst (v d)))
    | VMOVDQUld off b y => match load m (word (g b + off)) 32 with Some l => sety y (firstn 16 l, skipn 16 l) | None => None end
    | VMOVDQUst y off b => put (word (g b + off)) (fst (v y) ++ snd (v y))
    | VINSERTI128 x a d => sety d (fst (v a), fst (v x))
    | VPBROADCASTB x d => let b := nth 0 (fst (v x)) x00 in sety d (repeat b 16, repeat b 16)
    | VPSRLQ4 a d => sety d (psrlq4 (fst (v a)), psrlq4 (snd (v a)))
    | VPAND a b d => sety d (pand (fst (v b)) (fst (v a)), pand (snd (v b)) (snd (v a)))
    | VPXOR a b d => sety d (pxor (fst (v b)) (fst (v a)), pxor (snd (v b)) (snd (v a)))
    | VPSHUFB c t d => sety d (pshufb (fst (v t)) (fst (v c)), pshufb (snd (v t)) (snd (v c)))
    | VZEROUPPER => Some {| xg := g; xv := fun r => (fst (v r), repeat x00 16); xz := xz s; xmem := m; xpc := pc |}
    | SHRQ k d => alu d (N.shiftr (g d) k)
    | ANDQ x d => alu d (N.land (g d) x)
    | ORQ a d => alu d (N.lor (g d) (g a))
    | ADDQ x d => alu d (word (g d + x))
    | SUBQ x d => alu d (word (g d + 2 ^ 64 - x))
    | CMPQ a x => flag (g a =? x)
    | TESTQ a b => flag (N.land (g a) (g b) =? 0)
    | JEQ l | JZ l => jump (xz s) l
    | JNZ l => jump (negb (xz s)) l
    | JMP l => jump true l
    | LABEL _ => flag (xz s)
    | RET => None
    end
  end.

(** a run up to [RET]: no instruction faults, and it ends in the state [s']. (processor semantics, for galois/vector_amd64.s:11-370) *)
Inductive xrun (p : list xinstr) (args : N -> N) : xstate -> xstate -> Prop :=
  | xrun_ret s : nth_error p (xpc s) = Some RET -> xrun p args s s
  | xrun_step s s1 s' : xstep p args s = Some s1 -> xrun p args s1 s' -> xrun p args s s'.

(** galois/vector_amd64.s:11-74 *)
Definition galMulSSSE3Xor_code : list xinstr :=
  [ MOVQarg 0 SI; MOVQarg 24 DX; MOVOUld 0 SI 6; MOVOUld 0 DX 7; MOVQimm 15 BX; MOVQx BX 8; PXOR 5 5;
    MOVQarg 48 SI; MOVQarg 56 R9; MOVQarg 72 DX; PSHUFB 5 8; SHRQ 4 R9; MOVQ SI AX; MOVQ DX BX; ANDQ 15 AX; ANDQ 15 BX;
    CMPQ R9 0; JEQ "done_xor"; ORQ AX BX; CMPQ BX 0; JNZ "loopback_xor";
    LABEL "loopback_xor_aligned";
    MOVOAld 0 SI 0; MOVOAld 0 DX 4; MOVOA 0 1; MOVOA 6 2; MOVOA 7 3; PSRLQ4 1; PAND 8 0; PAND 8 1; PSHUFB 0 2; PSHUFB 1 3;
    PXOR 2 3; PXOR 4 3; MOVOAst 3 0 DX; ADDQ 16 SI; ADDQ 16 DX; SUBQ 1 R9; JNZ "loopback_xor_aligned"; JMP "done_xor";
    LABEL "loopback_xor";
    MOVOUld 0 SI 0; MOVOUld 0 DX 4; MOVOU 0 1; MOVOU 6 2; MOVOU 7 3; PSRLQ4 1; PAND 8 0; PAND 8 1; PSHUFB 0 2; PSHUFB 1 3;
    PXOR 2 3; PXOR 4 3; MOVOUst 3 0 DX; ADDQ 16 SI; ADDQ 16 DX; SUBQ 1 R9; JNZ "loopback_xor";
    LABEL "done_xor";
    RET ].

(** galois/vector_amd64.s:77-136 *)
Definition galMulSSSE3_code : list xinstr :=
  [ MOVQarg 0 SI; MOVQarg 24 DX; MOVOUld 0 SI 6; MOVOUld 0 DX 7; MOVQimm 15 BX; MOVQx BX 8; PXOR 5 5;
    MOVQarg 48 SI; MOVQarg 56 R9; MOVQarg 72 DX; PSHUFB 5 8; MOVQ SI AX; MOVQ DX BX; SHRQ 4 R9; ANDQ 15 AX; ANDQ 15 BX;
    CMPQ R9 0; JEQ "done"; ORQ AX BX; CMPQ BX 0; JNZ "loopback";
    LABEL "loopback_aligned";
    MOVOAld 0 SI 0; MOVOA 0 1; MOVOA 6 2; MOVOA 7 3; PSRLQ4 1; PAND 8 0; PAND 8 1; PSHUFB 0 2; PSHUFB 1 3;
    PXOR 2 3; MOVOAst 3 0 DX; ADDQ 16 SI; ADDQ 16 DX; SUBQ 1 R9; JNZ "loopback_aligned"; JMP "done";
    LABEL "loopback";
    MOVOUld 0 SI 0; MOVOU 0 1; MOVOA 6 2; MOVOA 7 3; PSRLQ4 1; PAND 8 0; PAND 8 1; PSHUFB 0 2; PSHUFB 1 3;
    PXOR 2 3; MOVOUst 3 0 DX; ADDQ 16 SI; ADDQ 16 DX; SUBQ 1 R9; JNZ "loopback";
    LABEL "done";
    RET ].

(** the common beginning of the AVX2 routines, galois/vector_amd64.s:140-156 / 181-197 / 242-258 / 293-309 *)
Definition avx2_head (shift : N) (done : string) : list xinstr :=
  [ MOVQarg 0 SI; MOVQarg 24 DX; MOVQimm 15 BX; MOVQx BX 5; MOVOUld 0 SI 6; MOVOUld 0 DX 7; MOVQarg 56 R9;
    VINSERTI128 6 6 6; VINSERTI128 7 7 7; VPBROADCASTB 5 8;
    SHRQ shift R9; MOVQarg 72 DX; MOVQarg 48 SI; TESTQ R9 R9; JZ done ].

(** galois/vector_amd64.s:139-177 *)
Definition galMulAVX2Xor_code : list xinstr :=
  avx2_head 5 "done_xor_avx2" ++
  [ LABEL "loopback_xor_avx2";
    VMOVDQUld 0 SI 0; VMOVDQUld 0 DX 4; VPSRLQ4 0 1; VPAND 8 0 0; VPAND 8 1 1; VPSHUFB 0 6 2; VPSHUFB 1 7 3;
    VPXOR 3 2 3; VPXOR 4 3 4; VMOVDQUst 4 0 DX; ADDQ 32 SI; ADDQ 32 DX; SUBQ 1 R9; JNZ "loopback_xor_avx2";
    LABEL "done_xor_avx2"; VZEROUPPER; RET ].

(** galois/vector_amd64.s:180-216 *)
Definition galMulAVX2_code : list xinstr :=
  avx2_head 5 "done_avx2" ++
  [ LABEL "loopback_avx2";
    VMOVDQUld 0 SI 0; VPSRLQ4 0 1; VPAND 8 0 0; VPAND 8 1 1; VPSHUFB 0 6 2; VPSHUFB 1 7 3;
    VPXOR 3 2 4; VMOVDQUst 4 0 DX; ADDQ 32 SI; ADDQ 32 DX; SUBQ 1 R9; JNZ "loopback_avx2";
    LABEL "done_avx2"; VZEROUPPER; RET ].

(** galois/vector_amd64.s:219-238 *)
Definition sSE2XorSlice_code : list xinstr :=
  [ MOVQarg 0 SI; MOVQarg 8 R9; MOVQarg 24 DX; SHRQ 4 R9; CMPQ R9 0; JEQ "done_xor_sse2";
    LABEL "loopback_xor_sse2";
    MOVOUld 0 SI 0; MOVOUld 0 DX 1; PXOR 0 1; MOVOUst 1 0 DX; ADDQ 16 SI; ADDQ 16 DX; SUBQ 1 R9; JNZ "loopback_xor_sse2";
    LABEL "done_xor_sse2"; RET ].

(** galois/vector_amd64.s:241-289 *)
Definition galMulAVX2Xor_64_code : list xinstr :=
  avx2_head 6 "done_xor_avx2_64" ++
  [ LABEL "loopback_xor_avx2_64";
    VMOVDQUld 0 SI 0; VMOVDQUld 32 SI 10; VMOVDQUld 0 DX 4; VMOVDQUld 32 DX 14; VPSRLQ4 0 1; VPSRLQ4 10 11;
    VPAND 8 0 0; VPAND 8 10 10; VPAND 8 1 1; VPAND 8 11 11; VPSHUFB 0 6 2; VPSHUFB 10 6 12; VPSHUFB 1 7 3; VPSHUFB 11 7 13;
    VPXOR 3 2 3; VPXOR 13 12 13; VPXOR 4 3 4; VPXOR 14 13 14; VMOVDQUst 4 0 DX; VMOVDQUst 14 32 DX;
    ADDQ 64 SI; ADDQ 64 DX; SUBQ 1 R9; JNZ "loopback_xor_avx2_64";
    LABEL "done_xor_avx2_64"; VZEROUPPER; RET ].

(** galois/vector_amd64.s:292-336 *)
Definition galMulAVX2_64_code : list xinstr :=
  avx2_head 6 "done_avx2_64" ++
  [ LABEL "loopback_avx2_64";
    VMOVDQUld 0 SI 0; VMOVDQUld 32 SI 10; VPSRLQ4 0 1; VPSRLQ4 10 11;
    VPAND 8 0 0; VPAND 8 10 10; VPAND 8 1 1; VPAND 8 11 11; VPSHUFB 0 6 2; VPSHUFB 10 6 12; VPSHUFB 1 7 3; VPSHUFB 11 7 13;
    VPXOR 3 2 4; VPXOR 13 12 14; VMOVDQUst 4 0 DX; VMOVDQUst 14 32 DX;
    ADDQ 64 SI; ADDQ 64 DX; SUBQ 1 R9; JNZ "loopback_avx2_64";
    LABEL "done_avx2_64"; VZEROUPPER; RET ].

(** galois/vector_amd64.s:339-370 *)
Definition sSE2XorSlice_64_code : list xinstr :=
  [ MOVQarg 0 SI; MOVQarg 8 R9; MOVQarg 24 DX; SHRQ 6 R9; CMPQ R9 0; JEQ "done_xor_sse2_64";
    LABEL "loopback_xor_sse2_64";
    MOVOUld 0 SI 0; MOVOUld 16 SI 2; MOVOUld 32 SI 4; MOVOUld 48 SI 6;
    MOVOUld 0 DX 1; MOVOUld 16 DX 3; MOVOUld 32 DX 5; MOVOUld 48 DX 7;
    PXOR 0 1; PXOR 2 3; PXOR 4 5; PXOR 6 7;
    MOVOUst 1 0 DX; MOVOUst 3 16 DX; MOVOUst 5 32 DX; MOVOUst 7 48 DX;
    ADDQ 64 SI; ADDQ 64 DX; SUBQ 1 R9; JNZ "loopback_xor_sse2_64";
    LABEL "done_xor_sse2_64"; RET ].

(** ** arm64. (processor semantics, for galois/vector_arm64.s:29-126) *)
Inductive ar : Type := R1 | R2 | R3 | R5 | R10 | R11.
(** processor semantics, for galois/vector_arm64.s:29-126 *)
Definition ar_eqb (a b : ar) : bool :=
  match a, b with R1, R1 => true | R2, R2 => true | R3, R3 => true | R5, R5 => true | R10, R10 => true | R11, R11 => true | _, _ => false end.

(** processor semantics, for galois/vector_arm64.s:29-126 *)
Inductive ainstr : Type :=
  | MOVDarg (off : N) (d : ar)            (* MOVD name+off(FP), d *)
  | MOVDimm (v : N) (d : ar)
  | SUBS (v : N) (d : ar)                 (* SUBS $v, d: sets N *)
  | BMI (l : string) | BPL (l : string)
  | ALABEL (l : string)
  | VLD1 (b : ar) (v : nat)               (* VLD1 (b), [Vv.B16] *)
  | VLD1x2 (b : ar) (v w : nat)           (* VLD1 (b), [Vv.B16, Vw.B16] *)
  | VLD1Px2 (b : ar) (v w : nat)          (* VLD1.P 32(b), [Vv.B16, Vw.B16] *)
  | VST1Px2 (v w : nat) (b : ar)          (* VST1.P [Vv.D2, Vw.D2], 32(b) *)
  | VMOVb0 (s : ar) (v : nat)             (* VMOV s, Vv.B[0] *)
  | VDUPb0 (v d : nat)                    (* VDUP Vv.B[0], Vd.B16 *)
  | VUSHR4 (s d : nat)                    (* VUSHR $4, Vs.B16, Vd.B16 *)
  | VAND (a b d : nat) | VEOR (a b d : nat)
  | VTBL (i t d : nat)                    (* VTBL Vi.B16, [Vt.B16], Vd.B16 *)
  | ARET.

(** processor semantics, for galois/vector_arm64.s:29-126 *)
Record astate : Type := { ag : ar -> N; av : nat -> list byte; an : bool; amem : memory; apc : nat }.
(** processor semantics, for galois/vector_arm64.s:29-126 *)
Definition seta (g : ar -> N) (d : ar) (v : N) : ar -> N := fun r => if ar_eqb r d then v else g r.
(** processor semantics, for galois/vector_arm64.s:29-126 *)
Fixpoint alabel (p : list ainstr) (l : string) (i : nat) : nat :=
  match p with
  | [] => i
  | ALABEL l' :: r => if (l' =? l)%string then i else alabel r l (S i)
  | _ :: r => alabel r l (S i)
  end.

(** processor semantics, for galois/vector_arm64.s:29-126 *)
Definition astep (p : list ainstr) (args : N -> N) (s : astate) : option astate :=
  let g := ag s in let v := av s in let m := amem s in let pc := S (apc s) in
  let setreg d x := Some {| ag := seta g d x; av := v; an := an s; amem := m; apc := pc |} in
  let sets d x := Some {| ag := g; av := setv v d x; an := an s; amem := m; apc := pc |} in
  let jump (c : bool) l := Some {| ag := g; av := v; an := an s; amem := m; apc := if c then alabel p l 0 else pc |} in
  match nth_error p (apc s) with
  | None | Some ARET => None
  | Some i =>
    match i with
    | MOVDarg off d => setreg d (args off)
    | MOVDimm x d => setreg d x
    | SUBS x d => let r := word (g d + 2 ^ 64 - x) in
        Some {| ag := seta g d r; av := v; an := N.testbit r 63; amem := m; apc := pc |}
    | BMI l => jump (an s) l
    | BPL l => jump (negb (an s)) l
    | ALABEL _ => jump false EmptyString
    | VLD1 b d => match load m (g b) 16 with Some l => sets d l | None => None end
    | VLD1x2 b d e => match load m (g b) 32 with
        | Some l => Some {| ag := g; av := setv (setv v d (firstn 16 l)) e (skipn 16 l); an := an s; amem := m; apc := pc |}
        | None => None end
    | VLD1Px2 b d e => match load m (g b) 32 with
        | Some l => Some {| ag := seta g b (word (g b + 32)); av := setv (setv v d (firstn 16 l)) e (skipn 16 l);
                            an := an s; amem := m; apc := pc |}
        | None => None end
    | VST1Px2 d e b => match store m (g b) (v d ++ v e) with
        | Some m' => Some {| ag := seta g b (word (g b + 32)); av := v; an := an s; amem := m'; apc := pc |}
        | None => None end
    | VMOVb0 r d => sets d (n2b (g r) :: skipn 1 (v d))
    | VDUPb0 a d => sets d (repeat (nth 0 (v a) x00) 16)
    | VUSHR4 a d => sets d (vushr4 (v a))
    | VAND a b d => sets d (pand (v b) (v a))
    | VEOR a b d => sets d (pxor (v b) (v a))
    | VTBL i t d => sets d (vtbl (v t) (v i))
    | ARET => None
    end
  end.

(** processor semantics, for galois/vector_arm64.s:29-126 *)
Inductive arun (p : list ainstr) (args : N -> N) : astate -> astate -> Prop :=
  | arun_ret s : nth_error p (apc s) = Some ARET -> arun p args s s
  | arun_step s s1 s' : astep p args s = Some s1 -> arun p args s1 s' -> arun p args s s'.

(** galois/vector_arm64.s:8-15, 17-26: the macros *)
Definition LOADmacro (lo1 lo2 hi1 hi2 : nat) : list ainstr :=
  [ VLD1Px2 R1 lo1 lo2; VUSHR4 lo1 hi1; VUSHR4 lo2 hi2; VAND 8 lo1 lo1; VAND 8 lo2 lo2 ].
(** processor semantics, for galois/vector_amd64.s:11-370 *)
Definition GALOIS_MUL (lo hi o1 o2 t1 t2 : nat) : list ainstr :=
  [ VTBL 0 lo o1; VTBL 10 hi o2; VTBL 1 lo t1; VTBL 11 hi t2; VEOR o2 o1 o1; VEOR t2 t1 o2 ].
(** galois/vector_arm64.s:30-47 / 65-82 *)
Definition neon_head (complete : string) : list ainstr :=
  [ MOVDarg 48 R1; MOVDarg 56 R2; MOVDarg 72 R5; SUBS 32 R2; BMI complete; MOVDarg 0 R10; MOVDarg 24 R11; VLD1 R10 6; VLD1 R11 7;
    MOVDimm 15 R3; VMOVb0 R3 8; VDUPb0 8 8 ].

(** galois/vector_arm64.s:29-61 *)
Definition galMulNEON_code : list ainstr :=
  neon_head "complete" ++ [ALABEL "loop"] ++ LOADmacro 0 1 10 11 ++ GALOIS_MUL 6 7 4 5 14 15 ++
  [ VST1Px2 4 5 R5; SUBS 32 R2; BPL "loop"; ALABEL "complete"; ARET ].

(** galois/vector_arm64.s:64-101 *)
Definition galMulXorNEON_code : list ainstr :=
  neon_head "completeXor" ++ [ALABEL "loopXor"; VLD1x2 R5 20 21] ++ LOADmacro 0 1 10 11 ++ GALOIS_MUL 6 7 4 5 14 15 ++
  [ VEOR 20 4 4; VEOR 21 5 5; VST1Px2 4 5 R5; SUBS 32 R2; BPL "loopXor"; ALABEL "completeXor"; ARET ].

(** galois/vector_arm64.s:104-126 *)
Definition galXorNEON_code : list ainstr :=
  [ MOVDarg 0 R1; MOVDarg 8 R2; MOVDarg 24 R5; SUBS 32 R2; BMI "completeXor"; ALABEL "loopXor";
    VLD1Px2 R1 0 1; VLD1x2 R5 20 21; VEOR 20 0 4; VEOR 21 1 5; VST1Px2 4 5 R5; SUBS 32 R2; BPL "loopXor"; ALABEL "completeXor"; ARET ].
