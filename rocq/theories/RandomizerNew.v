(** Model of randomizer/randomizer.go: creation, and histories of calls on one Randomizer. *)
From Coq Require Import List NArith ZArith Lia Arith Bool.
From Coq.Init Require Import Byte.
From Verif Require Import GoSem Bytes Csprng Libs Randomizer.
Import ListNotations.

(** randomizer/randomizer.go:13-22 [NewRandomizer]: [mr] is what [rand.Read(keyAndIV)] delivers. [aes.NewCipher] accepts every key of 16
    bytes, so the panic of line 18 is not reachable. [cipher.NewCTR] counts in the IV as a 128-bit big-endian number (crypto/cipher). *)
Definition NewRandomizer (E : blockCipher) (mr : nat -> byte) : outcome randomizer :=
  let keyAndIV := take_stream mr (16 + 16) in
  do k <- slice keyAndIV 0 16;
  if aesKeyOk k then
    do iv <- slice keyAndIV 16 (length keyAndIV);
    Ret {| rz_ks := ctrStream E k iv; rz_pos := 0 |}
  else Panic PDivide (* panic(err) *).

(** a call on a Randomizer: [Read] (randomizer/randomizer.go:24-27) or [Perm] (29-44) *)
Inductive rzCall : Type :=
| CallRead (buff : list byte)
| CallPerm (n : byte).

(** its result (for [Read]: the new contents of the buffer) and the Randomizer afterwards. (randomizer/randomizer.go:24-44) When [Perm] panics, which it does only for
    n = 0, nothing was read. *)
Definition rzDo (r : randomizer) (c : rzCall) : outcome (list byte) * randomizer :=
  match c with
  | CallRead buff => let (out, r') := rzRead r buff in (Ret out, r')
  | CallPerm n =>
    match rzPerm r n with
    | Ret (out, r') => (Ret out, r')
    | Fail e => (Fail e, r)
    | Panic p => (Panic p, r)
    | UB => (UB, r)
    | Diverge => (Diverge, r)
    end
  end.

(** the results of one call after the other. (randomizer/randomizer.go:24-44) *)
Fixpoint rzHistory (r : randomizer) (calls : list rzCall) : list (outcome (list byte)) :=
  match calls with
  | [] => []
  | c :: rest => let (out, r') := rzDo r c in out :: rzHistory r' rest
  end.
