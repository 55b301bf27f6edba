(** AES (FIPS 197), used as the concrete instance of the block cipher in examples. Models crypto/aes (Go standard library),
    not a file of /repo. State: 16 bytes, column by column. *)
From Coq Require Import List NArith ZArith Lia Arith Bool.
From Coq.Init Require Import Byte.
From Verif Require Import GoSem Bytes.
Import ListNotations.

(** multiplication by x modulo x^8+x^4+x^3+x+1 *)
Definition xtime (b : byte) : byte :=
  let n := (2 * b2n b)%N in if (n <? 256)%N then n2b n else n2b (N.lxor n 283).
Fixpoint amul_aux (k : nat) (a b : byte) : byte :=
  match k with
  | O => x00
  | S k' => bxor (if N.testbit (b2n b) 0 then a else x00) (amul_aux k' (xtime a) (bshr b 1))
  end.
Definition amul (a b : byte) : byte := amul_aux 8 a b.
Fixpoint apow (a : byte) (n : nat) : byte := match n with O => x01 | S m => amul a (apow a m) end.
Definition rotl (b : byte) (k : N) : byte := n2b (N.lor (N.shiftl (b2n b) k) (N.shiftr (b2n b) (8 - k))).
(** SubBytes: inverse (power 254), then the affine map *)
Definition sboxDef (b : byte) : byte :=
  let i := apow b 254 in
  bxor (bxor (bxor (bxor (bxor i (rotl i 1)) (rotl i 2)) (rotl i 3)) (rotl i 4)) x63.
Definition sboxTable : list byte := Eval vm_compute in map sboxDef all_bytes.
Definition sbox (b : byte) : byte := nth (b2i b) sboxTable x00.

Definition xorl (a b : list byte) : list byte := map (fun p => bxor (fst p) (snd p)) (combine a b).
Definition shiftRows (s : list byte) : list byte := map (fun i => nth ((i + 4 * (i mod 4)) mod 16) s x00) (seq 0 16).
Definition mixCell (s : list byte) (c r : nat) : byte :=
  let at_ k := nth (4 * c + (r + k) mod 4) s x00 in
  bxor (bxor (xtime (at_ 0)) (bxor (xtime (at_ 1)) (at_ 1))) (bxor (at_ 2) (at_ 3)).
Definition mixColumns (s : list byte) : list byte := map (fun i => mixCell s (i / 4) (i mod 4)) (seq 0 16).

(** key expansion for a key of nk words; words as lists of 4 bytes, newest last *)
Fixpoint expand (nk : nat) (steps i : nat) (rcon : byte) (ws : list (list byte)) : list (list byte) :=
  match steps with
  | O => ws
  | S steps' =>
    let prev := nth (i - 1) ws [] in
    let '(t, rcon') :=
      if i mod nk =? 0 then (xorl (map sbox (skipn 1 prev ++ firstn 1 prev)) [rcon; x00; x00; x00], xtime rcon)
      else if (6 <? nk) && (i mod nk =? 4) then (map sbox prev, rcon)
      else (prev, rcon) in
    expand nk steps' (S i) rcon' (ws ++ [xorl (nth (i - nk) ws []) t])
  end.

Definition AES (key block : list byte) : list byte :=
  let nk := length key / 4 in
  let nr := nk + 6 in
  let ws := expand nk (4 * (nr + 1) - nk) nk x01 (map (fun i => firstn 4 (skipn (4 * i) key)) (seq 0 nk)) in
  let rk r := concat (firstn 4 (skipn (4 * r) ws)) in
  let s := xorl block (rk 0) in
  let s := fold_left (fun s r => xorl (mixColumns (shiftRows (map sbox s))) (rk r)) (seq 1 (nr - 1)) s in
  xorl (shiftRows (map sbox s)) (rk nr).

(** FIPS 197, appendix C.1 and C.3 *)
Example AES128_fips : AES (map i2b (seq 0 16)) (map (fun i => i2b (17 * i)) (seq 0 16)) =
  [x69; xc4; xe0; xd8; x6a; x7b; x04; x30; xd8; xcd; xb7; x80; x70; xb4; xc5; x5a].
Proof. vm_compute. reflexivity. Qed.
Example AES256_fips : AES (map i2b (seq 0 32)) (map (fun i => i2b (17 * i)) (seq 0 16)) =
  [x8e; xa2; xb7; xca; x51; x67; x45; xbf; xea; xfc; x49; x90; x4b; x49; x60; x89].
Proof. vm_compute. reflexivity. Qed.
