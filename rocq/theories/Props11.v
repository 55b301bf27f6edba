(** Theorems: the properties of the assembler routines (C54).
    Generated from Pf11.v by tools/genprops.py: every theorem is proved there as the lemma of the same name with suffix _pf. *)
From Coq Require Import List NArith ZArith Lia Arith Bool.
From Coq.Init Require Import Byte.
From Verif Require Import GoSem Bytes Spec GaloisTables Galois Vector Asm SpecAsm Pf11.
Import ListNotations.
Local Open Scope N_scope.

(** C54, amd64. In the argument frame of [f(low, high, in, out []byte)] the word at offset 0 is the address of low, 24 of high, 48 of in, 72 of
    out, and 56 the length of in. From any state of registers and flags, with any two tables, any addresses (aligned or not), and memory
    accessible only where said: the multiplication routine runs to its RET without a fault and replaces each of the first [bs * (len(in) / bs)]
    bytes of out by the XOR of the two table entries selected by the nibbles of the byte of in, and nothing else in memory changes. in and out may be
    the same; only an out that starts strictly inside in is excluded. [len(out)] is not looked at. *)
Theorem C54_amd64_mul : forall code bs args s low high,
  In (code, bs) [(galMulSSSE3_code, 16); (galMulAVX2_code, 32); (galMulAVX2_64_code, 64)] ->
  xpc s = 0%nat -> (forall r, length (fst (xv s r)) = 16%nat) ->
  table_at (xmem s) (args 0) low -> table_at (xmem s) (args 24) high ->
  args 56 < 2 ^ 63 -> regions (xmem s) (args 48) (args 72) (bs * (args 56 / bs)) ->
  exists s', xrun code args s s' /\
    rewritten (fun x _ => nibbles low high x) (args 48) (args 72) (bs * (args 56 / bs)) (xmem s) (xmem s').
Proof. exact C54_amd64_mul_pf. Qed.
Print Assumptions C54_amd64_mul.

(** C54, amd64: the Xor variants add the product to what is in out. *)
Theorem C54_amd64_mulxor : forall code bs args s low high,
  In (code, bs) [(galMulSSSE3Xor_code, 16); (galMulAVX2Xor_code, 32); (galMulAVX2Xor_64_code, 64)] ->
  xpc s = 0%nat -> (forall r, length (fst (xv s r)) = 16%nat) ->
  table_at (xmem s) (args 0) low -> table_at (xmem s) (args 24) high ->
  args 56 < 2 ^ 63 -> regions (xmem s) (args 48) (args 72) (bs * (args 56 / bs)) ->
  exists s', xrun code args s s' /\
    rewritten (fun x y => gadd (nibbles low high x) y) (args 48) (args 72) (bs * (args 56 / bs)) (xmem s) (xmem s').
Proof. exact C54_amd64_mulxor_pf. Qed.
Print Assumptions C54_amd64_mulxor.

(** C54, amd64: sSE2XorSlice(in, out) and sSE2XorSlice_64(in, out): frame words 0 = in, 8 = len(in), 24 = out. *)
Theorem C54_amd64_xor : forall code bs args s,
  In (code, bs) [(sSE2XorSlice_code, 16); (sSE2XorSlice_64_code, 64)] -> xpc s = 0%nat ->
  args 8 < 2 ^ 63 -> regions (xmem s) (args 0) (args 24) (bs * (args 8 / bs)) ->
  exists s', xrun code args s s' /\ rewritten gadd (args 0) (args 24) (bs * (args 8 / bs)) (xmem s) (xmem s').
Proof. exact C54_amd64_xor_pf. Qed.
Print Assumptions C54_amd64_xor.

(** C54, arm64. *)
Theorem C54_arm64 : forall args s, apc s = 0%nat ->
  (forall low high, table_at (amem s) (args 0) low -> table_at (amem s) (args 24) high ->
     args 56 < 2 ^ 63 -> regions (amem s) (args 48) (args 72) (32 * (args 56 / 32)) ->
     (exists s', arun galMulNEON_code args s s' /\
        rewritten (fun x _ => nibbles low high x) (args 48) (args 72) (32 * (args 56 / 32)) (amem s) (amem s')) /\
     (exists s', arun galMulXorNEON_code args s s' /\
        rewritten (fun x y => gadd (nibbles low high x) y) (args 48) (args 72) (32 * (args 56 / 32)) (amem s) (amem s'))) /\
  (args 8 < 2 ^ 63 -> regions (amem s) (args 0) (args 24) (32 * (args 8 / 32)) ->
     exists s', arun galXorNEON_code args s s' /\ rewritten gadd (args 0) (args 24) (32 * (args 8 / 32)) (amem s) (amem s')).
Proof. exact C54_arm64_pf. Qed.
Print Assumptions C54_arm64.

(** C54: with the tables the Go code passes, the nibble lookups are multiplication by [c]. *)
Theorem C54_tables : forall c x, nibbles (nth (b2i c) mulTableLow []) (nth (b2i c) mulTableHigh []) x = gmul c x.
Proof. exact C54_tables_pf. Qed.
Print Assumptions C54_tables.

(** C54: runs are deterministic, so "there is a run" means "the run". *)
Theorem C54_deterministic : (forall p args s s1 s2, xrun p args s s1 -> xrun p args s s2 -> s1 = s2) /\
  (forall p args s s1 s2, arun p args s s1 -> arun p args s s2 -> s1 = s2).
Proof. exact C54_deterministic_pf. Qed.
Print Assumptions C54_deterministic.

(** C54: whenever the Go-level model of a routine says that the call turns out into out', the machine turns the memory holding out into
    memory holding out', and changes nothing outside out (amd64, multiplication). *)
Theorem C54_model_mul : forall code model bs args s c inp out out',
  In (code, model, bs) [(galMulSSSE3_code, galMulSSSE3, 16); (galMulAVX2_code, galMulAVX2, 32); (galMulAVX2_64_code, galMulAVX2_64, 64)] ->
  xpc s = 0%nat -> (forall r, length (fst (xv s r)) = 16%nat) ->
  table_at (xmem s) (args 0) (nth (b2i c) mulTableLow []) -> table_at (xmem s) (args 24) (nth (b2i c) mulTableHigh []) ->
  args 56 = N.of_nat (length inp) -> args 56 < 2 ^ 63 -> holds_at (xmem s) (args 48) inp -> holds_at (xmem s) (args 72) out ->
  (length inp <= length out)%nat -> regions (xmem s) (args 48) (args 72) (bs * (args 56 / bs)) ->
  model (nth (b2i c) mulTableLow []) (nth (b2i c) mulTableHigh []) inp out = Ret out' ->
  exists s', xrun code args s s' /\ length out' = length out /\ holds_at (xmem s') (args 72) out' /\
    forall a, a < args 72 \/ args 72 + N.of_nat (length out) <= a -> xmem s' a = xmem s a.
Proof. exact C54_model_mul_pf. Qed.
Print Assumptions C54_model_mul.

(** C54: the same for the XOR routines of amd64 ... *)
Theorem C54_model_xor : forall code model bs args s inp out out',
  In (code, model, bs) [(sSE2XorSlice_code, sSE2XorSlice, 16); (sSE2XorSlice_64_code, sSE2XorSlice_64, 64)] ->
  xpc s = 0%nat -> args 8 = N.of_nat (length inp) -> args 8 < 2 ^ 63 -> holds_at (xmem s) (args 0) inp -> holds_at (xmem s) (args 24) out ->
  (length inp <= length out)%nat -> regions (xmem s) (args 0) (args 24) (bs * (args 8 / bs)) ->
  model inp out = Ret out' ->
  exists s', xrun code args s s' /\ length out' = length out /\ holds_at (xmem s') (args 24) out' /\
    forall a, a < args 24 \/ args 24 + N.of_nat (length out) <= a -> xmem s' a = xmem s a.
Proof. exact C54_model_xor_pf. Qed.
Print Assumptions C54_model_xor.

(** C54: ... and for the routines of arm64. *)
Theorem C54_model_arm64 : forall args s c inp out out', apc s = 0%nat -> (length inp <= length out)%nat ->
  (table_at (amem s) (args 0) (nth (b2i c) mulTableLow []) -> table_at (amem s) (args 24) (nth (b2i c) mulTableHigh []) ->
   args 56 = N.of_nat (length inp) -> args 56 < 2 ^ 63 -> holds_at (amem s) (args 48) inp -> holds_at (amem s) (args 72) out ->
   regions (amem s) (args 48) (args 72) (32 * (args 56 / 32)) ->
   galMulNEON (nth (b2i c) mulTableLow []) (nth (b2i c) mulTableHigh []) inp out = Ret out' ->
   exists s', arun galMulNEON_code args s s' /\ length out' = length out /\ holds_at (amem s') (args 72) out' /\
     forall a, a < args 72 \/ args 72 + N.of_nat (length out) <= a -> amem s' a = amem s a) /\
  (args 8 = N.of_nat (length inp) -> args 8 < 2 ^ 63 -> holds_at (amem s) (args 0) inp -> holds_at (amem s) (args 24) out ->
   regions (amem s) (args 0) (args 24) (32 * (args 8 / 32)) ->
   galXorNEON inp out = Ret out' ->
   exists s', arun galXorNEON_code args s s' /\ length out' = length out /\ holds_at (amem s') (args 24) out' /\
     forall a, a < args 24 \/ args 24 + N.of_nat (length out) <= a -> amem s' a = amem s a).
Proof. exact C54_model_arm64_pf. Qed.
Print Assumptions C54_model_arm64.

(** C54: nothing checks [len(out)]: if out is a slice of [lo] bytes and in has more whole blocks than that, the bytes of memory after out are
    overwritten (this is what C31 calls a write outside the vector). *)
Theorem C54_overrun : forall args s c lo,
  xpc s = 0%nat -> (forall r, length (fst (xv s r)) = 16%nat) ->
  table_at (xmem s) (args 0) (nth (b2i c) mulTableLow []) -> table_at (xmem s) (args 24) (nth (b2i c) mulTableHigh []) ->
  args 56 < 2 ^ 63 -> regions (xmem s) (args 48) (args 72) (16 * (args 56 / 16)) -> lo < 16 * (args 56 / 16) ->
  exists s' x, xrun galMulSSSE3_code args s s' /\ xmem s (args 48 + lo) = Some x /\ xmem s' (args 72 + lo) = Some (gmul c x).
Proof. exact C54_overrun_pf. Qed.
Print Assumptions C54_overrun.

(** The hypotheses are met, and the machine really computes: 40 bytes at the odd address 1001, the tables for 0x57 at 16 and 64, out in place. *)
Definition ex_mem (t : nat) : memory := fun a =>
  if (a <? 16) then None
  else if (a <? 32) then Some (nth (N.to_nat (a - 16)) (nth 87 mulTableLow []) x00)
  else if (a <? 64) then None
  else if (a <? 80) then Some (nth (N.to_nat (a - 64)) (nth 87 mulTableHigh []) x00)
  else if (a <? 1001) then None
  else if (a <? 1001 + N.of_nat t) then Some (n2b (3 * a)) else None.
Definition ex_args (pi len po : N) : N -> N := fun o => match o with 0 => 16 | 24 => 64 | 48 => pi | 56 => len | 72 => po | _ => 0 end.
Definition ex_state (m : memory) : xstate :=
  {| xg := fun _ => 99; xv := fun r => (repeat (n2b (N.of_nat r)) 16, repeat xff 16); xz := true; xmem := m; xpc := 0 |}.
Fixpoint ex_exec (p : list xinstr) (args : N -> N) (n : nat) (s : xstate) : xstate :=
  match n with O => s | S k => match xstep p args s with Some s1 => ex_exec p args k s1 | None => s end end.

Lemma ex_acc : forall t a n, 1001 <= a -> a + n <= 1001 + N.of_nat t -> accessible (ex_mem t) a n.
Proof.
  intros t a n H1 H2 x Hx. unfold ex_mem.
  destruct (N.ltb_spec x 16); [lia|]. destruct (N.ltb_spec x 32); [lia|]. destruct (N.ltb_spec x 64); [lia|]. destruct (N.ltb_spec x 80); [lia|].
  destruct (N.ltb_spec x 1001); [lia|]. destruct (N.ltb_spec x (1001 + N.of_nat t)); [discriminate|lia].
Qed.

Example C54_nonvacuous : let s := ex_state (ex_mem 40) in let args := ex_args 1001 40 1001 in
  xpc s = 0%nat /\ (forall r, length (fst (xv s r)) = 16%nat) /\
  table_at (xmem s) (args 0) (nth (b2i x57) mulTableLow []) /\ table_at (xmem s) (args 24) (nth (b2i x57) mulTableHigh []) /\
  args 56 < 2 ^ 63 /\ regions (xmem s) (args 48) (args 72) (16 * (args 56 / 16)) /\
  (let s' := ex_exec galMulSSSE3_code args 1000 s in
   map (fun i => xmem s' (1001 + i)) [0; 1; 31; 32; 39] =
   [Some (gmul x57 (n2b 3003)); Some (gmul x57 (n2b 3006)); Some (gmul x57 (n2b 3096)); Some (n2b 3099); Some (n2b 3120)]).
Proof.
  cbv zeta. split; [reflexivity|]. split; [intros r; apply repeat_length|].
  split; [split; [|split; [reflexivity|reflexivity]]; intros i Hi; change (length _) with 16%nat in Hi;
          do 16 (destruct i as [|i]; [reflexivity|]); lia|].
  split; [split; [|split; [reflexivity|reflexivity]]; intros i Hi; change (length _) with 16%nat in Hi;
          do 16 (destruct i as [|i]; [reflexivity|]); lia|].
  split; [reflexivity|]. split.
  - split; [reflexivity|]. split; [reflexivity|]. split; [apply ex_acc; vm_compute; discriminate|]. split; [apply ex_acc; vm_compute; discriminate|].
    left. apply N.le_refl.
  - vm_compute. reflexivity.
Qed.
