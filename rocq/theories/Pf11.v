(** Proofs of the properties of the assembler routines (C54). *)
From Coq Require Import List NArith ZArith Lia Arith Bool.
From Coq.Init Require Import Byte.
From Verif Require Import GoSem Bytes Spec GaloisTables Galois GF GaloisFacts Vector VectorFacts Asm SpecAsm AsmFacts AsmAmd AsmAvx AsmTop AsmArm.
Import ListNotations.
Local Open Scope N_scope.

(*PROPS
From Coq Require Import List NArith ZArith Lia Arith Bool.
From Coq.Init Require Import Byte.
From Verif Require Import GoSem Bytes Spec GaloisTables Galois Vector Asm SpecAsm Pf11.
Import ListNotations.
Local Open Scope N_scope.
*)

Lemma rewritten_ext f f' pi po n m m' : (forall x y, f x y = f' x y) -> rewritten f pi po n m m' -> rewritten f' pi po n m m'.
Proof.
  intros H [A B]. split; [|exact B]. intros i Hi. destruct (A i Hi) as (x & y & X & Y & Z). exists x, y. rewrite <- H. auto.
Qed.

Lemma mul_step low high args s code bs f : mul_call args s code bs f ->
  xpc s = 0%nat -> (forall r, length (fst (xv s r)) = 16%nat) ->
  table_at (xmem s) (args 0) low -> table_at (xmem s) (args 24) high ->
  args 56 < 2 ^ 63 -> regions (xmem s) (args 48) (args 72) (bs * (args 56 / bs)) ->
  exists s', xrun code args s s' /\ rewritten (f low high) (args 48) (args 72) (bs * (args 56 / bs)) (xmem s) (xmem s').
Proof.
  intros C P W (Hl & Ll & Bl) (Hh & Lh & Bh) Len (R1 & R2 & R3 & R4 & R5). apply C; assumption.
Qed.

(** C54, amd64. In the argument frame of [f(low, high, in, out []byte)] the word at offset 0 is the address of low, 24 of high, 48 of in, 72 of
    out, and 56 the length of in. From any state of registers and flags, with any two tables, any addresses (aligned or not), and memory
    accessible only where said: the multiplication routine runs to its RET without a fault and replaces each of the first [bs * (len(in) / bs)]
    bytes of out by the XOR of the two table entries selected by the nibbles of the byte of in, and nothing else in memory changes. in and out may be
    the same; only an out that starts strictly inside in is excluded. [len(out)] is not looked at. *)
Lemma C54_amd64_mul_pf : forall code bs args s low high,
  In (code, bs) [(galMulSSSE3_code, 16); (galMulAVX2_code, 32); (galMulAVX2_64_code, 64)] ->
  xpc s = 0%nat -> (forall r, length (fst (xv s r)) = 16%nat) ->
  table_at (xmem s) (args 0) low -> table_at (xmem s) (args 24) high ->
  args 56 < 2 ^ 63 -> regions (xmem s) (args 48) (args 72) (bs * (args 56 / bs)) ->
  exists s', xrun code args s s' /\
    rewritten (fun x _ => nibbles low high x) (args 48) (args 72) (bs * (args 56 / bs)) (xmem s) (xmem s').
Proof.
  intros code bs args s low high Hin. cbn [In] in Hin.
  destruct Hin as [E|[E|[E|[]]]]; injection E as <- <-; apply (mul_step low high args s _ _ fmul);
    [apply ssse3_run|apply avx2_run|apply avx2_64_run].
Qed.

(** C54, amd64: the Xor variants add the product to what is in out. *)
Lemma C54_amd64_mulxor_pf : forall code bs args s low high,
  In (code, bs) [(galMulSSSE3Xor_code, 16); (galMulAVX2Xor_code, 32); (galMulAVX2Xor_64_code, 64)] ->
  xpc s = 0%nat -> (forall r, length (fst (xv s r)) = 16%nat) ->
  table_at (xmem s) (args 0) low -> table_at (xmem s) (args 24) high ->
  args 56 < 2 ^ 63 -> regions (xmem s) (args 48) (args 72) (bs * (args 56 / bs)) ->
  exists s', xrun code args s s' /\
    rewritten (fun x y => gadd (nibbles low high x) y) (args 48) (args 72) (bs * (args 56 / bs)) (xmem s) (xmem s').
Proof.
  intros code bs args s low high Hin. cbn [In] in Hin.
  destruct Hin as [E|[E|[E|[]]]]; injection E as <- <-; apply (mul_step low high args s _ _ fmulxor);
    [apply ssse3xor_run|apply avx2xor_run|apply avx2xor_64_run].
Qed.

(** C54, amd64: sSE2XorSlice(in, out) and sSE2XorSlice_64(in, out): frame words 0 = in, 8 = len(in), 24 = out. *)
Lemma C54_amd64_xor_pf : forall code bs args s,
  In (code, bs) [(sSE2XorSlice_code, 16); (sSE2XorSlice_64_code, 64)] -> xpc s = 0%nat ->
  args 8 < 2 ^ 63 -> regions (xmem s) (args 0) (args 24) (bs * (args 8 / bs)) ->
  exists s', xrun code args s s' /\ rewritten gadd (args 0) (args 24) (bs * (args 8 / bs)) (xmem s) (xmem s').
Proof.
  intros code bs args s Hin P Len (R1 & R2 & R3 & R4 & R5). cbn [In] in Hin.
  destruct Hin as [E|[E|[]]]; injection E as <- <-; [apply sse2_run|apply sse2_64_run]; assumption.
Qed.

(** C54, arm64. *)
Lemma C54_arm64_pf : forall args s, apc s = 0%nat ->
  (forall low high, table_at (amem s) (args 0) low -> table_at (amem s) (args 24) high ->
     args 56 < 2 ^ 63 -> regions (amem s) (args 48) (args 72) (32 * (args 56 / 32)) ->
     (exists s', arun galMulNEON_code args s s' /\
        rewritten (fun x _ => nibbles low high x) (args 48) (args 72) (32 * (args 56 / 32)) (amem s) (amem s')) /\
     (exists s', arun galMulXorNEON_code args s s' /\
        rewritten (fun x y => gadd (nibbles low high x) y) (args 48) (args 72) (32 * (args 56 / 32)) (amem s) (amem s'))) /\
  (args 8 < 2 ^ 63 -> regions (amem s) (args 0) (args 24) (32 * (args 8 / 32)) ->
     exists s', arun galXorNEON_code args s s' /\ rewritten gadd (args 0) (args 24) (32 * (args 8 / 32)) (amem s) (amem s')).
Proof.
  intros args s P. split.
  - intros low high (Hl & Ll & Bl) (Hh & Lh & Bh) Len (R1 & R2 & R3 & R4 & R5). split.
    + apply (neon_run args s low high); assumption.
    + apply (neonxor_run args s low high); assumption.
  - intros Len (R1 & R2 & R3 & R4 & R5). apply neonx_run; assumption.
Qed.

(** C54: with the tables the Go code passes, the nibble lookups are multiplication by [c]. *)
Lemma C54_tables_pf : forall c x, nibbles (nth (b2i c) mulTableLow []) (nth (b2i c) mulTableHigh []) x = gmul c x.
Proof.
  intros c x. rewrite <- nibble_tables, <- nibbles_eq. apply bxor_comm.
Qed.

(** C54: runs are deterministic, so "there is a run" means "the run". *)
Lemma C54_deterministic_pf : (forall p args s s1 s2, xrun p args s s1 -> xrun p args s s2 -> s1 = s2) /\
  (forall p args s s1 s2, arun p args s s1 -> arun p args s s2 -> s1 = s2).
Proof. split; intros p args s s1 s2 H1 H2; [exact (xrun_det _ _ _ _ H1 _ H2)|exact (arun_det _ _ _ _ H1 _ H2)]. Qed.

(** ** the models of the routines in Vector.v, on which the properties of AddVector and MulConstVector (C28-C31) rest *)
Lemma refine bs f h inp out out' pi po n m m' : (0 < bs)%nat ->
  (forall x y, length x = bs -> length y = bs -> f x y = map2 h x y) ->
  blockLoop bs f inp out = Ret out' -> (length inp <= length out)%nat -> holds_at m pi inp -> holds_at m po out ->
  n = N.of_nat bs * (N.of_nat (length inp) / N.of_nat bs) ->
  rewritten h pi po n m m' -> holds_at m' po out' /\ length out' = length out.
Proof.
  intros Hb Hf E Hl Hi Ho Hn [A B].
  assert (Hn2 : n = N.of_nat (length inp / bs * bs)) by (rewrite Nat2N.inj_mul, Nat2N.inj_div; lia).
  assert (Hd : (length inp / bs * bs <= length inp)%nat) by (rewrite Nat.mul_comm; apply Nat.mul_div_le; lia).
  destruct (blockLoop_spec bs f h inp out Hb Hf Hl) as (o & E' & L & Nt). rewrite E' in E. injection E as <-.
  split; [|exact L]. intros i Hi'. rewrite Nt. destruct (Nat.ltb_spec i (length inp / bs * bs)) as [C|C].
  - destruct (A (N.of_nat i)) as (x & y & X & Y & Z); [lia|]. rewrite Z. rewrite Hi in X by lia. rewrite Ho in Y by lia.
    injection X as <-. injection Y as <-. reflexivity.
  - rewrite B by lia. apply Ho. lia.
Qed.

(** C54: whenever the Go-level model of a routine says that the call turns out into out', the machine turns the memory holding out into
    memory holding out', and changes nothing outside out (amd64, multiplication). *)
Lemma C54_model_mul_pf : forall code model bs args s c inp out out',
  In (code, model, bs) [(galMulSSSE3_code, galMulSSSE3, 16); (galMulAVX2_code, galMulAVX2, 32); (galMulAVX2_64_code, galMulAVX2_64, 64)] ->
  xpc s = 0%nat -> (forall r, length (fst (xv s r)) = 16%nat) ->
  table_at (xmem s) (args 0) (nth (b2i c) mulTableLow []) -> table_at (xmem s) (args 24) (nth (b2i c) mulTableHigh []) ->
  args 56 = N.of_nat (length inp) -> args 56 < 2 ^ 63 -> holds_at (xmem s) (args 48) inp -> holds_at (xmem s) (args 72) out ->
  (length inp <= length out)%nat -> regions (xmem s) (args 48) (args 72) (bs * (args 56 / bs)) ->
  model (nth (b2i c) mulTableLow []) (nth (b2i c) mulTableHigh []) inp out = Ret out' ->
  exists s', xrun code args s s' /\ length out' = length out /\ holds_at (xmem s') (args 72) out' /\
    forall a, a < args 72 \/ args 72 + N.of_nat (length out) <= a -> xmem s' a = xmem s a.
Proof.
  intros code model bs args s c inp out out' Hin P W Tl Th Elen Len Hi Ho Hl Rg E.
  assert (Main : forall s', xrun code args s s' -> rewritten (fun x _ => gmul c x) (args 48) (args 72) (bs * (args 56 / bs)) (xmem s) (xmem s') ->
     forall f bs', bs = N.of_nat bs' -> (0 < bs')%nat -> (forall x y, length x = bs' -> length y = bs' -> f x y = map2 (fun a _ => gmul c a) x y) ->
     blockLoop bs' f inp out = Ret out' ->
     xrun code args s s' /\ length out' = length out /\ holds_at (xmem s') (args 72) out' /\
     forall a, a < args 72 \/ args 72 + N.of_nat (length out) <= a -> xmem s' a = xmem s a).
  { intros s' R Rw f bs' -> Hb Hf EL. split; [exact R|].
    assert (K := refine bs' f (fun a _ => gmul c a) inp out out' (args 48) (args 72) _ (xmem s) (xmem s') Hb Hf EL Hl Hi Ho
       (f_equal (fun z => N.of_nat bs' * (z / N.of_nat bs')) Elen) Rw). destruct K as [K1 K2].
    split; [exact K2|]. split; [exact K1|]. intros a Ha. destruct Rw as [_ B]. apply B.
    assert (N.of_nat bs' * (args 56 / N.of_nat bs') <= args 56) by (apply N.mul_div_le; lia). rewrite Elen in *. lia. }
  assert (Conv : forall f : byte -> byte -> byte, f = fmul (nth (b2i c) mulTableLow []) (nth (b2i c) mulTableHigh []) -> forall x y, f x y = gmul c x).
  { intros f -> x y. apply C54_tables_pf. }
  cbn [In] in Hin. destruct Hin as [Q|[Q|[Q|[]]]]; injection Q as <- <- <-.
  - destruct (mul_step _ _ args s _ _ fmul (ssse3_run args s) P W Tl Th Len Rg) as (s' & R & Rw). exists s'.
    eapply Main; [exact R|eapply rewritten_ext; [apply Conv; reflexivity|exact Rw]| | | |exact E]; [reflexivity|lia|].
    intros x y Hx Hy. cbv beta. rewrite mulStep16_ok by exact Hx. symmetry. apply (map2_const (gmul c)). lia.
  - destruct (mul_step _ _ args s _ _ fmul (avx2_run args s) P W Tl Th Len Rg) as (s' & R & Rw). exists s'.
    eapply Main; [exact R|eapply rewritten_ext; [apply Conv; reflexivity|exact Rw]| | | |exact E]; [reflexivity|lia|].
    intros x y Hx Hy. cbv beta. rewrite mulStep32_ok by exact Hx. symmetry. apply (map2_const (gmul c)). lia.
  - destruct (mul_step _ _ args s _ _ fmul (avx2_64_run args s) P W Tl Th Len Rg) as (s' & R & Rw). exists s'.
    eapply Main; [exact R|eapply rewritten_ext; [apply Conv; reflexivity|exact Rw]| | | |exact E]; [reflexivity|lia|].
    intros x y Hx Hy. cbv beta. rewrite !mulStep32_ok by (rewrite ?firstn_length, ?skipn_length; lia). rewrite <- map_app, firstn_skipn.
    symmetry. apply (map2_const (gmul c)). lia.
Qed.

(** C54: the same for the XOR routines of amd64 ... *)
Lemma C54_model_xor_pf : forall code model bs args s inp out out',
  In (code, model, bs) [(sSE2XorSlice_code, sSE2XorSlice, 16); (sSE2XorSlice_64_code, sSE2XorSlice_64, 64)] ->
  xpc s = 0%nat -> args 8 = N.of_nat (length inp) -> args 8 < 2 ^ 63 -> holds_at (xmem s) (args 0) inp -> holds_at (xmem s) (args 24) out ->
  (length inp <= length out)%nat -> regions (xmem s) (args 0) (args 24) (bs * (args 8 / bs)) ->
  model inp out = Ret out' ->
  exists s', xrun code args s s' /\ length out' = length out /\ holds_at (xmem s') (args 24) out' /\
    forall a, a < args 24 \/ args 24 + N.of_nat (length out) <= a -> xmem s' a = xmem s a.
Proof.
  intros code model bs args s inp out out' Hin P Elen Len Hi Ho Hl Rg E.
  assert (Main : forall s', xrun code args s s' -> rewritten gadd (args 0) (args 24) (bs * (args 8 / bs)) (xmem s) (xmem s') ->
     forall f bs', bs = N.of_nat bs' -> (0 < bs')%nat -> (forall x y, length x = bs' -> length y = bs' -> f x y = map2 gadd x y) ->
     blockLoop bs' f inp out = Ret out' ->
     xrun code args s s' /\ length out' = length out /\ holds_at (xmem s') (args 24) out' /\
     forall a, a < args 24 \/ args 24 + N.of_nat (length out) <= a -> xmem s' a = xmem s a).
  { intros s' R Rw f bs' -> Hb Hf EL. split; [exact R|].
    assert (K := refine bs' f gadd inp out out' (args 0) (args 24) _ (xmem s) (xmem s') Hb Hf EL Hl Hi Ho
       (f_equal (fun z => N.of_nat bs' * (z / N.of_nat bs')) Elen) Rw). destruct K as [K1 K2].
    split; [exact K2|]. split; [exact K1|]. intros a Ha. destruct Rw as [_ B]. apply B.
    assert (N.of_nat bs' * (args 8 / N.of_nat bs') <= args 8) by (apply N.mul_div_le; lia). rewrite Elen in *. lia. }
  destruct Rg as (R1 & R2 & R3 & R4 & R5).
  cbn [In] in Hin. destruct Hin as [Q|[Q|[]]]; injection Q as <- <- <-.
  - destruct (sse2_run args s P Len R1 R2 R3 R4 R5) as (s' & R & Rw). exists s'.
    eapply Main; [exact R|exact Rw| | | |exact E]; [reflexivity|lia|]. intros x y Hx Hy. cbv beta. apply pxor_gadd.
  - destruct (sse2_64_run args s P Len R1 R2 R3 R4 R5) as (s' & R & Rw). exists s'.
    eapply Main; [exact R|exact Rw| | | |exact E]; [reflexivity|lia|]. intros x y Hx Hy. cbv beta. apply pxor_app4; assumption.
Qed.

(** C54: ... and for the routines of arm64. *)
Lemma C54_model_arm64_pf : forall args s c inp out out', apc s = 0%nat -> (length inp <= length out)%nat ->
  (table_at (amem s) (args 0) (nth (b2i c) mulTableLow []) -> table_at (amem s) (args 24) (nth (b2i c) mulTableHigh []) ->
   args 56 = N.of_nat (length inp) -> args 56 < 2 ^ 63 -> holds_at (amem s) (args 48) inp -> holds_at (amem s) (args 72) out ->
   regions (amem s) (args 48) (args 72) (32 * (args 56 / 32)) ->
   galMulNEON (nth (b2i c) mulTableLow []) (nth (b2i c) mulTableHigh []) inp out = Ret out' ->
   exists s', arun galMulNEON_code args s s' /\ length out' = length out /\ holds_at (amem s') (args 72) out' /\
     forall a, a < args 72 \/ args 72 + N.of_nat (length out) <= a -> amem s' a = amem s a) /\
  (args 8 = N.of_nat (length inp) -> args 8 < 2 ^ 63 -> holds_at (amem s) (args 0) inp -> holds_at (amem s) (args 24) out ->
   regions (amem s) (args 0) (args 24) (32 * (args 8 / 32)) ->
   galXorNEON inp out = Ret out' ->
   exists s', arun galXorNEON_code args s s' /\ length out' = length out /\ holds_at (amem s') (args 24) out' /\
     forall a, a < args 24 \/ args 24 + N.of_nat (length out) <= a -> amem s' a = amem s a).
Proof.
  intros args s c inp out out' P Hl. split.
  - intros (Hlo & Ll & Bl) (Hhi & Lh & Bh) Elen Len Hi Ho (R1 & R2 & R3 & R4 & R5) E.
    destruct (neon_run args s _ _ P Hlo Ll Hhi Lh Len R1 R2 R3 R4 R5) as (s' & R & Rw).
    apply (rewritten_ext _ (fun x _ => gmul c x)) in Rw; [|intros x y; apply C54_tables_pf].
    exists s'. split; [exact R|].
    destruct (refine 32 (fun x _ => mulStepNeon (nth (b2i c) mulTableLow []) (nth (b2i c) mulTableHigh []) x) (fun a _ => gmul c a) inp out out' (args 48) (args 72) (32 * (args 56 / 32)) (amem s) (amem s')) as [K1 K2]; try assumption; try lia.
    + intros x y Hx Hy. cbv beta. rewrite mulStepNeon_ok by exact Hx. symmetry. apply (map2_const (gmul c)). lia.
    + rewrite Elen. reflexivity.
    + split; [exact K2|]. split; [exact K1|]. intros a Ha. destruct Rw as [_ B]. apply B.
      assert (32 * (args 56 / 32) <= args 56) by (apply N.mul_div_le; lia). rewrite Elen in *. lia.
  - intros Elen Len Hi Ho (R1 & R2 & R3 & R4 & R5) E.
    destruct (neonx_run args s P Len R1 R2 R3 R4 R5) as (s' & R & Rw).
    exists s'. split; [exact R|].
    destruct (refine 32 (fun x y => pxor (firstn 16 x) (firstn 16 y) ++ pxor (skipn 16 x) (skipn 16 y)) gadd inp out out' (args 0) (args 24) (32 * (args 8 / 32)) (amem s) (amem s')) as [K1 K2]; try assumption; try lia.
    + intros x y Hx Hy. apply map2_halves. lia.
    + rewrite Elen. reflexivity.
    + split; [exact K2|]. split; [exact K1|]. intros a Ha. destruct Rw as [_ B]. apply B.
      assert (32 * (args 8 / 32) <= args 8) by (apply N.mul_div_le; lia). rewrite Elen in *. lia.
Qed.

(** C54: nothing checks [len(out)]: if out is a slice of [lo] bytes and in has more whole blocks than that, the bytes of memory after out are
    overwritten (this is what C31 calls a write outside the vector). *)
Lemma C54_overrun_pf : forall args s c lo,
  xpc s = 0%nat -> (forall r, length (fst (xv s r)) = 16%nat) ->
  table_at (xmem s) (args 0) (nth (b2i c) mulTableLow []) -> table_at (xmem s) (args 24) (nth (b2i c) mulTableHigh []) ->
  args 56 < 2 ^ 63 -> regions (xmem s) (args 48) (args 72) (16 * (args 56 / 16)) -> lo < 16 * (args 56 / 16) ->
  exists s' x, xrun galMulSSSE3_code args s s' /\ xmem s (args 48 + lo) = Some x /\ xmem s' (args 72 + lo) = Some (gmul c x).
Proof.
  intros args s c lo P W Tl Th Len Rg L.
  destruct (mul_step _ _ args s _ _ fmul (ssse3_run args s) P W Tl Th Len Rg) as (s' & R & [A B]).
  destruct (A lo L) as (x & y & X & Y & Z). exists s', x. split; [exact R|]. split; [exact X|]. rewrite Z. f_equal. apply C54_tables_pf.
Qed.

(*COPY
(** The hypotheses are met, and the machine really computes: 40 bytes at the odd address 1001, the tables for 0x57 at 16 and 64, out in place. *)
Definition ex_mem (t : nat) : memory := fun a =>
  if (a <? 16) then None
  else if (a <? 32) then Some (nth (N.to_nat (a - 16)) (nth 87 mulTableLow []) x00)
  else if (a <? 64) then None
  else if (a <? 80) then Some (nth (N.to_nat (a - 64)) (nth 87 mulTableHigh []) x00)
  else if (a <? 1001) then None
  else if (a <? 1001 + N.of_nat t) then Some (n2b (3 * a)) else None.
Definition ex_args (pi len po : N) : N -> N := fun o => match o with 0 => 16 | 24 => 64 | 48 => pi | 56 => len | 72 => po | _ => 0 end.
Definition ex_state (m : memory) : xstate :=
  {| xg := fun _ => 99; xv := fun r => (repeat (n2b (N.of_nat r)) 16, repeat xff 16); xz := true; xmem := m; xpc := 0 |}.
Fixpoint ex_exec (p : list xinstr) (args : N -> N) (n : nat) (s : xstate) : xstate :=
  match n with O => s | S k => match xstep p args s with Some s1 => ex_exec p args k s1 | None => s end end.

Lemma ex_acc : forall t a n, 1001 <= a -> a + n <= 1001 + N.of_nat t -> accessible (ex_mem t) a n.
Proof.
  intros t a n H1 H2 x Hx. unfold ex_mem.
  destruct (N.ltb_spec x 16); [lia|]. destruct (N.ltb_spec x 32); [lia|]. destruct (N.ltb_spec x 64); [lia|]. destruct (N.ltb_spec x 80); [lia|].
  destruct (N.ltb_spec x 1001); [lia|]. destruct (N.ltb_spec x (1001 + N.of_nat t)); [discriminate|lia].
Qed.

Example C54_nonvacuous : let s := ex_state (ex_mem 40) in let args := ex_args 1001 40 1001 in
  xpc s = 0%nat /\ (forall r, length (fst (xv s r)) = 16%nat) /\
  table_at (xmem s) (args 0) (nth (b2i x57) mulTableLow []) /\ table_at (xmem s) (args 24) (nth (b2i x57) mulTableHigh []) /\
  args 56 < 2 ^ 63 /\ regions (xmem s) (args 48) (args 72) (16 * (args 56 / 16)) /\
  (let s' := ex_exec galMulSSSE3_code args 1000 s in
   map (fun i => xmem s' (1001 + i)) [0; 1; 31; 32; 39] =
   [Some (gmul x57 (n2b 3003)); Some (gmul x57 (n2b 3006)); Some (gmul x57 (n2b 3096)); Some (n2b 3099); Some (n2b 3120)]).
Proof.
  cbv zeta. split; [reflexivity|]. split; [intros r; apply repeat_length|].
  split; [split; [|split; [reflexivity|reflexivity]]; intros i Hi; change (length _) with 16%nat in Hi;
          do 16 (destruct i as [|i]; [reflexivity|]); lia|].
  split; [split; [|split; [reflexivity|reflexivity]]; intros i Hi; change (length _) with 16%nat in Hi;
          do 16 (destruct i as [|i]; [reflexivity|]); lia|].
  split; [reflexivity|]. split.
  - split; [reflexivity|]. split; [reflexivity|]. split; [apply ex_acc; vm_compute; discriminate|]. split; [apply ex_acc; vm_compute; discriminate|].
    left. apply N.le_refl.
  - vm_compute. reflexivity.
Qed.
END*)
