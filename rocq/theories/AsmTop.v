(** Complete runs of the amd64 routines. *)
From Coq Require Import List NArith ZArith Lia Arith Bool String Ascii.
From Coq.Init Require Import Byte.
From Verif Require Import GoSem Bytes Vector VectorFacts Asm SpecAsm AsmFacts AsmAmd AsmAvx.
Import ListNotations.
Local Open Scope N_scope.

#[local] Arguments setg g d v !r /.
#[local] Arguments setv {A} g d v !r /.

Lemma block_holds m a l : holds_at m a l -> block m a (List.length l) = l.
Proof.
  intros H. apply (nth_ext _ _ x00 x00); [apply block_length|]. rewrite block_length. intros i Hi.
  rewrite nth_block by exact Hi. unfold val. rewrite H by exact Hi. reflexivity.
Qed.

Lemma holds_accessible m a l : holds_at m a l -> accessible m a (N.of_nat (List.length l)).
Proof.
  intros H x Hx E. specialize (H (N.to_nat (x - a))). rewrite N2Nat.id in H. replace (a + (x - a)) with x in H by lia.
  rewrite E in H. discriminate H. lia.
Qed.

Lemma load_table m p l : holds_at m p l -> List.length l = 16%nat -> p + 16 < 2 ^ 64 -> load m (word (p + 0)) 16 = Some l.
Proof.
  intros H E L. rewrite (load_word m p 0 p 16); [|lia|exact L|].
  - rewrite <- E at 1. rewrite block_holds by exact H. reflexivity.
  - rewrite <- E. apply holds_accessible. exact H.
Qed.

Lemma pxor_self x : pxor x x = repeat x00 (List.length x).
Proof.
  unfold pxor. induction x as [|a x IH]; [reflexivity|]. cbn [map2 List.length repeat]. f_equal; [|exact IH].
  unfold bxor. rewrite N.lxor_nilpotent. reflexivity.
Qed.

Lemma xmask x : List.length x = 16%nat -> pshufb (le_bytes 8 15 ++ le_bytes 8 0) (pxor x x) = mask16.
Proof. intros H. rewrite pxor_self, H. reflexivity. Qed.

Lemma land15 a : N.land a 15 = a mod 16.
Proof. change 15 with (N.ones 4). apply N.land_ones. Qed.

Lemma aligned_test a b : (N.lor (N.land b 15) (N.land a 15) =? 0) = true <-> al16 a /\ al16 b.
Proof.
  unfold al16. rewrite !land15. rewrite N.eqb_eq. split.
  - intros H. apply N.lor_eq_0_iff in H. lia.
  - intros [-> ->]. reflexivity.
Qed.

(** the argument words of a call f(low, high, in, out) and f(in, out) *)
Definition mul_call (args : N -> N) (s : xstate) (code : list xinstr) (bs : N) (f : list byte -> list byte -> byte -> byte -> byte) : Prop :=
  forall low high, xpc s = 0%nat -> (forall r, List.length (fst (xv s r)) = 16%nat) ->
  holds_at (xmem s) (args 0) low -> List.length low = 16%nat -> args 0 + 16 < 2 ^ 64 ->
  holds_at (xmem s) (args 24) high -> List.length high = 16%nat -> args 24 + 16 < 2 ^ 64 ->
  let pi := args 48 in let n := bs * (args 56 / bs) in let po := args 72 in
  args 56 < 2 ^ 63 -> pi + n < 2 ^ 64 -> po + n < 2 ^ 64 ->
  accessible (xmem s) pi n -> accessible (xmem s) po n -> no_forward_overlap pi po n ->
  exists s', xrun code args s s' /\ rewritten (f low high) pi po n (xmem s) (xmem s').

(** from the end of the loop to RET: [T] instructions that do not touch memory *)
Definition xtail (p : list xinstr) args (ex T : nat) : Prop :=
  forall s, xpc s = ex -> exists s1, xexec p args T s = Some s1 /\ nth_error p (xpc s1) = Some RET /\ xmem s1 = xmem s.

Lemma finish_zero p args ex T f a b s s1 k : xtail p args ex T -> xexec p args k s = Some s1 -> xpc s1 = ex -> xmem s1 = xmem s ->
  exists s', xrun p args s s' /\ rewritten f a b 0 (xmem s) (xmem s').
Proof.
  intros HT E P M. destruct (HT s1 P) as (s2 & E2 & R & M2). exists s2. split.
  - eapply xexec_run; [eapply xexec_app; eassumption|]. apply xrun_ret. exact R.
  - rewrite M2, M. apply rewritten_0.
Qed.

Lemma finish_loop p args bs f lp ex Inv Al K T : xbody p args bs f lp ex Inv Al K -> (forall a, Al a -> Al (a + bs)) -> xtail p args ex T ->
  forall s k s1 a b len, xexec p args k s = Some s1 -> xmem s1 = xmem s -> xpc s1 = lp -> Inv s1 ->
  xg s1 SI = a -> xg s1 DX = b -> xg s1 R9 = len / bs -> len / bs <> 0 -> len < 2 ^ 63 -> 0 < bs -> Al a -> Al b ->
  let n := bs * (len / bs) in
  a + n < 2 ^ 64 -> b + n < 2 ^ 64 -> accessible (xmem s) a n -> accessible (xmem s) b n -> no_forward_overlap a b n ->
  exists s', xrun p args s s' /\ rewritten f a b n (xmem s) (xmem s').
Proof.
  intros HB HAl HT s k s1 a b len E M P I HS HD HR Z Len Hbs Aa Ab n La Lb Ma Mb Ov.
  assert (Hn : n = bs * N.of_nat (N.to_nat (len / bs))) by (rewrite N2Nat.id; reflexivity). clearbody n. subst n.
  assert (Bn : len / bs < 2 ^ 64) by (apply N.div_lt_upper_bound; nia).
  rewrite <- M in Ma, Mb.
  destruct (xloop p args bs f lp ex Inv Al K HAl HB (N.to_nat (len / bs)) s1 a b) as (k2 & s2 & E2 & P2 & I2 & R2);
    try assumption; rewrite ?N2Nat.id; try assumption; try lia.
  destruct (HT s2 P2) as (s3 & E3 & R3 & M3). exists s3. split.
  - eapply xexec_run; [eapply xexec_app; [eapply xexec_app; [exact E|exact E2]|exact E3]|]. apply xrun_ret. exact R3.
  - rewrite M3, <- M. rewrite N2Nat.id in R2. exact R2.
Qed.

Lemma shr_div a k bs : 2 ^ k = bs -> N.shiftr a k = a / bs.
Proof. intros <-. apply N.shiftr_div_pow2. Qed.
Lemma noal_step bs a : noal a -> noal (a + bs).
Proof. exact (fun H => H). Qed.
Lemma al16_step a : al16 a -> al16 (a + 16).
Proof. intros Ha. unfold al16 in *. rewrite N.add_mod, Ha by lia. reflexivity. Qed.

Ltac xtl tac := intros [g1 v1 z1 m1 pc1] E1; cbn [xpc] in E1; subst pc1; tac; xend; split; reflexivity.

(** ** SSSE3 *)
Lemma ssse3_tail args : xtail galMulSSSE3_code args 54 1.
Proof. xtl ltac:(do 1 xsl). Qed.
Lemma ssse3_tail_aligned args : xtail galMulSSSE3_code args 37 2.
Proof. xtl ltac:(do 2 xsl). Qed.
Lemma ssse3xor_tail args : xtail galMulSSSE3Xor_code args 58 1.
Proof. xtl ltac:(do 1 xsl). Qed.
Lemma ssse3xor_tail_aligned args : xtail galMulSSSE3Xor_code args 39 2.
Proof. xtl ltac:(do 2 xsl). Qed.

Lemma ssse3_head low high args s pi po len : xpc s = 0%nat -> (forall r, List.length (fst (xv s r)) = 16%nat) ->
  holds_at (xmem s) (args 0) low -> List.length low = 16%nat -> args 0 + 16 < 2 ^ 64 ->
  holds_at (xmem s) (args 24) high -> List.length high = 16%nat -> args 24 + 16 < 2 ^ 64 ->
  pi = args 48 -> po = args 72 -> len = args 56 ->
  exists k s1, xexec galMulSSSE3_code args k s = Some s1 /\ xmem s1 = xmem s /\
     (xpc s1 = 54%nat /\ len / 16 = 0 \/
      (xpc s1 = 38%nat \/ xpc s1 = 21%nat /\ al16 pi /\ al16 po) /\ len / 16 <> 0 /\ xg s1 SI = pi /\ xg s1 DX = po /\
       xg s1 R9 = len / 16 /\ inv16 low high s1).
Proof.
  intros P W Hl Ll Bl Hh Lh Bh -> -> ->. destruct s as [g v z m pc]. cbn [xpc xv xmem] in *. subst pc.
  assert (L1 := load_table m _ _ Hl Ll Bl). assert (L2 := load_table m _ _ Hh Lh Bh).
  destruct (N.eqb_spec (args 56 / 16) 0) as [Z|Z].
  - exists 18%nat. do 18 xsl. xend. split; [reflexivity|]. left. split; [|exact Z].
    rewrite (shr_div _ 4 16 eq_refl), Z. reflexivity.
  - exists 21%nat. do 18 xsl. 
    assert (ZZ : (N.shiftr (args 56) 4 =? 0) = false) by (rewrite (shr_div _ 4 16 eq_refl); apply N.eqb_neq; exact Z).
    rewrite ZZ. do 3 xsl. xend. split; [reflexivity|]. right.
    split; [|split; [exact Z|split; [reflexivity|split; [reflexivity|split; [apply N.shiftr_div_pow2|]]]]].
    + destruct (N.lor (N.land (args 72) 15) (N.land (args 48) 15) =? 0) eqn:E; cbn [negb]; [right|left; reflexivity].
      split; [reflexivity|]. apply aligned_test in E. exact E.
    + unfold inv16. cbn [xv setv Nat.eqb fst snd]. split; [reflexivity|split; [reflexivity|]]. apply xmask. apply W.
Qed.

Lemma ssse3_run args s : mul_call args s galMulSSSE3_code 16 fmul.
Proof.
  intros low high P W Hl Ll Bl Hh Lh Bh pi n po Len Lpi Lpo Mi Mo Ov.
  destruct (ssse3_head low high args s pi po (args 56)) as (k & s1 & E & M1 & [[P1 Z]|[Al (Z & HS & HDX & HR & Inv)]]); try assumption; try reflexivity.
  - unfold n. rewrite Z, N.mul_0_r. eapply finish_zero; [apply ssse3_tail|eassumption..].
  - destruct Al as [P1|(P1 & Aa & Ab)].
    + eapply (finish_loop _ args 16 _ 38 54 (inv16 low high) noal 16 1 (ssse3_body low high args) (noal_step 16) (ssse3_tail args)); try eassumption; try exact I; lia.
    + eapply (finish_loop _ args 16 _ 21 37 (inv16 low high) al16 16 2 (ssse3_aligned_body low high args) al16_step (ssse3_tail_aligned args)); try eassumption; lia.
Qed.

Lemma ssse3xor_head low high args s pi po len : xpc s = 0%nat -> (forall r, List.length (fst (xv s r)) = 16%nat) ->
  holds_at (xmem s) (args 0) low -> List.length low = 16%nat -> args 0 + 16 < 2 ^ 64 ->
  holds_at (xmem s) (args 24) high -> List.length high = 16%nat -> args 24 + 16 < 2 ^ 64 ->
  pi = args 48 -> po = args 72 -> len = args 56 ->
  exists k s1, xexec galMulSSSE3Xor_code args k s = Some s1 /\ xmem s1 = xmem s /\
     (xpc s1 = 58%nat /\ len / 16 = 0 \/
      (xpc s1 = 40%nat \/ xpc s1 = 21%nat /\ al16 pi /\ al16 po) /\ len / 16 <> 0 /\ xg s1 SI = pi /\ xg s1 DX = po /\
       xg s1 R9 = len / 16 /\ inv16 low high s1).
Proof.
  intros P W Hl Ll Bl Hh Lh Bh -> -> ->. destruct s as [g v z m pc]. cbn [xpc xv xmem] in *. subst pc.
  assert (L1 := load_table m _ _ Hl Ll Bl). assert (L2 := load_table m _ _ Hh Lh Bh).
  destruct (N.eqb_spec (args 56 / 16) 0) as [Z|Z].
  - exists 18%nat. do 18 xsl. xend. split; [reflexivity|]. left. split; [|exact Z].
    rewrite (shr_div _ 4 16 eq_refl), Z. reflexivity.
  - exists 21%nat. do 18 xsl. 
    assert (ZZ : (N.shiftr (args 56) 4 =? 0) = false) by (rewrite (shr_div _ 4 16 eq_refl); apply N.eqb_neq; exact Z).
    rewrite ZZ. do 3 xsl. xend. split; [reflexivity|]. right.
    split; [|split; [exact Z|split; [reflexivity|split; [reflexivity|split; [apply N.shiftr_div_pow2|]]]]].
    + destruct (N.lor (N.land (args 72) 15) (N.land (args 48) 15) =? 0) eqn:E; cbn [negb]; [right|left; reflexivity].
      split; [reflexivity|]. apply aligned_test in E. exact E.
    + unfold inv16. cbn [xv setv Nat.eqb fst snd]. split; [reflexivity|split; [reflexivity|]]. apply xmask. apply W.
Qed.

Lemma ssse3xor_run args s : mul_call args s galMulSSSE3Xor_code 16 fmulxor.
Proof.
  intros low high P W Hl Ll Bl Hh Lh Bh pi n po Len Lpi Lpo Mi Mo Ov.
  destruct (ssse3xor_head low high args s pi po (args 56)) as (k & s1 & E & M1 & [[P1 Z]|[Al (Z & HS & HDX & HR & Inv)]]); try assumption; try reflexivity.
  - unfold n. rewrite Z, N.mul_0_r. eapply finish_zero; [apply ssse3xor_tail|eassumption..].
  - destruct Al as [P1|(P1 & Aa & Ab)].
    + eapply (finish_loop _ args 16 _ 40 58 (inv16 low high) noal 18 1 (ssse3xor_body low high args) (noal_step 16) (ssse3xor_tail args)); try eassumption; try exact I; lia.
    + eapply (finish_loop _ args 16 _ 21 39 (inv16 low high) al16 18 2 (ssse3xor_aligned_body low high args) al16_step (ssse3xor_tail_aligned args)); try eassumption; lia.
Qed.

(** ** AVX2 *)
Lemma bcast_mask (x : list byte) : nth 0 (le_bytes 8 15 ++ le_bytes 8 0) x00 = x0f.
Proof. reflexivity. Qed.

Ltac avxhead k bs ex lpn :=
  intros low high args [g v z m pc] pi po len P Hl Ll Bl Hh Lh Bh -> -> ->; cbn [xpc xv xmem] in *; subst pc;
  pose proof (load_table _ _ _ Hl Ll Bl) as L1; pose proof (load_table _ _ _ Hh Lh Bh) as L2;
  exists 15%nat; do 15 xsl; xend; split; [reflexivity|];
  rewrite N.land_diag; rewrite (shr_div _ k bs eq_refl);
  match goal with |- context [?x =? 0] => destruct (N.eqb_spec x 0)  end; [left; split; [reflexivity|assumption]|right];
  split; [reflexivity|]; split; [assumption|]; split; [reflexivity|]; split; [reflexivity|]; split; [reflexivity|];
  unfold inv32; cbn [xv setv Nat.eqb fst snd]; split; [reflexivity|split; reflexivity].

Definition avx_head_goal (code : list xinstr) (bs : N) (ex : nat) : Prop :=
  forall low high args s pi po len, xpc s = 0%nat ->
  holds_at (xmem s) (args 0) low -> List.length low = 16%nat -> args 0 + 16 < 2 ^ 64 ->
  holds_at (xmem s) (args 24) high -> List.length high = 16%nat -> args 24 + 16 < 2 ^ 64 ->
  pi = args 48 -> po = args 72 -> len = args 56 ->
  exists k s1, xexec code args k s = Some s1 /\ xmem s1 = xmem s /\
     (xpc s1 = ex /\ len / bs = 0 \/
      xpc s1 = 15%nat /\ len / bs <> 0 /\ xg s1 SI = pi /\ xg s1 DX = po /\ xg s1 R9 = len / bs /\ inv32 low high s1).

Lemma avx2_head_ok : avx_head_goal galMulAVX2_code 32 28.
Proof. unfold avx_head_goal, galMulAVX2_code, avx2_head; cbn [app]. avxhead 5 32 28 15. Qed.
Lemma avx2xor_head_ok : avx_head_goal galMulAVX2Xor_code 32 30.
Proof. unfold avx_head_goal, galMulAVX2Xor_code, avx2_head; cbn [app]. avxhead 5 32 28 15. Qed.
Lemma avx2_64_head_ok : avx_head_goal galMulAVX2_64_code 64 36.
Proof. unfold avx_head_goal, galMulAVX2_64_code, avx2_head; cbn [app]. avxhead 6 64 28 15. Qed.
Lemma avx2xor_64_head_ok : avx_head_goal galMulAVX2Xor_64_code 64 40.
Proof. unfold avx_head_goal, galMulAVX2Xor_64_code, avx2_head; cbn [app]. avxhead 6 64 28 15. Qed.

Lemma avx2_tail args : xtail galMulAVX2_code args 28 2.
Proof. unfold galMulAVX2_code, avx2_head; cbn [app]. xtl ltac:(do 2 xsl). Qed.
Lemma avx2xor_tail args : xtail galMulAVX2Xor_code args 30 2.
Proof. unfold galMulAVX2Xor_code, avx2_head; cbn [app]. xtl ltac:(do 2 xsl). Qed.
Lemma avx2_64_tail args : xtail galMulAVX2_64_code args 36 2.
Proof. unfold galMulAVX2_64_code, avx2_head; cbn [app]. xtl ltac:(do 2 xsl). Qed.
Lemma avx2xor_64_tail args : xtail galMulAVX2Xor_64_code args 40 2.
Proof. unfold galMulAVX2Xor_64_code, avx2_head; cbn [app]. xtl ltac:(do 2 xsl). Qed.

Lemma avx_run args s code bs ex K f : 0 < bs -> avx_head_goal code bs ex -> xtail code args ex 2 ->
  (forall low high, xbody code args bs (f low high) 15 ex (inv32 low high) noal K) -> mul_call args s code bs f.
Proof.
  intros Hbs HH HT HB low high P W Hl Ll Bl Hh Lh Bh pi n po Len Lpi Lpo Mi Mo Ov.
  destruct (HH low high args s pi po (args 56)) as (k & s1 & E & M1 & [[P1 Z]|(P1 & Z & HS & HDX & HR & Inv)]); try assumption; try reflexivity.
  - unfold n. rewrite Z, N.mul_0_r. eapply finish_zero; eassumption.
  - eapply (finish_loop _ args bs _ 15 ex (inv32 low high) noal K 2 (HB low high) (noal_step bs) HT); try eassumption; exact I.
Qed.

Lemma avx2_run args s : mul_call args s galMulAVX2_code 32 fmul.
Proof. eapply avx_run; [lia|apply avx2_head_ok|apply avx2_tail|intros; apply avx2_body]. Qed.
Lemma avx2xor_run args s : mul_call args s galMulAVX2Xor_code 32 fmulxor.
Proof. eapply avx_run; [lia|apply avx2xor_head_ok|apply avx2xor_tail|intros; apply avx2xor_body]. Qed.
Lemma avx2_64_run args s : mul_call args s galMulAVX2_64_code 64 fmul.
Proof. eapply avx_run; [lia|apply avx2_64_head_ok|apply avx2_64_tail|intros; apply avx2_64_body]. Qed.
Lemma avx2xor_64_run args s : mul_call args s galMulAVX2Xor_64_code 64 fmulxor.
Proof. eapply avx_run; [lia|apply avx2xor_64_head_ok|apply avx2xor_64_tail|intros; apply avx2xor_64_body]. Qed.

(** ** SSE2 XOR *)
Definition xor_call (args : N -> N) (s : xstate) (code : list xinstr) (bs : N) : Prop :=
  xpc s = 0%nat ->
  let pi := args 0 in let n := bs * (args 8 / bs) in let po := args 24 in
  args 8 < 2 ^ 63 -> pi + n < 2 ^ 64 -> po + n < 2 ^ 64 ->
  accessible (xmem s) pi n -> accessible (xmem s) po n -> no_forward_overlap pi po n ->
  exists s', xrun code args s s' /\ rewritten bxor pi po n (xmem s) (xmem s').

Lemma sse2_tail args : xtail sSE2XorSlice_code args 15 1.
Proof. xtl ltac:(do 1 xsl). Qed.
Lemma sse2_64_tail args : xtail sSE2XorSlice_64_code args 27 1.
Proof. xtl ltac:(do 1 xsl). Qed.

Lemma sse2_run args s : xor_call args s sSE2XorSlice_code 16.
Proof.
  intros P pi n po Len Lpi Lpo Mi Mo Ov. destruct s as [g v z m pc]. cbn [xpc xmem] in *. subst pc.
  match goal with |- context [xrun _ _ ?s _] => assert (H : exists s1, xexec sSE2XorSlice_code args 6 s = Some s1 /\
     xmem s1 = m /\ xpc s1 = (if args 8 / 16 =? 0 then 15%nat else 6%nat) /\ xg s1 SI = pi /\ xg s1 DX = po /\ xg s1 R9 = args 8 / 16) end.
  { do 6 xsl. xend. rewrite (shr_div _ 4 16 eq_refl). split; [reflexivity|]. split; [reflexivity|]. repeat split. }
  destruct H as (s1 & E & M1 & P1 & HS & HD & HR). destruct (N.eqb_spec (args 8 / 16) 0) as [Z|Z].
  - unfold n. rewrite Z, N.mul_0_r. change m with (xmem {| xg := g; xv := v; xz := z; xmem := m; xpc := 0 |}) at 2.
    eapply finish_zero; [apply sse2_tail|exact E|exact P1|exact M1].
  - change m with (xmem {| xg := g; xv := v; xz := z; xmem := m; xpc := 0 |}) at 2.
    eapply (finish_loop _ args 16 _ 6 15 noinv noal 9 1 (sse2_body args) (noal_step 16) (sse2_tail args)); try eassumption; try exact I; lia.
Qed.

Lemma sse2_64_run args s : xor_call args s sSE2XorSlice_64_code 64.
Proof.
  intros P pi n po Len Lpi Lpo Mi Mo Ov. destruct s as [g v z m pc]. cbn [xpc xmem] in *. subst pc.
  match goal with |- context [xrun _ _ ?s _] => assert (H : exists s1, xexec sSE2XorSlice_64_code args 6 s = Some s1 /\
     xmem s1 = m /\ xpc s1 = (if args 8 / 64 =? 0 then 27%nat else 6%nat) /\ xg s1 SI = pi /\ xg s1 DX = po /\ xg s1 R9 = args 8 / 64) end.
  { do 6 xsl. xend. rewrite (shr_div _ 6 64 eq_refl). split; [reflexivity|]. split; [reflexivity|]. repeat split. }
  destruct H as (s1 & E & M1 & P1 & HS & HD & HR). destruct (N.eqb_spec (args 8 / 64) 0) as [Z|Z].
  - unfold n. rewrite Z, N.mul_0_r. change m with (xmem {| xg := g; xv := v; xz := z; xmem := m; xpc := 0 |}) at 2.
    eapply finish_zero; [apply sse2_64_tail|exact E|exact P1|exact M1].
  - change m with (xmem {| xg := g; xv := v; xz := z; xmem := m; xpc := 0 |}) at 2.
    eapply (finish_loop _ args 64 _ 6 27 noinv noal 21 1 (sse2_64_body args) (noal_step 64) (sse2_64_tail args)); try eassumption; try exact I; lia.
Qed.
