(** The program counter and the addresses used by the assembler routines do not depend on the data (C66). *)
From Coq Require Import List NArith ZArith Lia Arith Bool String.
From Coq.Init Require Import Byte.
From Verif Require Import GoSem Bytes Vector Asm SpecAsm Trace SpecTrace.
Import ListNotations.
Local Open Scope N_scope.

Lemma load_same m1 m2 n : same_map m1 m2 -> forall a, match load m1 a n, load m2 a n with
  | Some l1, Some l2 => List.length l1 = n /\ List.length l2 = n | None, None => True | _, _ => False end.
Proof.
  intros S. induction n as [|n IH]; intros a; [split; reflexivity|]. cbn [load]. specialize (IH (a + 1)). pose proof (S a) as Sa.
  destruct (m1 a) as [b1|], (m2 a) as [b2|]; try (destruct Sa as [S1 S2]; (discriminate (S1 eq_refl) || discriminate (S2 eq_refl))); [|exact I].
  destruct (load m1 (a + 1) n), (load m2 (a + 1) n); try exact IH. destruct IH as [<- IH2]. cbn [List.length]. split; [reflexivity|]. f_equal. exact IH2.
Qed.
Lemma store_same l1 : forall l2 m1 m2, List.length l1 = List.length l2 -> same_map m1 m2 -> forall a, match store m1 a l1, store m2 a l2 with
  | Some n1, Some n2 => same_map n1 n2 | None, None => True | _, _ => False end.
Proof.
  induction l1 as [|b1 l1 IH]; intros [|b2 l2] m1 m2 L S a; try discriminate L; cbn [store]; [exact S|]. pose proof (S a) as Sa.
  destruct (m1 a) as [c1|], (m2 a) as [c2|]; try (destruct Sa as [S1 S2]; (discriminate (S1 eq_refl) || discriminate (S2 eq_refl))); [|exact I].
  apply IH; [inversion L; reflexivity|]. intros x. destruct (x =? a); [split; discriminate|apply S].
Qed.

Lemma map2_len {A B C} (f : A -> B -> C) a : forall b, List.length (map2 f a b) = Nat.min (List.length a) (List.length b).
Proof. induction a as [|x a IH]; intros [|y b]; cbn [map2 List.length Nat.min]; try reflexivity. f_equal. apply IH. Qed.
Lemma le_bytes_len n : forall v, List.length (le_bytes n v) = n.
Proof. induction n as [|n IH]; intros v; cbn [le_bytes List.length]; [reflexivity|]. f_equal. apply IH. Qed.
Lemma psrlq4_len v : List.length (psrlq4 v) = 16%nat.
Proof. unfold psrlq4, shr4_lane. rewrite app_length, !le_bytes_len. reflexivity. Qed.

Definition vlike (v1 v2 : nat -> list byte * list byte) : Prop :=
  forall r, List.length (fst (v1 r)) = List.length (fst (v2 r)) /\ List.length (snd (v1 r)) = List.length (snd (v2 r)).
Lemma setv_like v1 v2 d a1 b1 a2 b2 : vlike v1 v2 -> List.length a1 = List.length a2 -> List.length b1 = List.length b2 -> vlike (setv v1 d (a1, b1)) (setv v2 d (a2, b2)).
Proof. intros H L1 L2 r. unfold setv. destruct (Nat.eqb r d); [split; assumption|apply H]. Qed.
Lemma xlike_intro g v1 v2 z m1 m2 pc : same_map m1 m2 -> vlike v1 v2 ->
  xlike {| xg := g; xv := v1; xz := z; xmem := m1; xpc := pc |} {| xg := g; xv := v2; xz := z; xmem := m2; xpc := pc |}.
Proof. intros Hm Hv. split; [reflexivity|]. split; [reflexivity|]. split; [reflexivity|]. split; [exact Hm|exact Hv]. Qed.
Lemma store_like g v1 v2 z m1 m2 pc a l1 l2 : same_map m1 m2 -> vlike v1 v2 -> List.length l1 = List.length l2 ->
  match match store m1 a l1 with Some m' => Some {| xg := g; xv := v1; xz := z; xmem := m'; xpc := pc |} | None => None end,
        match store m2 a l2 with Some m' => Some {| xg := g; xv := v2; xz := z; xmem := m'; xpc := pc |} | None => None end with
  | Some t1, Some t2 => xlike t1 t2 | None, None => True | _, _ => False end.
Proof.
  intros Hm Hv HL. pose proof (store_same l1 l2 m1 m2 HL Hm a) as S. destruct (store m1 a l1), (store m2 a l2); try (destruct S; fail); [|exact I]. apply xlike_intro; assumption.
Qed.
Lemma load16_like g v1 v2 z m1 m2 pc a d : same_map m1 m2 -> vlike v1 v2 ->
  match match load m1 a 16 with Some l => Some {| xg := g; xv := setv v1 d (l, snd (v1 d)); xz := z; xmem := m1; xpc := pc |} | None => None end,
        match load m2 a 16 with Some l => Some {| xg := g; xv := setv v2 d (l, snd (v2 d)); xz := z; xmem := m2; xpc := pc |} | None => None end with
  | Some t1, Some t2 => xlike t1 t2 | None, None => True | _, _ => False end.
Proof.
  intros Hm Hv. pose proof (load_same m1 m2 16 Hm a) as S. destruct (load m1 a 16), (load m2 a 16); try (destruct S; fail); [|exact I]. destruct S as [S1 S2].
  apply xlike_intro; [assumption|]. apply setv_like; [assumption|congruence|apply Hv].
Qed.

Lemma xstep_like p args s1 s2 : xlike s1 s2 ->
  match xstep p args s1, xstep p args s2 with Some t1, Some t2 => xlike t1 t2 | None, None => True | _, _ => False end.
Proof.
  destruct s1 as [g1 v1 z1 m1 pc1], s2 as [g v2 z m2 pc]. intros (Hg & Hz & Hp & Hm & Hv). cbn [xg xz xpc xmem xv] in *. subst g1 z1 pc1. fold (vlike v1 v2) in Hv.
  unfold xstep. cbn [xg xz xpc xmem xv]. destruct (nth_error p pc) as [i|]; [|exact I].
  assert (LX : forall r, List.length (fst (v1 r)) = List.length (fst (v2 r))) by (intros r; apply Hv).
  assert (LY : forall r, List.length (snd (v1 r)) = List.length (snd (v2 r))) by (intros r; apply Hv).
  Ltac lens LX LY := unfold pxor, pand, pshufb; rewrite ?map2_len, ?map_length, ?psrlq4_len, ?app_length, ?le_bytes_len, ?repeat_length, ?LX, ?LY; reflexivity.
  destruct i; cbv beta zeta;
    lazymatch goal with
    | |- True => exact I
    | |- xlike {| xg := _; xv := setv _ _ _; xz := _; xmem := _; xpc := _ |} _ => apply xlike_intro; [exact Hm|]; apply setv_like; [exact Hv|lens LX LY|lens LX LY]
    | |- xlike {| xg := _; xv := v1; xz := _; xmem := _; xpc := _ |} _ => apply xlike_intro; [exact Hm|exact Hv]
    | |- match match store _ _ _ with _ => _ end with _ => _ end => apply store_like; [exact Hm|exact Hv|]; rewrite ?app_length, ?LX, ?LY; reflexivity
    | |- match match load _ _ 16 with _ => _ end with _ => _ end => apply load16_like; assumption
    | |- _ => idtac
    end.
  - destruct (_ =? 0); [apply load16_like; assumption|exact I].
  - destruct (_ =? 0); [apply store_like; [assumption|assumption|apply LX]|exact I].
  - pose proof (load_same m1 m2 32 Hm (word (g b + off))) as S. destruct (load m1 _ 32), (load m2 _ 32); try (destruct S; fail); [|exact I]. destruct S as [S1 S2].
    apply xlike_intro; [assumption|]. apply setv_like; [assumption| |]; rewrite ?firstn_length, ?skipn_length; congruence.
  - apply xlike_intro; [exact Hm|]. intros r. cbn [fst snd]. split; [apply LX|reflexivity].
Qed.
Lemma xtrace_like p args n : forall s1 s2, xlike s1 s2 -> xtrace p args n s1 = xtrace p args n s2.
Proof.
  induction n as [|n IH]; intros s1 s2 L; [reflexivity|]. cbn [xtrace]. pose proof (xstep_like p args s1 s2 L) as S. destruct L as (Hg & Hz & Hp & _). rewrite Hp, Hg.
  destruct (nth_error p (xpc s2)); [|reflexivity]. f_equal. destruct (xstep p args s1), (xstep p args s2); try (destruct S; fail); [apply IH, S|reflexivity].
Qed.

Lemma astep_like p args s1 s2 : alike s1 s2 ->
  match astep p args s1, astep p args s2 with Some t1, Some t2 => alike t1 t2 | None, None => True | _, _ => False end.
Proof.
  intros (Hg & Hz & Hp & Hm & Hv). unfold astep. rewrite Hp, Hg, Hz. destruct (nth_error p (apc s2)) as [i|]; [|exact I].
  assert (SETV : forall (v1 v2 : nat -> list byte) (d : nat) (y1 y2 : list byte), (forall r, List.length (v1 r) = List.length (v2 r)) -> List.length y1 = List.length y2 ->
    forall r, List.length (setv v1 d y1 r) = List.length (setv v2 d y2 r)).
  { intros v1 v2 d y1 y2 H L1 r. unfold setv. destruct (Nat.eqb r d); [assumption|apply H]. }
  destruct i; cbv beta zeta; try exact I;
    try (match goal with |- alike _ _ => split; [reflexivity|]; split; [reflexivity|]; split; [reflexivity|]; split; [exact Hm|]; cbn [av]; first [exact Hv|apply SETV; [exact Hv|]; 
           unfold pxor, pand, vtbl, vushr4; cbn [List.length]; rewrite ?map2_len, ?map_length, ?repeat_length, ?skipn_length, ?Hv; reflexivity] end);
    try (match goal with |- context [load (amem s1) ?a ?n] => pose proof (load_same _ _ n Hm a) as LS; destruct (load (amem s1) a n) as [l1|], (load (amem s2) a n) as [l2|]; try (destruct LS; fail);
           try exact I; destruct LS as [LS1 LS2]; split; [reflexivity|]; split; [reflexivity|]; split; [reflexivity|]; split; [exact Hm|]; cbn [av]; repeat (apply SETV); try exact Hv;
           rewrite ?firstn_length, ?skipn_length, ?LS1, ?LS2; reflexivity end);
    try (match goal with |- context [store (amem s1) ?a ?l1] => match goal with |- context [store (amem s2) a ?l2] =>
           pose proof (store_same l1 l2 _ _ ltac:(rewrite ?app_length, ?Hv; reflexivity) Hm a) as LS;
           destruct (store (amem s1) a l1) as [m1|], (store (amem s2) a l2) as [m2|]; try (destruct LS; fail); try exact I;
           split; [reflexivity|]; split; [reflexivity|]; split; [reflexivity|]; split; [exact LS|exact Hv] end end).
Qed.
Lemma atrace_like p args n : forall s1 s2, alike s1 s2 -> atrace p args n s1 = atrace p args n s2.
Proof.
  induction n as [|n IH]; intros s1 s2 L; [reflexivity|]. cbn [atrace]. pose proof (astep_like p args s1 s2 L) as S. destruct L as (Hg & Hz & Hp & _). rewrite Hp, Hg.
  destruct (nth_error p (apc s2)); [|reflexivity]. f_equal. destruct (astep p args s1), (astep p args s2); try (destruct S; fail); [apply IH, S|reflexivity].
Qed.


(** ** the records are what the instructions do *)
Lemma load_none m n : forall a, (load m a n = None <-> exists x, a <= x < a + N.of_nat n /\ m x = None).
Proof.
  induction n as [|n IH]; intros a.
  - cbn. split; [discriminate|]. intros (x & Hx & _). lia.
  - cbn [load]. specialize (IH (a + 1)). destruct (m a) eqn:E.
    + destruct (load m (a + 1) n).
      * split; [discriminate|]. intros (x & Hx & Q). destruct (N.eq_dec x a) as [->|]; [congruence|]. assert (K : Some l = None) by (apply (proj2 IH); exists x; split; [lia|exact Q]). discriminate K.
      * split; [|reflexivity]. intros _. destruct (proj1 IH eq_refl) as (x & Hx & Q). exists x. split; [lia|exact Q].
    + split; [|reflexivity]. intros _. exists a. split; [lia|exact E].
Qed.
Lemma load_agree m m' n : forall a, (forall x, a <= x < a + N.of_nat n -> m' x = m x) -> load m' a n = load m a n.
Proof. induction n as [|n IH]; intros a H; [reflexivity|]. cbn [load]. rewrite (H a) by lia. rewrite (IH (a + 1)) by (intros x Hx; apply H; lia). reflexivity. Qed.
Lemma store_none l : forall m a, (store m a l = None <-> exists x, a <= x < a + N.of_nat (List.length l) /\ m x = None).
Proof.
  induction l as [|b l IH]; intros m a.
  - cbn. split; [discriminate|]. intros (x & Hx & _). lia.
  - cbn [store List.length]. destruct (m a) eqn:E.
    + rewrite IH. split; intros (x & Hx & Q).
      * destruct (N.eqb_spec x a); [discriminate|]. exists x. split; [lia|exact Q].
      * exists x. destruct (N.eqb_spec x a) as [->|]; [congruence|]. split; [lia|exact Q].
    + split; [|reflexivity]. intros _. exists a. split; [lia|exact E].
Qed.
Lemma store_out l : forall m a m1 x, store m a l = Some m1 -> ~ (a <= x < a + N.of_nat (List.length l)) -> m1 x = m x.
Proof.
  induction l as [|b l IH]; intros m a m1 x E H; cbn [store List.length] in *; [injection E as <-; reflexivity|]. destruct (m a); [|discriminate].
  rewrite (IH _ _ _ x E) by lia. destruct (N.eqb_spec x a); [exfalso; lia|reflexivity].
Qed.
Lemma store_in l : forall m m' a m1 m1' x, store m a l = Some m1 -> store m' a l = Some m1' -> a <= x < a + N.of_nat (List.length l) -> m1 x = m1' x.
Proof.
  induction l as [|b l IH]; intros m m' a m1 m1' x E E' H; cbn [store List.length] in *; [lia|]. destruct (m a); [|discriminate]. destruct (m' a); [|discriminate].
  destruct (N.eq_dec x a) as [->|]; [|apply (IH _ _ _ _ _ x E E'); lia].
  rewrite (store_out _ _ _ _ a E) by lia. rewrite (store_out _ _ _ _ a E') by lia. rewrite N.eqb_refl. reflexivity.
Qed.
Lemma store_mapped l m a m1 : store m a l = Some m1 -> forall x, a <= x < a + N.of_nat (List.length l) -> m x <> None.
Proof. intros E x Hx Q. assert (store m a l = None) by (apply store_none; exists x; auto). congruence. Qed.
Lemma load_mapped n m a l : load m a n = Some l -> forall x, a <= x < a + N.of_nat n -> m x <> None.
Proof. intros E x Hx Q. assert (load m a n = None) by (apply load_none; exists x; auto). congruence. Qed.
Lemma store_agree l m m' a m1 : (forall x, a <= x < a + N.of_nat (List.length l) -> m' x = m x) -> store m a l = Some m1 -> exists m1', store m' a l = Some m1'.
Proof.
  intros H E. destruct (store m' a l) eqn:Q; [eexists; reflexivity|]. exfalso. apply store_none in Q as (x & Hx & Q). rewrite (H x Hx) in Q. exact (store_mapped _ _ _ _ E x Hx Q).
Qed.

(** a step that loads [n] bytes at [a], or faults when [ok] is false *)
Lemma acts_load {S} (step : S -> option S) mem put (s : S) a n (ok : bool) (k : list byte -> memory -> S) :
  (forall m, step (put s m) = if ok then match load m a n with Some l => Some (k l m) | None => None end else None) ->
  step s = (if ok then match load (mem s) a n with Some l => Some (k l (mem s)) | None => None end else None) ->
  (ok = false -> a mod 16 <> 0) -> (forall l m, mem (k l m) = m) -> (forall l m m', put (k l m) m' = k l m') ->
  acts_on step mem put s (Some (a, n, false)).
Proof.
  intros E1 E0 OK M P. cbn [acts_on]. rewrite E0. destruct ok.
  2:{ split; [congruence|]. split; [intros _ _; apply OK; reflexivity|]. split; [discriminate|]. split; [intros m _; rewrite E1; exact I|]. discriminate. }
  split; [|split; [|split; [|split]]].
  - destruct (load (mem s) a n) eqn:L; [|congruence]. intros _. exact (load_mapped _ _ _ _ L).
  - intros H. destruct (load (mem s) a n) eqn:L; [discriminate|]. apply load_none in L as (x & Hx & Q). destruct (H x Hx Q).
  - intros t x. destruct (load (mem s) a n); [|discriminate]. intros E _. injection E as <-. rewrite M. reflexivity.
  - intros m H. rewrite E1, (load_agree (mem s) m n a H). destruct (load (mem s) a n); [|exact I]. rewrite !P, !M. split; [reflexivity|]. intros x Hx. symmetry. apply H, Hx.
  - discriminate.
Qed.
Lemma acts_store {S} (step : S -> option S) mem put (s : S) a n (ok : bool) (l : list byte) (k : memory -> S) :
  List.length l = n ->
  (forall m, step (put s m) = if ok then match store m a l with Some m' => Some (k m') | None => None end else None) ->
  step s = (if ok then match store (mem s) a l with Some m' => Some (k m') | None => None end else None) ->
  (ok = false -> a mod 16 <> 0) -> (forall m, mem (k m) = m) -> (forall m m', put (k m) m' = k m') ->
  acts_on step mem put s (Some (a, n, true)).
Proof.
  intros <- E1 E0 OK M P. cbn [acts_on]. rewrite E0. destruct ok.
  2:{ split; [congruence|]. split; [intros _ _; apply OK; reflexivity|]. split; [discriminate|]. split; [intros m _; rewrite E1; exact I|]. discriminate. }
  split; [|split; [|split; [|split]]].
  - destruct (store (mem s) a l) eqn:L; [|congruence]. intros _. exact (store_mapped _ _ _ _ L).
  - intros H. destruct (store (mem s) a l) eqn:L; [discriminate|]. apply store_none in L as (x & Hx & Q). destruct (H x Hx Q).
  - intros t x. destruct (store (mem s) a l) eqn:L; [|discriminate]. intros E [H|H]; [discriminate|]. injection E as <-. rewrite M. exact (store_out _ _ _ _ _ L H).
  - intros m H. rewrite E1. destruct (store (mem s) a l) as [m1|] eqn:L.
    + destruct (store_agree l (mem s) m a m1 H L) as (m2 & L2). rewrite L2. rewrite !P, !M. split; [reflexivity|]. intros x Hx. exact (store_in _ _ _ _ _ _ x L L2 Hx).
    + destruct (store m a l) eqn:L2; [|exact I]. destruct (store_agree l m (mem s) a _ (fun x Hx => eq_sym (H x Hx)) L2) as (m2 & L3). congruence.
  - intros _ m t t' x. rewrite E1. destruct (store (mem s) a l) as [m1|] eqn:L; [|discriminate]. destruct (store m a l) as [m2|] eqn:L2; [|discriminate].
    intros Q1 Q2. injection Q1 as <-. injection Q2 as <-. rewrite !M. exact (store_in _ _ _ _ _ _ x L L2).
Qed.

Lemma load_length n : forall m a l, load m a n = Some l -> List.length l = n.
Proof.
  induction n as [|n IH]; intros m a l E; cbn [load] in E; [injection E as <-; reflexivity|]. destruct (m a); [|discriminate]. destruct (load m (a + 1) n) eqn:Q; [|discriminate].
  injection E as <-. cbn [List.length]. f_equal. exact (IH _ _ _ Q).
Qed.
(** the step of a given instruction *)
Definition xexec (p : list xinstr) (args : N -> N) (s : xstate) (i : xinstr) : option xstate :=
  let g := xg s in let v := xv s in let m := xmem s in let pc := S (xpc s) in
  let setreg d x := Some {| xg := setg g d x; xv := v; xz := xz s; xmem := m; xpc := pc |} in
  let alu d x := Some {| xg := setg g d x; xv := v; xz := (x =? 0); xmem := m; xpc := pc |} in
  let flag z := Some {| xg := g; xv := v; xz := z; xmem := m; xpc := pc |} in
  let setx d lo := Some {| xg := g; xv := setv v d (lo, snd (v d)); xz := xz s; xmem := m; xpc := pc |} in
  let sety d y := Some {| xg := g; xv := setv v d y; xz := xz s; xmem := m; xpc := pc |} in
  let jump (c : bool) l := Some {| xg := g; xv := v; xz := xz s; xmem := m; xpc := if c then xlabel p l 0 else pc |} in
  let put a l := match store m a l with
                 | Some m' => Some {| xg := g; xv := v; xz := xz s; xmem := m'; xpc := pc |}
                 | None => None end in
  let ld16 a d := match load m a 16 with Some l => setx d l | None => None end in
    match i with
    | MOVQarg off d => setreg d (args off)
    | MOVQimm x d => setreg d x
    | MOVQ a d => setreg d (g a)
    | MOVQx a x => setx x (le_bytes 8 (g a) ++ le_bytes 8 0)
    | MOVOUld off b x => ld16 (word (g b + off)) x
    | MOVOUst x off b => put (word (g b + off)) (fst (v x))
    | MOVOU a d => setx d (fst (v a))
    | MOVOAld off b x => if (word (g b + off) mod 16 =? 0) then ld16 (word (g b + off)) x else None
    | MOVOAst x off b => if (word (g b + off) mod 16 =? 0) then put (word (g b + off)) (fst (v x)) else None
    | MOVOA a d => setx d (fst (v a))
    | PXOR a d => setx d (pxor (fst (v d)) (fst (v a)))
    | PAND a d => setx d (pand (fst (v d)) (fst (v a)))
    | PSHUFB a d => setx d (pshufb (fst (v d)) (fst (v a)))
    | PSRLQ4 d => setx d (psrlq4 (fst (v d)))
    | VMOVDQUld off b y => match load m (word (g b + off)) 32 with Some l => sety y (firstn 16 l, skipn 16 l) | None => None end
    | VMOVDQUst y off b => put (word (g b + off)) (fst (v y) ++ snd (v y))
    | VINSERTI128 x a d => sety d (fst (v a), fst (v x))
    | VPBROADCASTB x d => let b := nth 0 (fst (v x)) x00 in sety d (repeat b 16, repeat b 16)
    | VPSRLQ4 a d => sety d (psrlq4 (fst (v a)), psrlq4 (snd (v a)))
    | VPAND a b d => sety d (pand (fst (v b)) (fst (v a)), pand (snd (v b)) (snd (v a)))
    | VPXOR a b d => sety d (pxor (fst (v b)) (fst (v a)), pxor (snd (v b)) (snd (v a)))
    | VPSHUFB c t d => sety d (pshufb (fst (v t)) (fst (v c)), pshufb (snd (v t)) (snd (v c)))
    | VZEROUPPER => Some {| xg := g; xv := fun r => (fst (v r), repeat x00 16); xz := xz s; xmem := m; xpc := pc |}
    | SHRQ k d => alu d (N.shiftr (g d) k)
    | ANDQ x d => alu d (N.land (g d) x)
    | ORQ a d => alu d (N.lor (g d) (g a))
    | ADDQ x d => alu d (word (g d + x))
    | SUBQ x d => alu d (word (g d + 2 ^ 64 - x))
    | CMPQ a x => flag (g a =? x)
    | TESTQ a b => flag (N.land (g a) (g b) =? 0)
    | JEQ l | JZ l => jump (xz s) l
    | JNZ l => jump (negb (xz s)) l
    | JMP l => jump true l
    | LABEL _ => flag (xz s)
    | RET => None
    end.
Lemma xstep_exec p args s i : nth_error p (xpc s) = Some i -> xstep p args s = xexec p args s i.
Proof. intros E. unfold xstep, xexec. rewrite E. destruct i; reflexivity. Qed.
Definition aexec (p : list ainstr) (args : N -> N) (s : astate) (i : ainstr) : option astate :=
  let g := ag s in let v := av s in let m := amem s in let pc := S (apc s) in
  let setreg d x := Some {| ag := seta g d x; av := v; an := an s; amem := m; apc := pc |} in
  let sets d x := Some {| ag := g; av := setv v d x; an := an s; amem := m; apc := pc |} in
  let jump (c : bool) l := Some {| ag := g; av := v; an := an s; amem := m; apc := if c then alabel p l 0 else pc |} in
    match i with
    | MOVDarg off d => setreg d (args off)
    | MOVDimm x d => setreg d x
    | SUBS x d => let r := word (g d + 2 ^ 64 - x) in
        Some {| ag := seta g d r; av := v; an := N.testbit r 63; amem := m; apc := pc |}
    | BMI l => jump (an s) l
    | BPL l => jump (negb (an s)) l
    | ALABEL _ => jump false EmptyString
    | VLD1 b d => match load m (g b) 16 with Some l => sets d l | None => None end
    | VLD1x2 b d e => match load m (g b) 32 with
        | Some l => Some {| ag := g; av := setv (setv v d (firstn 16 l)) e (skipn 16 l); an := an s; amem := m; apc := pc |}
        | None => None end
    | VLD1Px2 b d e => match load m (g b) 32 with
        | Some l => Some {| ag := seta g b (word (g b + 32)); av := setv (setv v d (firstn 16 l)) e (skipn 16 l);
                            an := an s; amem := m; apc := pc |}
        | None => None end
    | VST1Px2 d e b => match store m (g b) (v d ++ v e) with
        | Some m' => Some {| ag := seta g b (word (g b + 32)); av := v; an := an s; amem := m'; apc := pc |}
        | None => None end
    | VMOVb0 r d => sets d (n2b (g r) :: skipn 1 (v d))
    | VDUPb0 a d => sets d (repeat (nth 0 (v a) x00) 16)
    | VUSHR4 a d => sets d (vushr4 (v a))
    | VAND a b d => sets d (pand (v b) (v a))
    | VEOR a b d => sets d (pxor (v b) (v a))
    | VTBL i t d => sets d (vtbl (v t) (v i))
    | ARET => None
    end.
Lemma astep_exec p args s i : nth_error p (apc s) = Some i -> astep p args s = aexec p args s i.
Proof. intros E. unfold astep, aexec. rewrite E. destruct i; reflexivity. Qed.
Local Opaque load store word.
Lemma xstep_acts p args s i : xwide s -> nth_error p (xpc s) = Some i -> acts_on (xstep p args) xmem xput s (xaccess i (xg s)).
Proof.
  destruct s as [g v z m pc]. intros W E. cbn [xpc xg] in *.
  assert (ST : forall m', xstep p args {| xg := g; xv := v; xz := z; xmem := m'; xpc := pc |} = xexec p args {| xg := g; xv := v; xz := z; xmem := m'; xpc := pc |} i) by (intros m'; apply xstep_exec; exact E). clear E.
  assert (LX : forall r, List.length (fst (v r)) = 16%nat) by (intros r; apply (W r)). assert (LY : forall r, List.length (snd (v r)) = 16%nat) by (intros r; apply (W r)).
  destruct i; cbn [xaccess]; try (intros m'; unfold xput; cbn [xg xv xz xmem xpc]; rewrite !ST; cbn [xexec xg xv xz xmem xpc]; try exact I; split; reflexivity).
  - eapply (acts_load _ xmem xput _ _ 16 true (fun l m => {| xg := g; xv := setv v x (l, snd (v x)); xz := z; xmem := m; xpc := S pc |}));
      [intros m'; exact (ST m')|exact (ST m)|discriminate|reflexivity|reflexivity].
  - eapply (acts_store _ xmem xput _ _ 16 true (fst (v x)) (fun m => {| xg := g; xv := v; xz := z; xmem := m; xpc := S pc |}));
      [apply LX|intros m'; exact (ST m')|exact (ST m)|discriminate|reflexivity|reflexivity].
  - eapply (acts_load _ xmem xput _ _ 16 (word (g b + off) mod 16 =? 0) (fun l m => {| xg := g; xv := setv v x (l, snd (v x)); xz := z; xmem := m; xpc := S pc |}));
      [intros m'; exact (ST m')|exact (ST m)|apply N.eqb_neq|reflexivity|reflexivity].
  - eapply (acts_store _ xmem xput _ _ 16 (word (g b + off) mod 16 =? 0) (fst (v x)) (fun m => {| xg := g; xv := v; xz := z; xmem := m; xpc := S pc |}));
      [apply LX|intros m'; exact (ST m')|exact (ST m)|apply N.eqb_neq|reflexivity|reflexivity].
  - eapply (acts_load _ xmem xput _ _ 32 true (fun l m => {| xg := g; xv := setv v y (firstn 16 l, skipn 16 l); xz := z; xmem := m; xpc := S pc |}));
      [intros m'; exact (ST m')|exact (ST m)|discriminate|reflexivity|reflexivity].
  - eapply (acts_store _ xmem xput _ _ 32 true (fst (v y) ++ snd (v y)) (fun m => {| xg := g; xv := v; xz := z; xmem := m; xpc := S pc |}));
      [rewrite app_length, LX, LY; reflexivity|intros m'; exact (ST m')|exact (ST m)|discriminate|reflexivity|reflexivity].
Qed.

Lemma astep_acts p args s i : awide s -> nth_error p (apc s) = Some i -> acts_on (astep p args) amem aput s (aaccess i (ag s)).
Proof.
  destruct s as [g v z m pc]. intros W E. cbn [apc ag] in *.
  assert (ST : forall m', astep p args {| ag := g; av := v; an := z; amem := m'; apc := pc |} = aexec p args {| ag := g; av := v; an := z; amem := m'; apc := pc |} i) by (intros m'; apply astep_exec; exact E). clear E. assert (LX : forall r, List.length (v r) = 16%nat) by exact W.
  destruct i; cbn [aaccess]; try (intros m'; unfold aput; cbn [ag av an amem apc]; rewrite !ST; cbn [aexec ag av an amem apc]; try exact I; split; reflexivity).
  - rename v0 into d. eapply (acts_load _ amem aput _ _ 16 true (fun l m => {| ag := g; av := setv v d l; an := z; amem := m; apc := S pc |}));
      [intros m'; exact (ST m')|exact (ST m)|discriminate|reflexivity|reflexivity].
  - rename v0 into d. eapply (acts_load _ amem aput _ _ 32 true (fun l m => {| ag := g; av := setv (setv v d (firstn 16 l)) w (skipn 16 l); an := z; amem := m; apc := S pc |}));
      [intros m'; exact (ST m')|exact (ST m)|discriminate|reflexivity|reflexivity].
  - rename v0 into d. eapply (acts_load _ amem aput _ _ 32 true (fun l m => {| ag := seta g b (word (g b + 32)); av := setv (setv v d (firstn 16 l)) w (skipn 16 l); an := z; amem := m; apc := S pc |}));
      [intros m'; exact (ST m')|exact (ST m)|discriminate|reflexivity|reflexivity].
  - rename v0 into d. eapply (acts_store _ amem aput _ _ 32 true (v d ++ v w) (fun m => {| ag := seta g b (word (g b + 32)); av := v; an := z; amem := m; apc := S pc |}));
      [rewrite app_length, !LX; reflexivity|intros m'; exact (ST m')|exact (ST m)|discriminate|reflexivity|reflexivity].
Qed.

(** full registers stay full *)
Lemma Some_inj {A} (a b : A) : Some a = Some b -> a = b.
Proof. intros E. injection E. auto. Qed.
Definition vwide (v : nat -> list byte * list byte) : Prop := forall r, List.length (fst (v r)) = 16%nat /\ List.length (snd (v r)) = 16%nat.
Lemma setv_wide v d a b : vwide v -> List.length a = 16%nat -> List.length b = 16%nat -> vwide (setv v d (a, b)).
Proof. intros H L1 L2 r. unfold setv. destruct (Nat.eqb r d); [split; assumption|apply H]. Qed.
Lemma xstep_wide p args s t : xwide s -> xstep p args s = Some t -> xwide t.
Proof.
  destruct s as [g v z m pc]. intros W. unfold xwide in W. cbn [xv] in W. fold (vwide v) in W. unfold xstep. cbn [xg xz xpc xmem xv].
  assert (LX : forall r, List.length (fst (v r)) = 16%nat) by (intros r; apply (W r)). assert (LY : forall r, List.length (snd (v r)) = 16%nat) by (intros r; apply (W r)).
  assert (LL : forall a d z pc t, match load m a 16 with Some l => Some {| xg := g; xv := setv v d (l, snd (v d)); xz := z; xmem := m; xpc := pc |} | None => None end = Some t -> xwide t).
  { intros a d z0 pc0 t0. destruct (load m a 16) eqn:Q; [|discriminate]. intros E. injection E as <-. exact (setv_wide v d l (snd (v d)) W (load_length _ _ _ _ Q) (LY d)). }
  assert (SS : forall a l z pc t, match store m a l with Some m' => Some {| xg := g; xv := v; xz := z; xmem := m'; xpc := pc |} | None => None end = Some t -> xwide t).
  { intros a l z0 pc0 t0. destruct (store m a l) eqn:Q; [|discriminate]. intros E. injection E as <-. exact W. }
  destruct (nth_error p pc) as [i|]; [|discriminate].
  destruct i; cbv beta zeta; try discriminate; try (apply LL); try (apply SS);
    try (intros E; injection E as <-; first [exact W | apply setv_wide; [exact W| |]; unfold pxor, pand, pshufb; rewrite ?map2_len, ?map_length, ?psrlq4_len, ?app_length, ?le_bytes_len, ?repeat_length, ?LX, ?LY; reflexivity]).
  - destruct (_ =? 0); [apply LL|discriminate].
  - destruct (_ =? 0); [apply SS|discriminate].
  - destruct (load m _ 32) eqn:Q; [|discriminate]. intros E. apply Some_inj in E as <-. apply load_length in Q. apply setv_wide; [exact W|cbn [fst]; rewrite firstn_length, Q; reflexivity|cbn [snd]; rewrite skipn_length, Q; reflexivity].
  - intros E. injection E as <-. intros r. cbn [xv fst snd]. split; [apply LX|reflexivity].
Qed.
Lemma setv1_wide (v : nat -> list byte) d a : (forall r, List.length (v r) = 16%nat) -> List.length a = 16%nat -> forall r, List.length (setv v d a r) = 16%nat.
Proof. intros H L1 r. unfold setv. destruct (Nat.eqb r d); [assumption|apply H]. Qed.
Lemma astep_wide p args s t : awide s -> astep p args s = Some t -> awide t.
Proof.
  destruct s as [g v z m pc]. intros W. unfold awide in W. cbn [av] in W. unfold astep. cbn [ag an apc amem av].
  destruct (nth_error p pc) as [i|]; [|discriminate].
  destruct i; cbv beta zeta; try discriminate.
  all: try (intros E; injection E as <-; first [exact W | unfold awide; cbn [av]; apply setv1_wide; [exact W|]; unfold pxor, pand, vtbl, vushr4; cbn [List.length]; rewrite ?map2_len, ?map_length, ?skipn_length, ?repeat_length, ?W; reflexivity]).
  - destruct (load m _ 16) eqn:Q; [|discriminate]. intros E. injection E as <-. apply load_length in Q. unfold awide. cbn [av]. apply setv1_wide; assumption.
  - destruct (load m _ 32) eqn:Q; [|discriminate]. intros E. apply Some_inj in E as <-. apply load_length in Q. unfold awide. cbn [av].
    apply setv1_wide; [apply setv1_wide; [exact W|]|]; rewrite ?firstn_length, ?skipn_length, Q; reflexivity.
  - destruct (load m _ 32) eqn:Q; [|discriminate]. intros E. apply Some_inj in E as <-. apply load_length in Q. unfold awide. cbn [av].
    apply setv1_wide; [apply setv1_wide; [exact W|]|]; rewrite ?firstn_length, ?skipn_length, Q; reflexivity.
  - destruct (store m _ _) eqn:Q; [|discriminate]. intros E. injection E as <-. exact W.
  - intros E. apply Some_inj in E as <-. unfold awide. cbn [av]. apply setv1_wide; [exact W|]. change (List.length (n2b (g s) :: skipn 1 (v v0))) with (S (List.length (skipn 1 (v v0)))). rewrite skipn_length, W. reflexivity.
Qed.

Lemma xtrace_faithful p args n : forall s k, xwide s -> match nth_error (xtrace p args n s) k with
  | Some (pc, acc) => exists s', steps (xstep p args) k s = Some s' /\ pc = xpc s' /\ acts_on (xstep p args) xmem xput s' acc
  | None => (k < n)%nat -> match steps (xstep p args) k s with Some s' => nth_error p (xpc s') = None | None => True end
  end.
Proof.
  induction n as [|n IH]; intros s k W; [destruct k; cbn; intros; exfalso; lia|]. cbn [xtrace]. destruct (nth_error p (xpc s)) as [i|] eqn:E.
  - destruct k as [|k]; cbn [nth_error steps].
    + exists s. split; [reflexivity|]. split; [reflexivity|]. apply xstep_acts; assumption.
    + destruct (xstep p args s) as [t|] eqn:St.
      * specialize (IH t k (xstep_wide _ _ _ _ W St)). destruct (nth_error (xtrace p args n t) k) as [[pc acc]|]; [exact IH|]. intros L. apply IH. lia.
      * destruct k; cbn; exact (fun _ => I).
  - destruct k as [|k]; cbn [nth_error steps]; intros _; [exact E|]. unfold xstep. rewrite E. exact I.
Qed.
Lemma atrace_faithful p args n : forall s k, awide s -> match nth_error (atrace p args n s) k with
  | Some (pc, acc) => exists s', steps (astep p args) k s = Some s' /\ pc = apc s' /\ acts_on (astep p args) amem aput s' acc
  | None => (k < n)%nat -> match steps (astep p args) k s with Some s' => nth_error p (apc s') = None | None => True end
  end.
Proof.
  induction n as [|n IH]; intros s k W; [destruct k; cbn; intros; exfalso; lia|]. cbn [atrace]. destruct (nth_error p (apc s)) as [i|] eqn:E.
  - destruct k as [|k]; cbn [nth_error steps].
    + exists s. split; [reflexivity|]. split; [reflexivity|]. apply astep_acts; assumption.
    + destruct (astep p args s) as [t|] eqn:St.
      * specialize (IH t k (astep_wide _ _ _ _ W St)). destruct (nth_error (atrace p args n t) k) as [[pc acc]|]; [exact IH|]. intros L. apply IH. lia.
      * destruct k; cbn; exact (fun _ => I).
  - destruct k as [|k]; cbn [nth_error steps]; intros _; [exact E|]. unfold astep. rewrite E. exact I.
Qed.
