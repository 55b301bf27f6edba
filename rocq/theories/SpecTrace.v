(** Specification vocabulary for C66: what the access pattern shows. *)
From Coq Require Import List NArith ZArith Lia Arith Bool.
From Coq.Init Require Import Byte.
From Verif Require Import Bytes Spec Vector Asm Trace.
Import ListNotations.

(** How many bytes at the end of a vector of [len] bytes MulConstVector treats one by one, with a table lookup each. On amd64 with SSSE3 (but
    not AVX2) a length that is a multiple of 16 is looked up completely (again, after the vector code has done it); with AVX2 a rest of exactly
    32 bytes is. *)
Definition scalarPart (ar : arch) (len : nat) : nat :=
  match ar with
  | ArchGeneric => len
  | ArchAmd64 _ ssse3 avx2 =>
      if avx2 then (let r := if 128 <=? len then len mod 64 else len in if 32 <? r then r mod 32 else r)
      else if ssse3 then (if len mod 16 =? 0 then len else len mod 16)
      else len
  | ArchArm64 => len mod 32
  end.

(** the last [k] bytes *)
Definition lastBytes (k : nat) (l : list byte) : list byte := skipn (length l - k) l.

(** The records of MulConstVector(c, v): all assembler builds test whether c is 1, then only copying. *)
Definition mulRecords (ar : arch) (c : byte) (v : list byte) : list event :=
  match ar with
  | ArchGeneric => map (fun b => MulT b c) v
  | _ => Branch (beq c x01) :: if beq c x01 then [] else map (fun b => MulT c b) (lastBytes (scalarPart ar (length v)) v)
  end.

(** Two memories in which the same addresses are mapped. *)
Definition same_map (m1 m2 : N -> option byte) : Prop := forall a, m1 a = None <-> m2 a = None.

(** The records of Split with these polynomials (lowest coefficient first, one per byte of the secret) and share tags: at every tag x, going
    down from the highest coefficient, the vector of values so far is multiplied by x. *)
Definition splitRecords (ar : arch) (t : nat) (polys : list (list byte)) (tags : list byte) : list event :=
  flat_map (fun x => flat_map (fun k => mulRecords ar x (map (fun p => peval (skipn (S k) p) x) polys)) (rev (seq 0 (t - 1)))) tags.

(** the conditional jumps among the records *)
Definition branches (l : list event) : list event := filter (fun e => match e with Branch _ => true | _ => false end) l.

(** Two states of the amd64 machine that agree on everything but the bytes in memory and in the vector registers: same general registers (the
    pointers and lengths), zero flag, program counter and mapped addresses. *)
Definition xlike (s1 s2 : xstate) : Prop :=
  xg s1 = xg s2 /\ xz s1 = xz s2 /\ xpc s1 = xpc s2 /\ same_map (xmem s1) (xmem s2) /\
  forall r, length (fst (xv s1 r)) = length (fst (xv s2 r)) /\ length (snd (xv s1 r)) = length (snd (xv s2 r)).
(** the same for arm64 *)
Definition alike (s1 s2 : astate) : Prop :=
  ag s1 = ag s2 /\ an s1 = an s2 /\ apc s1 = apc s2 /\ same_map (amem s1) (amem s2) /\ forall r, length (av s1 r) = length (av s2 r).

(** [k] steps of a machine *)
Fixpoint steps {S : Type} (step : S -> option S) (k : nat) (s : S) : option S :=
  match k with O => Some s | Datatypes.S j => match step s with Some t => steps step j t | None => None end end.

(** The record [acc] (address, number of bytes, whether it is a store) says exactly what the next step does to memory. No record: memory is not
    changed and does not matter. A record: a fault if one of the bytes is not mapped, none if they all are (except that some instructions fault
    at addresses that are not multiples of 16); no byte outside the range, or for a load no byte at all, is changed; memory outside the range does
    not matter; what a store leaves in the range does not depend on what was in memory. *)
Definition acts_on {S : Type} (step : S -> option S) (mem : S -> memory) (put : S -> memory -> S) (s : S) (acc : option (N * nat * bool)) : Prop :=
  match acc with
  | None => forall m, match step s, step (put s m) with Some t, Some t' => mem t = mem s /\ t' = put t m | None, None => True | _, _ => False end
  | Some (a, n, isStore) =>
      let inside x := (a <= x < a + N.of_nat n)%N in
      let mapped (m : memory) := forall x, inside x -> m x <> None in
      (step s <> None -> mapped (mem s)) /\
      (mapped (mem s) -> step s = None -> (a mod 16 <> 0)%N) /\
      (forall t x, step s = Some t -> isStore = false \/ ~ inside x -> mem t x = mem s x) /\
      (forall m, (forall x, inside x -> m x = mem s x) ->
         match step s, step (put s m) with Some t, Some t' => put t m = put t' m /\ (forall x, inside x -> mem t x = mem t' x) | None, None => True | _, _ => False end) /\
      (isStore = true -> forall m t t' x, step s = Some t -> step (put s m) = Some t' -> inside x -> mem t x = mem t' x)
  end.
(** a state with another memory *)
Definition xput (s : xstate) (m : memory) : xstate := {| xg := xg s; xv := xv s; xz := xz s; xmem := m; xpc := xpc s |}.
Definition aput (s : astate) (m : memory) : astate := {| ag := ag s; av := av s; an := an s; amem := m; apc := apc s |}.
(** all vector registers are full *)
Definition xwide (s : xstate) : Prop := forall r, length (fst (xv s r)) = 16 /\ length (snd (xv s r)) = 16.
Definition awide (s : astate) : Prop := forall r, length (av s r) = 16.
