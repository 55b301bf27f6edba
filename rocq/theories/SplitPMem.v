(** [SplitP] (shamir/shamir.go:290-364) run on memory: the machine of SplitP.v, in which the goroutines read the secret and write the shares
    through slices of arrays on the heap. Simplification: a polynomial is private to its goroutine and kept as a value. *)
From Coq Require Import List NArith ZArith Lia Arith Bool.
From Coq.Init Require Import Byte.
From Verif Require Import GoSem Bytes Polynomial Shamir SplitP Memory MemCalls.
Import ListNotations.

(** A goroutine (shamir/shamir.go:335-354): [mw_crt] is crtIdx, [mw_values] its argument values, a slice of the secret, [mw_pos] how far the [range] over
    it has come, [mw_cur] the current polynomial and the loop variable [i], if it has been drawn; [mw_done]: [wg.Done] was called. *)
Record mworker : Type := { mw_crt : N; mw_values : gslice; mw_pos : nat; mw_cur : option (list byte * nat); mw_done : bool }.

(** The state of a call, shamir/shamir.go:314-360: where the caller is, the goroutines, how many random bytes were drawn, the memory *)
Record mpstate : Type := { mp_main : mainpc; mp_workers : list mworker; mp_rpos : nat; mp_mem : memory }.

(** Result of asking a thread for its next transition. (shamir/shamir.go:290-364) *)
Inductive mstepres : Type := MBlocked | MNext (s : mpstate) | MCrash (p : panic).

(** a step whose expression may panic (shamir/shamir.go:339-354) *)
Definition mcrashOr {A : Type} (r : memory * outcome A) (k : memory -> A -> mstepres) : mstepres :=
  match r with (m, Ret a) => k m a | (_, Panic p) => MCrash p | _ => MBlocked end.

(** shamir/shamir.go:314-318: one array per share, with its tag *)
Definition mLayoutRows (N parts : nat) (xs : list byte) : M (list gslice) :=
  mforeach (seq 0 parts)
    (fun i out =>
       mdo w <- mmake (N + 1);
       mdo t <- mlift (tagOf xs i);
       mdo _ <- mstore w N t;
       mret (out ++ [w])) [].

Section Machine.
  Variables (secret : gslice) (parts : nat) (degree : byte) (xs : list byte) (stream : nat -> byte) (out : list gslice).

  (** shamir/shamir.go:325 [secretLen := uint32(len(secret))] *)
  Definition msecretLen : N := u32 (N.of_nat (sl_len secret)).
  (** shamir/shamir.go:329-332 *)
  Definition mchunkEnd (i : N) : N := let e := u32 (i + 1024) in if (msecretLen <? e)%N then msecretLen else e.

  (** shamir/shamir.go:327-362, the calling goroutine *)
  Definition mmainStep (s : mpstate) : mstepres :=
    match mp_main s with
    | MLoop i =>
      if (i <? msecretLen)%N then
        let e := mchunkEnd i in
        mcrashOr (mslice secret (N.to_nat i) (N.to_nat e) (mp_mem s)) (fun m values =>
          MNext {| mp_main := MLoop e;
                   mp_workers := mp_workers s ++ [{| mw_crt := i; mw_values := values; mw_pos := 0; mw_cur := None; mw_done := false |}];
                   mp_rpos := mp_rpos s; mp_mem := m |})
      else MNext {| mp_main := MWait; mp_workers := mp_workers s; mp_rpos := mp_rpos s; mp_mem := mp_mem s |}
    | MWait =>
      if forallb mw_done (mp_workers s)
      then MNext {| mp_main := MReturned; mp_workers := mp_workers s; mp_rpos := mp_rpos s; mp_mem := mp_mem s |}
      else MBlocked
    | MReturned => MBlocked
    end.

  (** shamir/shamir.go:335-354: the new state of goroutine number [k] *)
  Definition msetWorker (s : mpstate) (k : nat) (w : mworker) (rpos : nat) (m : memory) : mstepres :=
    mcrashOr (m, upd (mp_workers s) k w) (fun m ws =>
      MNext {| mp_main := mp_main s; mp_workers := ws; mp_rpos := rpos; mp_mem := m |}).

  (** shamir/shamir.go:335-354, goroutine number [k] *)
  Definition mworkerStep (k : nat) (s : mpstate) : mstepres :=
    match nth_error (mp_workers s) k with
    | None => MBlocked
    | Some w =>
      if mw_done w then MBlocked else
      match mw_cur w with
      | None =>
        if mw_pos w <? sl_len (mw_values w) then
          mcrashOr (mload (mw_values w) (mw_pos w) (mp_mem s)) (fun m val =>
            mcrashOr (m, makePolynomial val degree (fun j => stream (mp_rpos s + j))) (fun m p =>
              msetWorker s k {| mw_crt := mw_crt w; mw_values := mw_values w; mw_pos := mw_pos w; mw_cur := Some (p, 0); mw_done := false |}
                (mp_rpos s + (length p - 1)) m))
        else msetWorker s k {| mw_crt := mw_crt w; mw_values := mw_values w; mw_pos := mw_pos w; mw_cur := None; mw_done := true |} (mp_rpos s) (mp_mem s)
      | Some (p, i) =>
        if i <? parts then
          mcrashOr ((mdo x <- mlift (tagOf xs i);
                     mdo y <- mlift (evaluate p x);
                     mdo w' <- mlift (idx out i);
                     mstore w' (N.to_nat (mw_crt w)) y) (mp_mem s)) (fun m _ =>
            msetWorker s k {| mw_crt := mw_crt w; mw_values := mw_values w; mw_pos := mw_pos w; mw_cur := Some (p, S i); mw_done := false |} (mp_rpos s) m)
        else
          msetWorker s k {| mw_crt := u32 (mw_crt w + 1); mw_values := mw_values w; mw_pos := S (mw_pos w); mw_cur := None; mw_done := false |}
            (mp_rpos s) (mp_mem s)
      end
    end.

  (** thread 0 is the caller, thread [S k] the k-th goroutine. (shamir/shamir.go:327-360) *)
  Definition mpstep (thread : nat) (s : mpstate) : mstepres :=
    match thread with O => mmainStep s | S k => mworkerStep k s end.

  (** executions: the scheduler picks at each transition any thread that is not blocked. (shamir/shamir.go:327-360) *)
  Inductive mexecution : mpstate -> list nat -> mpstate -> Prop :=
  | mex_nil s : mexecution s [] s
  | mex_cons s th s1 sched s' : mpstep th s = MNext s1 -> mexecution s1 sched s' -> mexecution s (th :: sched) s'.
End Machine.

(** shamir/shamir.go:314-326: state before the loop *)
Definition mpinit (m : memory) : mpstate := {| mp_main := MLoop 0; mp_workers := []; mp_rpos := 0; mp_mem := m |}.

(** shamir/shamir.go:290-364 [SplitP] from memory [m]: the outcomes of all executions, with the memory they leave *)
Inductive mSplitP (perm : list nat) (stream : nat -> byte) (secret : gslice) (parts threshold : Z) (m : memory)
  : list nat -> memory * outcome (list gslice) -> Prop :=
| MSP_fail e : checkArgs (mcontents m secret) parts threshold = Some e -> mSplitP perm stream secret parts threshold m [] (m, Fail e)
| MSP_panic0 m1 p : checkArgs (mcontents m secret) parts threshold = None ->
    mLayoutRows (sl_len secret) (Z.to_nat parts) (map i2b perm) m = (m1, Panic p) ->
    mSplitP perm stream secret parts threshold m [] (m1, Panic p)
| MSP_return m1 out sched s : checkArgs (mcontents m secret) parts threshold = None ->
    mLayoutRows (sl_len secret) (Z.to_nat parts) (map i2b perm) m = (m1, Ret out) ->
    mexecution secret (Z.to_nat parts) (z2b (threshold - 1)) (map i2b perm) stream out (mpinit m1) sched s ->
    mp_main s = MReturned ->
    mSplitP perm stream secret parts threshold m sched (mp_mem s, Ret out)
| MSP_crash m1 out sched s th p : checkArgs (mcontents m secret) parts threshold = None ->
    mLayoutRows (sl_len secret) (Z.to_nat parts) (map i2b perm) m = (m1, Ret out) ->
    mexecution secret (Z.to_nat parts) (z2b (threshold - 1)) (map i2b perm) stream out (mpinit m1) sched s ->
    mpstep secret (Z.to_nat parts) (z2b (threshold - 1)) (map i2b perm) stream out th s = MCrash p ->
    mSplitP perm stream secret parts threshold m (sched ++ [th]) (mp_mem s, Panic p).
