(** Model of [SplitP] (shamir/shamir.go:290-364): a machine whose threads are the calling goroutine and one goroutine per
    chunk of 1024 secret bytes. One transition is: for the caller, one iteration of the spawning loop or the return from
    [wg.Wait]; for a goroutine, one [makePolynomial] (whose [rand.Read] is atomic: math/rand's global source is locked),
    one store [out[i][crtIdx] = y], the advance to the next value, or its end ([wg.Done]).
    [uint32] arithmetic is explicit. *)
From Coq Require Import List NArith ZArith Lia Arith Bool.
From Coq.Init Require Import Byte.
From Verif Require Import GoSem Bytes Galois Polynomial Shamir.
Import ListNotations.

(** conversion to [uint32]. (shamir/shamir.go:324-325) *)
Definition u32 (n : N) : N := (n mod 4294967296)%N.

(** A goroutine (shamir/shamir.go:335-354): [w_crt] is crtIdx, [w_vals] the values still to be processed (the current one
    included), [w_cur] the current polynomial and the loop variable [i], if it has been drawn; [w_done]: [wg.Done] was called. *)
Record worker : Type := { w_crt : N; w_vals : list byte; w_cur : option (list byte * nat); w_done : bool }.

(** the caller: in the loop of shamir/shamir.go:327-358 with the current [idx], in [wg.Wait] (line 360), or returned *)
Inductive mainpc : Type := MLoop (i : N) | MWait | MReturned.

(** The state of a call, shamir/shamir.go:314-360: where the caller is, the goroutines, how many random bytes were drawn, [out] *)
Record pstate : Type := { p_main : mainpc; p_workers : list worker; p_rpos : nat; p_out : list (list byte) }.

(** Result of asking a thread for its next transition. (shamir/shamir.go:290-364) *)
Inductive stepres : Type := Blocked | Next (s : pstate) | Crash (p : panic).

(** a step whose expression may panic (shamir/shamir.go:339-354) *)
Definition crashOr {A : Type} (o : outcome A) (k : A -> stepres) : stepres :=
  match o with Ret a => k a | Panic p => Crash p | _ => Blocked end.

Section Machine.
  Variables (secret : list byte) (parts : nat) (degree : byte) (xs : list byte) (stream : nat -> byte).

  (** shamir/shamir.go:325 [secretLen := uint32(len(secret))] *)
  Definition secretLen : N := u32 (N.of_nat (length secret)).

  (** shamir/shamir.go:329-332 *)
  Definition chunkEnd (i : N) : N :=
    let e := u32 (i + 1024) in if (secretLen <? e)%N then secretLen else e.

  (** shamir/shamir.go:327-362, the calling goroutine *)
  Definition mainStep (s : pstate) : stepres :=
    match p_main s with
    | MLoop i =>
      if (i <? secretLen)%N then
        let e := chunkEnd i in
        crashOr (slice secret (N.to_nat i) (N.to_nat e)) (fun values =>
          Next {| p_main := MLoop e;
                  p_workers := p_workers s ++ [{| w_crt := i; w_vals := values; w_cur := None; w_done := false |}];
                  p_rpos := p_rpos s; p_out := p_out s |})
      else Next {| p_main := MWait; p_workers := p_workers s; p_rpos := p_rpos s; p_out := p_out s |}
    | MWait =>
      if forallb w_done (p_workers s)
      then Next {| p_main := MReturned; p_workers := p_workers s; p_rpos := p_rpos s; p_out := p_out s |}
      else Blocked
    | MReturned => Blocked
    end.

  Definition setWorker (s : pstate) (k : nat) (w : worker) (rpos : nat) (out : list (list byte)) : stepres :=
    crashOr (upd (p_workers s) k w) (fun ws =>
      Next {| p_main := p_main s; p_workers := ws; p_rpos := rpos; p_out := out |}).

  (** shamir/shamir.go:335-354, goroutine number [k] *)
  Definition workerStep (k : nat) (s : pstate) : stepres :=
    match nth_error (p_workers s) k with
    | None => Blocked
    | Some w =>
      if w_done w then Blocked else
      match w_cur w with
      | None =>
        match w_vals w with
        | [] => setWorker s k {| w_crt := w_crt w; w_vals := []; w_cur := None; w_done := true |} (p_rpos s) (p_out s)
        | val :: _ =>
          crashOr (makePolynomial val degree (fun j => stream (p_rpos s + j))) (fun p =>
            setWorker s k {| w_crt := w_crt w; w_vals := w_vals w; w_cur := Some (p, 0); w_done := false |}
              (p_rpos s + (length p - 1)) (p_out s))
        end
      | Some (p, i) =>
        if i <? parts then
          crashOr (do x <- tagOf xs i; do y <- evaluate p x; upd2 (p_out s) i (N.to_nat (w_crt w)) y) (fun out =>
            setWorker s k {| w_crt := w_crt w; w_vals := w_vals w; w_cur := Some (p, S i); w_done := false |} (p_rpos s) out)
        else
          setWorker s k {| w_crt := u32 (w_crt w + 1); w_vals := tl (w_vals w); w_cur := None; w_done := false |}
            (p_rpos s) (p_out s)
      end
    end.

  (** thread 0 is the caller, thread [S k] the k-th goroutine *)
  Definition pstep (thread : nat) (s : pstate) : stepres :=
    match thread with O => mainStep s | S k => workerStep k s end.

  (** executions: the scheduler picks at each transition any thread that is not blocked *)
  Inductive execution : pstate -> list nat -> pstate -> Prop :=
  | ex_nil s : execution s [] s
  | ex_cons s th s1 sched s' : pstep th s = Next s1 -> execution s1 sched s' -> execution s (th :: sched) s'.
End Machine.

(** shamir/shamir.go:314-326: state before the loop *)
Definition pinit (out : list (list byte)) : pstate :=
  {| p_main := MLoop 0; p_workers := []; p_rpos := 0; p_out := out |}.

(** shamir/shamir.go:290-364 [SplitP]: the outcomes of all executions, for a given [perm] of [rand.Perm(255)] and a given
    random stream. [sched] is the schedule that leads to the outcome. *)
Inductive SplitP (perm : list nat) (stream : nat -> byte) (secret : list byte) (parts threshold : Z)
  : list nat -> outcome (list (list byte)) -> Prop :=
| SP_fail e : checkArgs secret parts threshold = Some e -> SplitP perm stream secret parts threshold [] (Fail e)
| SP_panic0 p : checkArgs secret parts threshold = None ->
    layoutRows (length secret) (Z.to_nat parts) (map i2b perm) = Panic p ->
    SplitP perm stream secret parts threshold [] (Panic p)
| SP_return out sched s : checkArgs secret parts threshold = None ->
    layoutRows (length secret) (Z.to_nat parts) (map i2b perm) = Ret out ->
    execution secret (Z.to_nat parts) (z2b (threshold - 1)) (map i2b perm) stream (pinit out) sched s ->
    p_main s = MReturned ->
    SplitP perm stream secret parts threshold sched (Ret (p_out s))
| SP_crash out sched s th p : checkArgs secret parts threshold = None ->
    layoutRows (length secret) (Z.to_nat parts) (map i2b perm) = Ret out ->
    execution secret (Z.to_nat parts) (z2b (threshold - 1)) (map i2b perm) stream (pinit out) sched s ->
    pstep secret (Z.to_nat parts) (z2b (threshold - 1)) (map i2b perm) stream th s = Crash p ->
    SplitP perm stream secret parts threshold (sched ++ [th]) (Panic p).

(** ** The same machine as a function of the schedule. (shamir/shamir.go:290-364) *)
Fixpoint runSched (secret : list byte) (parts : nat) (degree : byte) (xs : list byte) (stream : nat -> byte)
         (sched : list nat) (s : pstate) : stepres :=
  match sched with
  | [] => Next s
  | th :: rest =>
    match pstep secret parts degree xs stream th s with
    | Next s1 => runSched secret parts degree xs stream rest s1
    | Crash p => match rest with [] => Crash p | _ => Blocked end
    | Blocked => Blocked
    end
  end.

(** the outcome of [SplitP] under the complete schedule [sched]; [None] if [sched] is not a complete schedule of the call. (shamir/shamir.go:290-364) *)
Definition SplitPRun (perm : list nat) (stream : nat -> byte) (secret : list byte) (parts threshold : Z) (sched : list nat)
  : option (outcome (list (list byte))) :=
  match checkArgs secret parts threshold with
  | Some e => match sched with [] => Some (Fail e) | _ => None end
  | None =>
    match layoutRows (length secret) (Z.to_nat parts) (map i2b perm) with
    | Ret out =>
      match runSched secret (Z.to_nat parts) (z2b (threshold - 1)) (map i2b perm) stream sched (pinit out) with
      | Next s => match p_main s with MReturned => Some (Ret (p_out s)) | _ => None end
      | Crash p => Some (Panic p)
      | Blocked => None
      end
    | Panic p => match sched with [] => Some (Panic p) | _ => None end
    | _ => None
    end
  end.
