(** Model of main.go: the demonstration program. A run is the list of lines it prints and how it ends: [Ret tt] is the normal end, [Fail e] is
    [log.Fatalf] (exit status 1) after the error [e]. Measured times are not modelled: the line of a measurement is reduced
    to the message length it prints. *)
From Coq Require Import List NArith ZArith Lia Arith Bool String.
From Coq.Init Require Import Byte.
From Verif Require Import GoSem Bytes Vector Pool Polynomial Shamir.
Import ListNotations.

(** The random choices and pool buffers of one call of Split. (shamir/shamir.go:49-99) *)
Record rnd := { r_perm : list nat; r_stream : nat -> byte; r_pol : bbuf; r_tr : bbuf; r_ev : nat -> bbuf }.

(** Split with these choices. (main.go:27 and main.go:50) *)
Definition splitR (ar : arch) (growcap : nat -> nat -> nat) (r : rnd) (secret : list byte) (parts threshold : Z) :=
  Split ar growcap (r_perm r) (r_stream r) (r_pol r) (r_tr r) (r_ev r) secret parts threshold.

(** main.go:39-40 (a line of text), 60 (line of the sharing measurement), 90 (line of the encryption measurement) *)
Inductive event := Line (s : list byte) | Sharing (msgLen : N) | Encryption (msgLen : N).

(** What a run of main.go:16-24 prints, and how it ends *)
Definition run := (list event * outcome unit)%type.

(** [a] then, if it ended normally, [b]. (sequencing in main.go:16-24) *)
Definition andThen (a b : run) : run :=
  match a with
  | (ev, Ret _) => let (ev', o) := b in (ev ++ ev', o)
  | _ => a
  end.

(** main.go:26-41 [checkSecretSharing] *)
Definition checkSecretSharing ar growcap (r : rnd) (msg : list byte) (part threshold : Z) : run :=
  match (do shares <- splitR ar growcap r msg part threshold; Combine shares) with
  | Ret origMsg => ([Line msg; Line origMsg], Ret tt)
  | Fail e => ([], Fail e)
  | Panic p => ([], Panic p)
  | UB => ([], UB)
  | Diverge => ([], Diverge)
  end.

(** main.go:44-64 [measureSecretSharingLatency]: [rs round i] are the random choices of call [i] in round [round]. *)
Fixpoint measureSharing (fuel : nat) ar growcap (rs : nat -> nat -> rnd) (round : nat) (msg : list byte) (msgLenMax repetition : Z) : run :=
  if (Z.of_nat (List.length msg) <=? msgLenMax)%Z then
    match fuel with
    | O => ([], Diverge)
    | S fuel =>
      match foreach (seq 0 (Z.to_nat repetition)) (fun i _ => do _ <- splitR ar growcap (rs round i) msg 4 2; Ret tt) tt with
      | Ret _ => andThen ([Sharing (N.of_nat (List.length msg))], Ret tt)
                         (measureSharing fuel ar growcap rs (S round) (msg ++ msg) msgLenMax repetition)
      | Fail e => ([], Fail e)
      | Panic p => ([], Panic p)
      | UB => ([], UB)
      | Diverge => ([], Diverge)
      end
    end
  else ([], Ret tt).

(** main.go:67-94 [measureEncryptionLatency]: the key has 16 bytes, so NewCipher succeeds; [ivOk round i] says whether
    crypto/rand delivered an IV (otherwise the function returns). The ciphertexts are dropped (DEBUG is false) and not modelled. *)
Fixpoint measureEncryption (fuel : nat) (ivOk : nat -> nat -> bool) (round : nat) (msg : list byte) (msgLenMax repetition : Z) : run :=
  if (Z.of_nat (List.length msg) <=? msgLenMax)%Z then
    match fuel with
    | O => ([], Diverge)
    | S fuel =>
      if forallb (ivOk round) (seq 0 (Z.to_nat repetition)) then
        andThen ([Encryption (N.of_nat (List.length msg))], Ret tt)
                (measureEncryption fuel ivOk (S round) (msg ++ msg) msgLenMax repetition)
      else ([], Ret tt)
    end
  else ([], Ret tt).

(** main.go:17 *)
Definition mainMsg : list byte :=
  list_byte_of_string "A quick brown fox jumped over the lazy dog.aaaaaaaaaaaaaaaaaaaaa".

(** main.go:16-24 [main] *)
Definition mainRun (fuel : nat) ar growcap (r : rnd) (rs : nat -> nat -> rnd) (ivOk : nat -> nat -> bool) : run :=
  andThen (checkSecretSharing ar growcap r mainMsg 4 2)
    (andThen (measureSharing fuel ar growcap rs 0 mainMsg 32768 1000)
             (measureEncryption fuel ivOk 0 mainMsg 32768 1000)).
