(** Specification vocabulary for the krawczyk package and the worker. *)
From Coq Require Import List NArith ZArith Lia Arith Bool.
From Coq.Init Require Import Byte.
From Verif Require Import GoSem Bytes Spec.
Import ListNotations.

(** Arguments for which krawczyk.Split succeeds. [zp]: does the installed Reed-Solomon library accept zero parity shards? *)
Definition kr_valid_args (zp : bool) (secret : list byte) (parts threshold : Z) : Prop :=
  secret <> [] /\ (Z.of_nat (length secret) <= 4294967295)%Z /\ (2 <= threshold)%Z /\ (threshold <= parts)%Z /\ (parts <= 255)%Z /\
  (zp = true \/ threshold < parts)%Z.

(** Which error is reported, in the order of the checks. *)
Definition kr_arg_error (zp : bool) (secret : list byte) (n t : Z) (e : err) : Prop :=
  let L := Z.of_nat (length secret) in
  (e = ESecretTooLarge /\ (4294967295 < L)%Z) \/
  (e = EZeroParam /\ (L <= 4294967295)%Z /\ (t = 0 \/ n = 0)%Z) \/
  (e = EThresholdGtParts /\ (L <= 4294967295 /\ t <> 0 /\ n <> 0 /\ n < t)%Z) \/
  (e = EParamsTooBig /\ (L <= 4294967295 /\ t <> 0 /\ n <> 0 /\ t <= n /\ 255 < n)%Z) \/
  (e = ERSInvShardNum /\ (L <= 4294967295 /\ t <> 0 /\ n <> 0 /\ t <= n <= 255)%Z /\ ((t < 0)%Z \/ (t = n /\ zp = false))) \/
  (e = ERSShortData /\ secret = [] /\ (0 < t <= n)%Z /\ (n <= 255)%Z /\ (zp = true \/ t < n)%Z) \/
  (e = EThresholdSmall /\ secret <> [] /\ (L <= 4294967295)%Z /\ t = 1%Z /\ (1 <= n <= 255)%Z /\ (zp = true \/ t < n)%Z).

(** the elements of a list that are present *)
Fixpoint somes {A : Type} (l : list (option A)) : list A :=
  match l with
  | [] => []
  | Some a :: r => a :: somes r
  | None :: r => somes r
  end.

(** [pieces 0 .. pieces (n-1)] form a word of the Reed-Solomon code of dimension [t]: at every position the bytes of the pieces
    are the values at 0, 1, ..., n-1 of one polynomial with [t] coefficients. *)
Definition rs_codeword (t n len : nat) (pieces : nat -> list byte) : Prop :=
  (forall i, i < n -> length (pieces i) = len) /\
  forall k, k < len -> exists f, length f = t /\ forall i, i < n -> nth k (pieces i) x00 = peval f (i2b i).

(** 4 bytes, least significant first *)
Definition le32 (n : N) : list byte := [n2b n; n2b (n / 256); n2b (n / 65536); n2b (n / 16777216)]%N.

(** the three fields of a krawczyk share: 21 bytes of metadata, the piece, the index *)
Definition kr_meta (s : list byte) : list byte := firstn 21 s.
Definition kr_piece (s : list byte) : list byte := removelast (skipn 21 s).

(** smallest integer at least a/b *)
Definition ceil_div (a b : nat) : nat := (a + b - 1) / b.

(** A share krawczyk.Combine can process: at least 22 bytes, and an index below [parts]. *)
Definition kr_acceptable (parts : Z) (s : list byte) : Prop := 22 <= length s /\ (b2z (tag s) < parts)%Z.

(** A share on which it panics ([spare]: bytes between the length and the capacity of the slice). *)
Definition kr_panicking (parts : Z) (s spare : list byte) : Prop :=
  length s + length spare < 21 \/ s = [] \/
  ((b2z (tag s) <= parts)%Z /\ (length s < 22 \/ b2z (tag s) = parts)).

(** the parameter checks at the start of krawczyk.Combine, [len0] being the length of the first share *)
Definition kr_params (len0 : nat) (parts threshold : Z) : Prop :=
  (Z.of_nat len0 <= 4294967295 /\ threshold <> 0 /\ parts <> 0 /\ threshold <= parts /\ parts <= 255)%Z.

(** piece number [i] of a secret cut into [t] equal pieces, padded with zeros *)
Definition padded_piece (t i : nat) (l : list byte) : list byte :=
  let per := ceil_div (length l) t in
  firstn per (skipn (per * i) (l ++ repeat x00 (t * per - length l))).

(** [c] is [m] encrypted with block cipher [E] in OFB mode under [key], the IV being 16 zero bytes: byte [i] is masked with byte
    [i mod 16] of the IV encrypted [i / 16 + 1] times over. *)
Definition ofb_cipher (E : list byte -> list byte -> list byte) (key m c : list byte) : Prop :=
  length c = length m /\
  forall i, i < length m -> nth i c x00 = gadd (nth i m x00) (nth (i mod 16) (Nat.iter (i / 16 + 1) (E key) (repeat x00 16)) x00).

(** ** What krawczyk.Combine computes from arbitrary shares *)

(** value of 4 bytes, least significant first *)
Definition le32_value (l : list byte) : N :=
  (b2n (nth 0 l x00) + 256 * b2n (nth 1 l x00) + 65536 * b2n (nth 2 l x00) + 16777216 * b2n (nth 3 l x00))%N.

(** [p] is the piece carried by the last share with index [i], and empty if there is no such share. *)
Definition piece_at (shares : list (list byte)) (i : nat) (p : list byte) : Prop :=
  (exists pre s post, shares = pre ++ s :: post /\ tag s = i2b i /\ p = kr_piece s /\ forall s', In s' post -> tag s' <> i2b i) \/
  (p = [] /\ forall s, In s shares -> tag s <> i2b i).

(** the indices of the pieces that are not empty *)
Definition present (pieces : list (list byte)) : list nat :=
  filter (fun i => negb (length (nth i pieces []) =? 0)) (seq 0 (length pieces)).

(** [data]: the first [t] pieces, where the missing ones are, byte by byte, on the polynomials with [t] coefficients through the
    first [t] pieces present. *)
Definition rs_completion (t len : nat) (pieces data : list (list byte)) : Prop :=
  t <= length (present pieces) /\ length data = t /\
  forall i, i < t -> length (nth i data []) = len /\
    (nth i pieces [] <> [] -> nth i data [] = nth i pieces []) /\
    (nth i pieces [] = [] -> forall k, k < len -> exists f, length f = t /\
       (forall j, In j (firstn t (present pieces)) -> peval f (i2b j) = nth k (nth j pieces []) x00) /\
       nth k (nth i data []) x00 = peval f (i2b i)).

(** length of the first share given (0 for nil) *)
Definition first_length (ss : list (option (list byte * list byte))) : nat :=
  match ss with Some (s, _) :: _ => length s | _ => 0 end.

(** All checks up to the call of reedsolomon passed: [shares] are the non-nil shares, and [pieces] what they carry. *)
Definition kr_scanned (zp : bool) (ss : list (option (list byte * list byte))) (parts threshold : Z)
           (shares pieces : list (list byte)) : Prop :=
  ss <> [] /\ kr_params (first_length ss) parts threshold /\ (0 < parts)%Z /\
  shares = map fst (somes ss) /\ Forall (kr_acceptable parts) shares /\
  2 <= length shares /\ NoDup (map (fun s => tag (kr_meta s)) shares) /\
  (0 < threshold)%Z /\ (zp = true \/ (threshold < parts)%Z) /\
  length pieces = Z.to_nat parts /\ forall i, i < Z.to_nat parts -> piece_at shares i (nth i pieces []).

(** [md] is the metadata of the shares: every byte the value at 0 of the polynomial through the metadata bytes at that position. *)
Definition kr_metadata (shares : list (list byte)) (md : list byte) : Prop :=
  length md = 20 /\
  forall j, j < 20 -> exists f, length f = length shares /\
    (forall s, In s shares -> peval f (tag (kr_meta s)) = nth j s x00) /\ nth j md x00 = peval f x00.

(** [out] is what krawczyk.Combine is to return. *)
Definition kr_combined (E : list byte -> list byte -> list byte) (zp : bool) (ss : list (option (list byte * list byte)))
           (parts threshold : Z) (out : list byte) : Prop :=
  exists shares pieces len data md,
    kr_scanned zp ss parts threshold shares pieces /\
    0 < len /\ (forall p, In p pieces -> length p = len \/ p = []) /\
    rs_completion (Z.to_nat threshold) len pieces data /\
    kr_metadata shares md /\
    let size := le32_value (skipn 16 md) in
    (size <= N.of_nat (Z.to_nat threshold * len))%N /\
    ofb_cipher E (firstn 16 md) (firstn (N.to_nat size) (concat data)) out.

(** The error krawczyk.Combine is to return, in the order of the checks. *)
Definition kr_combine_error (zp : bool) (ss : list (option (list byte * list byte))) (parts threshold : Z) (e : err) : Prop :=
  ss <> [] /\
  let L := Z.of_nat (first_length ss) in
  let shares := map fst (somes ss) in
  (e = ESecretTooLarge /\ (4294967295 < L)%Z) \/
  (e = EZeroParam /\ (L <= 4294967295)%Z /\ (threshold = 0 \/ parts = 0)%Z) \/
  (e = EThresholdGtParts /\ (L <= 4294967295 /\ threshold <> 0 /\ parts <> 0 /\ parts < threshold)%Z) \/
  (e = EParamsTooBig /\ (L <= 4294967295 /\ threshold <> 0 /\ parts <> 0 /\ threshold <= parts /\ 255 < parts)%Z) \/
  (kr_params (first_length ss) parts threshold /\ (0 < parts)%Z /\
   ((e = EWrongPartId /\
       exists pre s spare post, somes ss = pre ++ (s, spare) :: post /\ Forall (fun x => kr_acceptable parts (fst x)) pre /\
         ~ kr_acceptable parts s /\ ~ kr_panicking parts s spare) \/
    (Forall (kr_acceptable parts) shares /\
     ((e = ETooFewParts /\ length shares < 2) \/
      (e = EDuplicatePart /\ 2 <= length shares /\ ~ NoDup (map (fun s => tag (kr_meta s)) shares)) \/
      (e = ERSInvShardNum /\ 2 <= length shares /\ NoDup (map (fun s => tag (kr_meta s)) shares) /\
         ((threshold < 0)%Z \/ (threshold = parts /\ zp = false))))) \/
    (exists pieces, kr_scanned zp ss parts threshold shares pieces /\
     ((e = ERSShardNoData /\ forall p, In p pieces -> p = []) \/
      (e = ERSShardSize /\ exists p q, In p pieces /\ In q pieces /\ p <> [] /\ q <> [] /\ length p <> length q) \/
      (exists len, 0 < len /\ (forall p, In p pieces -> length p = len \/ p = []) /\ (exists p, In p pieces /\ p <> []) /\
        ((e = ERSTooFewShards /\ length (present pieces) < Z.to_nat threshold) \/
         (e = ERSShortData /\ Z.to_nat threshold <= length (present pieces) /\
            exists md, kr_metadata shares md /\ (N.of_nat (Z.to_nat threshold * len) < le32_value (skipn 16 md))%N))))))).

(** the share [s] with its piece XORed with [d] *)
Definition xor_piece (s d : list byte) : list byte := kr_meta s ++ xor_bytes (kr_piece s) d ++ [tag s].
