(** Specification vocabulary, independent of the model of the code:
    GF(2^8), polynomials over it, Shamir sharings, share selections and counting. *)
From Coq Require Import List NArith ZArith Lia Arith Bool.
From Coq.Init Require Import Byte.
From Verif Require Import GoSem Bytes.
Import ListNotations.

(** ** GF(2^8) = GF(2)[x] / (x^8 + x^4 + x^3 + x^2 + 1).
    A byte (or any [N]) is the polynomial whose coefficients are its bits. *)

(** carry-less product: the product in GF(2)[x] *)
Fixpoint clmul_pos (p : positive) (b : N) : N :=
  match p with
  | xH => b
  | xO q => N.double (clmul_pos q b)
  | xI q => N.lxor b (N.double (clmul_pos q b))
  end.
Definition clmul (a b : N) : N :=
  match a with N0 => 0%N | Npos p => clmul_pos p b end.

(** x^8 + x^4 + x^3 + x^2 + 1 *)
Definition gf_modulus : N := 285%N.

(** remainder of a polynomial of degree <= 14 modulo [gf_modulus] *)
Definition gf_reduce (n : N) : N :=
  fold_left (fun acc i => if N.testbit acc (8 + i) then N.lxor acc (N.shiftl gf_modulus i) else acc)
            [6; 5; 4; 3; 2; 1; 0]%N n.

Definition gadd (a b : byte) : byte := n2b (N.lxor (b2n a) (b2n b)).
Definition gmul (a b : byte) : byte := n2b (gf_reduce (clmul (b2n a) (b2n b))).

Fixpoint gpow (a : byte) (n : nat) : byte :=
  match n with O => x01 | S m => gmul a (gpow a m) end.

Definition gsum (l : list byte) : byte := fold_right gadd x00 l.

(** ** Polynomials: coefficient lists, constant term first. *)
Definition peval (cs : list byte) (x : byte) : byte :=
  gsum (map (fun i => gmul (nth i cs x00) (gpow x i)) (seq 0 (length cs))).

(** byte-wise XOR of two strings *)
Fixpoint xor_bytes (a b : list byte) : list byte :=
  match a, b with
  | x :: r, y :: s => gadd x y :: xor_bytes r s
  | _, _ => []
  end.

(** ** Sharings.
    The share with tag [x]: values at [x] of all polynomials, then the tag. *)
Definition share_at (polys : list (list byte)) (x : byte) : list byte :=
  map (fun p => peval p x) polys ++ [x].

(** [shares] share [secret] with threshold [t]: one polynomial with [t] coefficients per secret byte,
    with that byte as constant term, evaluated at pairwise distinct tags. *)
Definition is_sharing (secret : list byte) (t : nat) (polys : list (list byte))
           (tags : list byte) (shares : list (list byte)) : Prop :=
  map (fun p => nth 0 p x00) polys = secret /\
  Forall (fun p => length p = t) polys /\
  NoDup tags /\
  shares = map (share_at polys) tags.

(** ** Choosing shares: by pairwise distinct indices, in any order. *)
Definition selection (n k : nat) (is : list nat) : Prop :=
  NoDup is /\ (forall i, In i is -> i < n) /\ k <= length is.

Definition pick {A : Type} (d : A) (l : list A) (is : list nat) : list A :=
  map (fun i => nth i l d) is.

(** A coalition of fewer than [t] of [n] shares. *)
Definition coalition (n t : nat) (is : list nat) : Prop :=
  NoDup is /\ (forall i, In i is -> i < n) /\ length is < t.

(** ** Counting: all byte strings of a given length, and how many satisfy a test. *)
Fixpoint all_strings (n : nat) : list (list byte) :=
  match n with
  | O => [[]]
  | S m => flat_map (fun b => map (cons b) (all_strings m)) all_bytes
  end.

Definition count {A : Type} (P : A -> bool) (l : list A) : nat := length (filter P l).

(** A random buffer seen as the (prefix of the) byte stream a random source delivers. *)
Definition stream_of (r : list byte) : nat -> byte := fun i => nth i r x00.

(** The tag of a share: its last byte; its data: all other bytes. *)
Definition tag (s : list byte) : byte := last s x00.
Definition data (s : list byte) : list byte := removelast s.

(** XOR of the data bytes of two shares, keeping the tag of the first. *)
Definition xor_share (s s' : list byte) : list byte := xor_bytes (data s) (data s') ++ [tag s].
Definition xor_shares (a b : list (list byte)) : list (list byte) :=
  map (fun p => xor_share (fst p) (snd p)) (combine a b).

(** [l] with element [i] replaced by [v]. *)
Definition replace {A : Type} (l : list A) (i : nat) (v : A) : list A :=
  firstn i l ++ v :: skipn (S i) l.

(** Does a successful call, observed at the share indices [is], show exactly the shares [view]? *)
Definition shares_eqb (a b : list (list byte)) : bool :=
  if list_eq_dec (list_eq_dec byte_eq_dec) a b then true else false.

(** [out] is obtained from the stream [ks] by taking, for each of its first [n] bytes, the byte itself if it has not
    been taken before, and otherwise the byte XORed with the first byte of the stream (which must be new). *)
Definition picks (ks : nat -> byte) (n : nat) (out : list byte) : Prop :=
  length out = n /\
  forall i, i < n ->
    (~ In (ks i) (firstn i out) /\ nth i out x00 = ks i) \/
    (In (ks i) (firstn i out) /\ nth i out x00 = gadd (ks i) (ks 0) /\ ~ In (gadd (ks i) (ks 0)) (firstn i out)).

(** Valid arguments of a split function. *)
Definition valid_args (secret : list byte) (parts threshold : Z) : Prop :=
  secret <> [] /\ (2 <= threshold)%Z /\ (threshold <= parts)%Z /\ (parts <= 255)%Z.

(** which error the argument checks report *)
Definition arg_error (secret : list byte) (parts threshold : Z) (e : err) : Prop :=
  (e = EPartsLtThreshold /\ (parts < threshold)%Z) \/
  (e = EPartsTooMany /\ (threshold <= parts)%Z /\ (255 < parts)%Z) \/
  (e = EThresholdSmall /\ (threshold <= parts)%Z /\ (parts <= 255)%Z /\ (threshold < 2)%Z) \/
  (e = EEmptySecret /\ (2 <= threshold)%Z /\ (threshold <= parts)%Z /\ (parts <= 255)%Z /\ secret = []).


(** Does the call [o], observed at the share indices [is], show exactly the shares [view]? *)
Definition observes (o : outcome (list (list byte))) (is : list nat) (view : list (list byte)) : bool :=
  match o with Ret shares => shares_eqb (pick [] shares is) view | _ => false end.

(** a view: shares with the given tags and [N] data bytes *)
Definition is_view (N : nat) (xs : list byte) (v : list (list byte)) : Prop :=
  length v = length xs /\ forall i, i < length xs -> length (nth i v []) = N + 1 /\ nth N (nth i v []) x00 = nth i xs x00.

(** A source of bytes in which every value occurs again and again. *)
Definition recurring (u : nat -> byte) : Prop := forall b k, exists k', k <= k' /\ u k' = b.

(** The formula by which the [t-1] shares number t*p+1 .. t*p+t-1 of SplitWithRandomizer (listed in [view]) give away secret
    byte [p]: their tags minus 1 are the non-constant coefficients of polynomial [p]. *)
Definition leakByte (t p : nat) (view : list (list byte)) : byte :=
  let x := tag (nth 0 view []) in
  gadd (nth p (nth 0 view []) x00)
       (gsum (map (fun c => gmul (bsub (tag (nth (c - 1) view [])) x01) (gpow x c)) (seq 1 (t - 1)))).

(** prefix xor: what the unchecked builds compute when the first vector is the shorter one *)
Definition xor_prefix (inp out : list byte) : list byte :=
  xor_bytes inp (firstn (length inp) out) ++ skipn (length inp) out.


(** The parts Combine and Regenerate accept. *)
Definition acceptable (parts : list (list byte)) : Prop :=
  2 <= length parts /\ 2 <= length (nth 0 parts []) /\
  (forall p, In p parts -> length p = length (nth 0 parts [])) /\ NoDup (map tag parts).
