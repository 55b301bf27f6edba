(** Proofs about the matrix form of the pieces (C77).
    Generated from Pf30.v by tools/genprops.py: every theorem is proved there as the lemma of the same name with suffix _pf. *)
From Coq Require Import List NArith ZArith Lia Arith Bool Permutation.
From Coq.Init Require Import Byte.
From Verif Require Import GoSem Bytes Spec SpecKr Vector Csprng Pool Polynomial Shamir Libs AES Krawczyk SpecRS ExData Pf30.
Import ListNotations.

(** C77: the inverse of the top square of the Vandermonde matrix, which the library computes, exists and is unique, and so is the inverse of
    any [t] rows of the coding matrix, which it computes when pieces are missing. *)
Theorem C77_invertible : forall t n, 0 < t -> t <= n -> n <= 256 ->
  exists Ti, inverse t (vandermonde t t) Ti /\ (forall Ti', inverse t (vandermonde t t) Ti' -> Ti' = Ti) /\
  forall is, selection n t is -> length is = t ->
  exists Di, inverse t (rows_at (coding_matrix t n Ti) is) Di /\
    (forall Di', inverse t (rows_at (coding_matrix t n Ti) is) Di' -> Di' = Di).
Proof. exact C77_invertible_pf. Qed.
Print Assumptions C77_invertible.

(** C77: the pieces in the shares of krawczyk.Split are the product of the coding matrix with the first [threshold] pieces, and from any
    [threshold] pieces the first ones are recovered with the inverse of the corresponding rows. *)
Theorem C77_split : forall E zp ar growcap krand perm stream polB trB evBufs secret parts threshold shares Ti,
  grow_ok growcap -> Permutation perm (seq 0 255) ->
  krSplit E zp ar growcap krand perm stream polB trB evBufs secret parts threshold = Ret shares ->
  let n := Z.to_nat parts in let t := Z.to_nat threshold in let len := ceil_div (length secret) t in
  inverse t (vandermonde t t) Ti ->
  map kr_piece shares = mat_mul n t len (coding_matrix t n Ti) (map kr_piece (firstn t shares)) /\
  forall is, selection n t is -> length is = t ->
    exists Di, inverse t (rows_at (coding_matrix t n Ti) is) Di /\
      (forall Di', inverse t (rows_at (coding_matrix t n Ti) is) Di' -> Di' = Di) /\
      map kr_piece (firstn t shares) = mat_mul t t len Di (map kr_piece (pick [] shares is)).
Proof. exact C77_split_pf. Qed.
Print Assumptions C77_split.

(** C77: the same for krawczyk.SplitWithRandomizer. *)
Theorem C77_randomizer : forall fuel E zp ar growcap ks polB trB evBufs secret parts threshold shares Ti,
  grow_ok growcap ->
  krSplitWithRandomizer fuel E zp ar growcap ks polB trB evBufs secret parts threshold = Ret shares ->
  let n := Z.to_nat parts in let t := Z.to_nat threshold in let len := ceil_div (length secret) t in
  inverse t (vandermonde t t) Ti ->
  map kr_piece shares = mat_mul n t len (coding_matrix t n Ti) (map kr_piece (firstn t shares)) /\
  forall is, selection n t is -> length is = t ->
    exists Di, inverse t (rows_at (coding_matrix t n Ti) is) Di /\
      (forall Di', inverse t (rows_at (coding_matrix t n Ti) is) Di' -> Di' = Di) /\
      map kr_piece (firstn t shares) = mat_mul t t len Di (map kr_piece (pick [] shares is)).
Proof. exact C77_randomizer_pf. Qed.
Print Assumptions C77_randomizer.

(** C77: what the codec model of Libs.v does with arbitrary shards, not only with those of a split: [Encode] keeps the data shards and writes the
    rows of the product into the parity shards; [ReconstructData] writes the rows of the product with the inverse into the missing data shards. *)
Theorem C77_encode : forall d n shards out Ti, 0 < d -> d <= n -> n <= 256 -> inverse d (vandermonde d d) Ti ->
  rsEncode d n shards = Ret out ->
  out = mat_mul n d (length (nth 0 shards [])) (coding_matrix d n Ti) (firstn d shards).
Proof. exact C77_encode_pf. Qed.
Print Assumptions C77_encode.

(** C77: what the codec model of Libs.v does with arbitrary shards: [ReconstructData] writes the rows of the product with the inverse of the rows
    of the first [d] shards that are present into the missing data shards, and leaves all others alone. *)
Theorem C77_reconstruct : forall d n shards out Ti i, 0 < d -> d <= n -> n <= 256 -> inverse d (vandermonde d d) Ti ->
  rsReconstructData d n shards = Ret out -> i < n ->
  let is := firstn d (filter (fun j => negb (length (nth j shards []) =? 0)) (seq 0 n)) in
  (nth i shards [] <> [] \/ d <= i -> nth i out [] = nth i shards []) /\
  (nth i shards [] = [] -> i < d -> length is = d /\
    exists Di, inverse d (rows_at (coding_matrix d n Ti) is) Di /\
      nth i out [] = nth i (mat_mul d d (length (nth (hd 0 is) shards [])) Di (pick [] shards is)) []).
Proof. exact C77_reconstruct_pf. Qed.
Print Assumptions C77_reconstruct.

(** the coding matrix for three data shards out of five *)
Definition ex_top : matrix := [[x01; x00; x00]; [x8f; xf5; x7a]; [x8e; xf4; x7a]].
Example C77_top : inverse 3 (vandermonde 3 3) ex_top.
Proof. split; [split; [reflexivity|intros i H; do 3 (destruct i as [|i]; [reflexivity|]); exfalso; lia]|]. split; vm_compute; reflexivity. Qed.
Example C77_run : match krSplit AES true ex_ar growcap117 (fun i => i2b (5 * i + 9)) ex_perm ex_stream ex_stale ex_stale ex_ev ex_secret 5 3 with
  | Ret sh => coding_matrix 3 5 ex_top = [[x01; x00; x00]; [x00; x01; x00]; [x00; x00; x01]; [x01; x01; x01]; [x0f; x08; x06]] /\
      map kr_piece sh = mat_mul 5 3 2 (coding_matrix 3 5 ex_top) (map kr_piece (firstn 3 sh))
  | _ => False end.
Proof. vm_compute. split; reflexivity. Qed.
