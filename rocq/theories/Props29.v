(** Proofs about what the krawczyk split functions leave in the buffer pool (C76).
    Generated from Pf29.v by tools/genprops.py: every theorem is proved there as the lemma of the same name with suffix _pf. *)
From Coq Require Import List NArith ZArith Lia Arith Bool Permutation.
From Coq.Init Require Import Byte.
From Verif Require Import GoSem Bytes Spec SpecKr Vector Csprng Pool Polynomial Shamir Libs AES Krawczyk Memory MemCalls SpecMemCalls KrMem SpecKrMem KrSplitMem SpecKrSplitMem SpecRemain ExData Pf29.
Import ListNotations.

(** C76. When krawczyk.Split has returned, the pool of package shamir holds a buffer whose array starts with the AES key of this call and the length of
    the secret in the clear. The key decrypts the pieces: the piece of each of the first [threshold] shares is a part of the ciphertext that
    is the OFB encryption of the secret under this key. *)
Theorem C76_split : forall size E zp extra ar growcap krand perm stream secret parts threshold m m' shares,
  grow_ok growcap -> Permutation perm (seq 0 255) -> 2 <= size -> mem_ok m -> length (m_bpool m) <= size -> usable m secret ->
  mKrSplit E zp extra size ar growcap krand perm stream secret parts threshold m = (m', Ret shares) ->
  exists b b' key ciphertext, length key = 16 /\
    buffered m' b (key ++ le32 (N.of_nat (length (mcontents m secret)))) /\
    scattered m' b' (Z.to_nat threshold) (key ++ le32 (N.of_nat (length (mcontents m secret)))) /\
    ofb_cipher E key (mcontents m secret) ciphertext /\
    forall i, i < Z.to_nat threshold -> kr_piece (mcontents m' (nth i shares nilSlice)) = padded_piece (Z.to_nat threshold) i ciphertext.
Proof. exact C76_split_pf. Qed.
Print Assumptions C76_split.

(** C76. The same when krawczyk.SplitWithRandomizer has returned. *)
Theorem C76_splitwithrandomizer : forall size fuel E zp extra ar growcap ks secret parts threshold m m' shares,
  grow_ok growcap -> 2 <= size -> mem_ok m -> length (m_bpool m) <= size -> usable m secret ->
  mKrSplitWithRandomizer fuel E zp extra size ar growcap ks secret parts threshold m = (m', Ret shares) ->
  exists b b' key ciphertext, length key = 16 /\
    buffered m' b (key ++ le32 (N.of_nat (length (mcontents m secret)))) /\
    scattered m' b' (Z.to_nat threshold) (key ++ le32 (N.of_nat (length (mcontents m secret)))) /\
    ofb_cipher E key (mcontents m secret) ciphertext /\
    forall i, i < Z.to_nat threshold -> kr_piece (mcontents m' (nth i shares nilSlice)) = padded_piece (Z.to_nat threshold) i ciphertext.
Proof. exact C76_splitwithrandomizer_pf. Qed.
Print Assumptions C76_splitwithrandomizer.

(** C76. Histories: a program that starts with nothing does anything, splits with krawczyk.Split, and then does anything except another split that
    uses the pool (it may overwrite every slice it has, combine, regenerate). The key is still in the pool. *)
Theorem C76_history : forall size E zp ar growcap before extra krand perm stream k parts threshold after m env m' shares,
  grow_ok growcap -> 2 <= size -> Forall op_ok before -> Permutation perm (seq 0 255) -> Forall op_ok after -> Forall noPoolOp after ->
  clientRun size ar growcap (emptyMemory, []) before = (m, env) ->
  mKrSplit E zp extra size ar growcap krand perm stream (nthSlice env k) parts threshold m = (m', Ret shares) ->
  let m'' := fst (clientRun size ar growcap (m', env ++ shares) after) in
  exists b, buffered m'' b (map krand (seq 0 16) ++ le32 (N.of_nat (length (mcontents m (nthSlice env k))))).
Proof. exact C76_history_pf. Qed.
Print Assumptions C76_history.

(** Beside C76: a program splits a two-byte secret with krawczyk.Split, overwrites its copy of the secret and throws the shares away; the
    pool then still has the key and the length. *)
Definition exr_krand (i : nat) : byte := i2b (5 * i + 9).
Example C76_run :
  let (m, env) := clientRun 1024 ex_ar growcap117 (emptyMemory, []) [KNew [x68; x69]] in
  match mKrSplit AES true 0 1024 ex_ar growcap117 exr_krand ex_perm ex_stream (nthSlice env 0) 3 2 m with
  | (m', Ret shares) =>
      let m'' := fst (clientRun 1024 ex_ar growcap117 (m', env ++ shares) [KStore 0 0 x00; KStore 0 1 x00; KStore 1 0 x00]) in
      firstn 20 (nth (sl_arr (nth 0 (m_bpool m'') nilSlice)) (m_heap m'') []) = map exr_krand (seq 0 16) ++ [x02; x00; x00; x00] /\
      mcontents m'' (nthSlice env 0) = [x00; x00] /\ map (fun s => length (mcontents m' s)) shares = [23; 23; 23]
  | _ => False
  end.
Proof. vm_compute. repeat split. Qed.
