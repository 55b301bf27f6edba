(** Specification vocabulary for concurrent use of the whole library (C70). *)
From Coq Require Import List NArith ZArith Lia Arith Bool Permutation.
From Coq.Init Require Import Byte.
From Verif Require Import GoSem Bytes Spec SpecKr Vector Csprng Pool Polynomial Shamir Libs Krawczyk Concurrency ConcAll.
Import ListNotations.

(** the permutations drawn are permutations of 0..254 *)
Definition api_draws_ok (c : apicall) : Prop :=
  match c with ASplit perm _ _ _ _ | ASplitGeneric perm _ _ _ _ | AKrSplit _ perm _ _ _ _ => Permutation perm (seq 0 255) | _ => True end.

(** [o] is a correct outcome of the call [c]: for all but two of the functions, the outcome of the sequential function on fresh buffers. The
    shares that the two SplitWithRandomizer return depend on what the pool buffers contain; for them: the sequential call on fresh
    buffers fails (panics, hangs) in the same way, or both return, the shares agree but for the bytes that share the secret
    (krawczyk: the 20 bytes that share key and length), and they combine to the secret. *)
Definition correct_answer (b : build) (c : apicall) (o : outcome result) : Prop :=
  match c with
  | ASplit perm stream secret parts threshold =>
      o = omap RShares (Split (b_arch b) (b_grow b) perm stream [] [] (fun _ => []) secret parts threshold)
  | ASplitWithRandomizer fuel ks secret parts threshold =>
      match o, SplitWithRandomizer fuel (b_arch b) (b_grow b) ks [] [] (fun _ => []) secret parts threshold with
      | Ret (RShares shares), Ret shares' =>
          map tag shares = map tag shares' /\ length shares = Z.to_nat parts /\
          forall is, selection (Z.to_nat parts) (Z.to_nat threshold) is -> Combine (pick [] shares is) = Ret secret
      | o, o' => o = omap RShares o'
      end
  | ASplitWithRandomizerOld ks secret parts threshold =>
      o = omap RShares (SplitWithRandomizerOld (b_arch b) (b_grow b) ks (fun _ => []) secret parts threshold)
  | ASplitGeneric perm stream secret parts threshold => o = omap RShares (SplitGeneric perm stream secret parts threshold)
  | ACombine shares => o = omap RSecret (Combine shares)
  | ARegenerate fuel stream u shares n => o = omap RShares (Regenerate fuel stream u shares n)
  | AKrSplit krand perm stream secret parts threshold =>
      o = omap RShares (krSplit (b_cipher b) (b_zp b) (b_arch b) (b_grow b) krand perm stream [] [] (fun _ => []) secret parts threshold)
  | AKrSplitWithRandomizer fuel ks secret parts threshold =>
      match o, krSplitWithRandomizer fuel (b_cipher b) (b_zp b) (b_arch b) (b_grow b) ks [] [] (fun _ => []) secret parts threshold with
      | Ret (RShares shares), Ret shares' =>
          map (skipn 20) shares = map (skipn 20) shares' /\ length shares = Z.to_nat parts /\
          forall rd is, (forall i, 0 < rd i) -> selection (Z.to_nat parts) (Z.to_nat threshold) is ->
            krCombine (b_cipher b) (b_zp b) rd (map Some (pick [] shares is)) parts threshold = Ret secret
      | o, o' => o = omap RShares o'
      end
  | AKrCombine shares parts threshold => o = omap RSecret (krCombineCap (b_cipher b) (b_zp b) (b_rd b) shares parts threshold)
  end.

(** [o] ends the goroutine *)
Definition fatal {A : Type} (o : outcome A) : Prop := match o with Ret _ | Fail _ => False | _ => True end.

(** The calls made by a client that got the outcomes [results], in order, and how it ended: [last] is the call after those, if any. *)
Fixpoint calls_made (next : list (outcome result) -> option apicall) (done results : list (outcome result)) : option (list (apicall * outcome result)) :=
  match results with
  | [] => Some []
  | o :: r => match next done with
    | None => None
    | Some c => match calls_made next (done ++ [o]) r with Some l => Some ((c, o) :: l) | None => None end
    end
  end.
