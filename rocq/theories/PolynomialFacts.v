(** Closed forms of the functions of shamir/polynomial.go. *)
From Coq Require Import List NArith ZArith Lia Arith Bool.
From Coq.Init Require Import Byte.
From Verif Require Import GoSem Bytes Spec Galois GF GaloisFacts PolyFacts Vector GoFacts VectorFacts Csprng Pool Polynomial.
From Verif Require GaloisTables ShamirTables.
Import ListNotations.

(** ** mult and div *)
Lemma sh_log a : idx ShamirTables.logTable (b2i a) = Ret (logLookup a).
Proof.
  destruct shamir_tables_equal as [-> _]. unfold logLookup. apply idx_ok. pose proof (b2i_lt a).
  change (length GaloisTables.logTable) with 256. lia.
Qed.

Lemma sh_exp i : i < 510 -> idx ShamirTables.expTable i = Ret (gexp i).
Proof. destruct shamir_tables_equal as [_ [-> _]]. apply idx_expTable. Qed.

Lemma mult_gmul a b : mult a b = Ret (gmul a b).
Proof.
  unfold mult. rewrite !sh_log. cbn [bind]. pose proof (mod255_lt (b2i (logLookup a) + b2i (logLookup b))) as M.
  cbv zeta. rewrite sh_exp by (eapply Nat.lt_trans; [exact M|lia]). cbn [bind]. f_equal.
  destruct (beq b x00) eqn:Eb; [apply beq_true in Eb as ->; rewrite gmul_0_r; reflexivity|].
  destruct (beq a x00) eqn:Ea; [apply beq_true in Ea as ->; rewrite gmul_0_l; reflexivity|].
  apply beq_false in Ea, Eb. rewrite gmul_log by assumption. reflexivity.
Qed.

Lemma div_zero a : div a x00 = Panic PDivide.
Proof. reflexivity. Qed.

Lemma div_gdiv a b : b <> x00 -> div a b = Ret (gdiv a b).
Proof.
  intros Hb. apply beq_false in Hb as Eb. unfold div. rewrite Eb, !sh_log. cbn [bind].
  pose proof (glog_lt a) as La. pose proof (glog_lt b) as Lb. unfold glog in La, Lb.
  rewrite !b2z_b2i.
  set (la := b2i (logLookup a)) in *. set (lb := b2i (logLookup b)) in *.
  assert (E : Z.rem (Z.of_nat la - Z.of_nat lb + 255) 255 = Z.of_nat ((la + 255 - lb) mod 255)).
  { rewrite Z.rem_mod_nonneg by lia. rewrite Nat2Z.inj_mod. f_equal; lia. }
  rewrite E. destruct (Z.ltb_spec (Z.of_nat ((la + 255 - lb) mod 255)) 0); [lia|].
  rewrite Nat2Z.id. pose proof (mod255_lt (la + 255 - lb)) as M.
  rewrite sh_exp by (eapply Nat.lt_trans; [exact M|lia]). cbn [bind]. f_equal.
  destruct (beq a x00) eqn:Ea.
  - apply beq_true in Ea as ->. unfold gdiv. rewrite gmul_0_l. reflexivity.
  - apply beq_false in Ea. apply gdiv_unique; [exact Hb|].
    assert (G : gexp ((la + 255 - lb) mod 255) <> x00 /\ glog (gexp ((la + 255 - lb) mod 255)) = (la + 255 - lb) mod 255).
    { split.
      - apply (gexp_spec ((la + 255 - lb) mod 255)). eapply Nat.lt_trans; [exact M|lia].
      - pose proof (gexp_spec ((la + 255 - lb) mod 255) ltac:(eapply Nat.lt_trans; [exact M|lia])) as S.
        destruct S as [_ [S' _]]. rewrite S'. apply Nat.mod_small, M. }
    destruct G as [G1 G2]. rewrite gmul_log by assumption. rewrite G2.
    change (glog b) with lb. rewrite Nat.add_mod_idemp_l by lia.
    replace (la + 255 - lb + lb) with (la + 1 * 255) by lia. rewrite Nat.mod_add by lia.
    rewrite Nat.mod_small by exact La. apply gexp_glog, Ea.
Qed.

Lemma gadd_assoc' a b c : gadd (gadd a b) c = gadd a (gadd b c).
Proof. ring. Qed.

(** ** Lagrange interpolation *)
Lemma interpolate_basis xs x i l b : NoDup xs -> i < length xs -> (forall j, In j l -> j < length xs) ->
  foreach l (fun j basis =>
     if i =? j then Ret basis
     else do xj <- idx xs j; do xi <- idx xs i;
          do term <- div (add x xj) (add xi xj); mult basis term) b
  = Ret (gmul b (gprod (map (fun j => gdiv (gadd x (nth j xs x00)) (gadd (nth i xs x00) (nth j xs x00)))
                   (filter (fun j => negb (i =? j)) l)))).
Proof.
  intros Hn Hi. revert b. induction l as [|j l IH]; intros b Hl; cbn [foreach filter].
  - cbn. rewrite gmul_1_r. reflexivity.
  - destruct (Nat.eqb_spec i j) as [E|E]; cbn [negb].
    + cbn [bind]. apply IH. intros k Hk. apply Hl. right. exact Hk.
    + pose proof (Hl j ltac:(left; reflexivity)) as Hj.
      assert (St : (do xj <- idx xs j; do xi <- idx xs i;
          do term <- div (add x xj) (add xi xj); mult b term)
          = Ret (gmul b (gdiv (gadd x (nth j xs x00)) (gadd (nth i xs x00) (nth j xs x00))))).
      { rewrite (idx_ok xs j x00), (idx_ok xs i x00) by assumption. cbn [bind]. cbv zeta.
        change (add x (nth j xs x00)) with (gadd x (nth j xs x00)).
        change (add (nth i xs x00) (nth j xs x00)) with (gadd (nth i xs x00) (nth j xs x00)). rewrite div_gdiv; [cbn [bind]; apply mult_gmul|].
        intros F. apply (proj1 (gadd_eq_0 _ _)) in F. apply nth_inj_NoDup in F; assumption || congruence. }
      rewrite St. cbn [bind]. rewrite IH by (intros k Hk; apply Hl; right; exact Hk).
      cbn [map]. rewrite gprod_cons. f_equal. symmetry. apply gmul_assoc.
Qed.

Lemma interpolate_lagrange xs ys x : NoDup xs -> length ys = length xs ->
  interpolatePolynomial xs ys x = Ret (lagrange xs ys x).
Proof.
  intros Hn Hl. unfold interpolatePolynomial, lagrange. cbv zeta.
  assert (G : forall l r, (forall i, In i l -> i < length xs) ->
    foreach l (fun i result =>
       do basis <- foreach (seq 0 (length xs))
         (fun j basis => if i =? j then Ret basis
            else do xj <- idx xs j; do xi <- idx xs i;
              do term <- div (add x xj) (add xi xj); mult basis term) x01;
       do yi <- idx ys i; do group <- mult yi basis; Ret (add result group)) r
    = Ret (gadd r (gsum (map (fun i => gmul (nth i ys x00) (basis xs i x)) l)))).
  { induction l as [|i l IH]; intros r Hi; cbn [foreach map].
    - cbn. rewrite gadd_0_r. reflexivity.
    - pose proof (Hi i ltac:(left; reflexivity)) as Hii.
      rewrite interpolate_basis; [|exact Hn|exact Hii|intros j Hj; apply in_seq in Hj; lia].
      cbn [bind]. rewrite (idx_ok ys i x00) by lia. cbn [bind]. rewrite mult_gmul. cbn [bind].
      rewrite IH by (intros k Hk; apply Hi; right; exact Hk).
      rewrite gsum_cons. match goal with |- context [add ?a ?b] => change (add a b) with (gadd a b) end.
      f_equal. rewrite gmul_1_l. unfold basis, others. apply (gadd_assoc'). }
  rewrite G by (intros i Hi; apply in_seq in Hi; lia). f_equal. apply gadd_0_l.
Qed.

(** ** polynomials from the flat buffer *)

(** polynomial number [p] when the flat buffer [buf] holds rows of [t] coefficients *)
Definition polyOf (t : nat) (buf secret : list byte) (p : nat) : list byte :=
  nth p secret x00 :: skipn 1 (row t buf p).
Definition polysOf (t : nat) (secret buf : list byte) : list (list byte) :=
  map (polyOf t buf secret) (seq 0 (length secret)).

Lemma set_nth_0 {A} (l : list A) v : set_nth l 0 v = v :: skipn 1 l.
Proof. reflexivity. Qed.

Lemma setIntercepts_ok secret degree buf : length buf = (degree + 1) * length secret ->
  exists o, setIntercepts secret degree buf = Ret o /\ length o = (degree + 1) * length secret /\
    forall p, p < length secret -> row (degree + 1) o p = polyOf (degree + 1) buf secret p.
Proof.
  intros Hl. unfold setIntercepts.
  destruct (foreach_windows x00 (degree + 1) (length secret)
    (fun p buffer =>
       let s := (degree + 1) * p in
       let e := s + degree + 1 in
       do polynomialP <- slice buffer s e;
       do ip <- idx secret p;
       do polynomialP' <- upd polynomialP 0 ip;
       Ret (splice buffer s polynomialP')) (fun p r => set_nth r 0 (nth p secret x00)) buf Hl) as (o & E & L & R).
  - intros i r Hi Hr. rewrite set_nth_length; lia.
  - intros i b Hi Hb. cbv zeta.
    replace ((degree + 1) * i + degree + 1) with ((degree + 1) * i + (degree + 1)) by lia.
    rewrite slice_row by nia. cbn [bind]. rewrite (idx_ok secret i x00) by exact Hi. cbn [bind].
    rewrite upd_ok by (rewrite row_length; nia). reflexivity.
  - exists o. split; [exact E|]. split; [exact L|]. intros p Hp. rewrite R by exact Hp. apply set_nth_0.
Qed.

Lemma polyOf_length t buf secret p : 0 < t -> t * p + t <= length buf -> length (polyOf t buf secret p) = t.
Proof. intros Ht H. unfold polyOf. cbn [length]. rewrite skipn_length, row_length; lia. Qed.

(** ** transposition of flat matrices *)
Lemma transposeMatrixBuffer_ok dest source rowLen colLen : 0 < rowLen ->
  length source = rowLen * colLen -> length dest = length source ->
  exists o, transposeMatrixBuffer dest source rowLen = Ret o /\ length o = length source /\
    forall i j, i < rowLen -> j < colLen -> nth (colLen * i + j) o x00 = nth (rowLen * j + i) source x00.
Proof.
  intros Hr Hs Hd. unfold transposeMatrixBuffer. destruct (Nat.eqb_spec rowLen 0); [lia|].
  assert (Hc : length source / rowLen = colLen).
  { rewrite Hs, Nat.mul_comm. apply Nat.div_mul. lia. }
  cbv zeta. rewrite Hc.
  destruct (Nat.eq_dec colLen 0) as [Z|Z].
  { assert (Hs0 : length source = 0) by (rewrite Hs, Z; lia). rewrite Hs0. cbn [seq foreach bind]. exists dest. split; [reflexivity|]. split; [lia|]. intros; lia. }
  match goal with |- context [foreach (seq 0 (length source)) ?f _] => set (F := f) end.
  destruct (foreach_seq (fun k '(o, r, c) => length o = length source /\ r = k mod colLen /\ c = k / colLen /\
      forall i, i < k -> nth i o x00 = nth (rowLen * (i mod colLen) + i / colLen) source x00) F (length source) 0 (dest, 0, 0))
    as ([[o r] c] & E & L & _ & _ & V).
  - split; [exact Hd|]. rewrite Nat.mod_0_l, Nat.div_0_l by lia. repeat split. intros; lia.
  - intros k [[o r] c] [_ Hk] (L & -> & -> & V). cbn [Nat.add] in Hk. unfold F.
    pose proof (Nat.mod_upper_bound k colLen Z) as Hm.
    assert (Hq : k / colLen < rowLen) by (apply Nat.div_lt_upper_bound; [exact Z|rewrite Hs in Hk; lia]).
    assert (Hin : rowLen * (k mod colLen) + k / colLen < length source) by (rewrite Hs; nia).
    rewrite (idx_ok source _ x00) by exact Hin. cbn [bind]. rewrite upd_ok by lia. cbn [bind].
    pose proof (Nat.div_mod k colLen Z) as DM.
    assert (Vn : forall i, i < S k -> nth i (set_nth o k (nth (rowLen * (k mod colLen) + k / colLen) source x00)) x00
                   = nth (rowLen * (i mod colLen) + i / colLen) source x00).
    { intros i Hi. rewrite nth_set_nth by lia. destruct (Nat.eqb_spec i k) as [->|Hne]; [reflexivity|]. apply V. lia. }
    destruct (Nat.eqb_spec (k mod colLen + 1) colLen) as [E|E].
    + eexists. split; [reflexivity|]. split; [rewrite set_nth_length; lia|].
      assert (SK : S k = colLen * (k / colLen + 1) + 0) by nia.
      destruct (div_mod_unique' colLen (k / colLen + 1) 0) as [D M]; [lia|]. rewrite <- SK in D, M.
      repeat split; [lia|lia|exact Vn].
    + eexists. split; [reflexivity|]. split; [rewrite set_nth_length; lia|].
      assert (SK : S k = colLen * (k / colLen) + (k mod colLen + 1)) by nia.
      destruct (div_mod_unique' colLen (k / colLen) (k mod colLen + 1)) as [D M]; [lia|]. rewrite <- SK in D, M.
      repeat split; [lia|lia|exact Vn].
  - rewrite E. cbn [bind]. exists o. split; [reflexivity|]. split; [exact L|].
    intros i j Hi Hj. destruct (div_mod_unique' colLen i j Hj) as [D M].
    rewrite V; [rewrite D, M; reflexivity|]. cbn [Nat.add]. rewrite Hs. nia.
Qed.

(** ** Horner evaluation of N polynomials at once *)

(** [rows c] is the vector of c-th coefficients *)
Definition hornerAt (rows : nat -> list byte) (k d : nat) (x : byte) (p : nat) : byte :=
  heval (map (fun c => nth p (rows c) x00) (seq k (S d - k))) x.

Lemma hornerAt_step rows k d x p : k < d ->
  gadd (nth p (rows k) x00) (gmul x (hornerAt rows (S k) d x p)) = hornerAt rows k d x p.
Proof.
  intros H. unfold hornerAt. replace (S d - k) with (S (S d - S k)) by lia. cbn [seq map heval]. reflexivity.
Qed.

Lemma horner_loop (step : nat -> list byte -> outcome (list byte)) rows N d x r0 :
  (forall c, c <= d -> length (rows c) = N) ->
  (forall i r, i < d -> length r = N -> step i r = Ret (xor_bytes (rows i) (map (gmul x) r))) ->
  r0 = rows d ->
  foreach (rev (seq 0 d)) step r0 = Ret (map (hornerAt rows 0 d x) (seq 0 N)).
Proof.
  intros Hrow Hstep ->.
  destruct (foreach_down (fun k r => r = map (hornerAt rows k d x) (seq 0 N) /\ k <= d) step d (rows d)) as (r & E & Q & _).
  - split; [|lia]. rewrite (list_as_map (rows d) x00) at 1. rewrite (Hrow d) by lia. apply map_ext. intros p.
    unfold hornerAt. replace (S d - d) with 1 by lia. cbn. ring.
  - intros i r Hi (-> & _). rewrite Hstep by (try lia; rewrite map_length, seq_length; reflexivity).
    eexists. split; [reflexivity|]. split; [|lia].
    apply nth_ext with x00 x00.
    { rewrite xor_bytes_length; rewrite ?map_length, ?seq_length; rewrite ?Hrow by lia; reflexivity. }
    intros p Hp. rewrite xor_bytes_length in Hp by (rewrite ?map_length, ?seq_length; rewrite ?Hrow by lia; reflexivity).
    rewrite Hrow in Hp by lia.
    rewrite nth_xor_bytes by (rewrite ?map_length, ?seq_length; rewrite ?Hrow by lia; reflexivity).
    rewrite nth_map_gmul, !nth_map_seq by exact Hp. apply hornerAt_step. exact Hi.
  - rewrite E, Q. reflexivity.
Qed.

Lemma resetGrow_length growcap b n : grow_ok growcap -> n <= length (resetGrow growcap b n).
Proof.
  intros G. unfold resetGrow. destruct (Nat.leb_spec n (length b)); [assumption|]. rewrite zeros_length. apply G. assumption.
Qed.

(** evaluation from the flat transposed buffer: entry [p] is the value of the polynomial whose
    coefficients are cells p, N+p, 2N+p, ... *)
Lemma evaluateFlat_ok ar growcap bb buf N d x out : grow_ok growcap -> 0 < N -> length buf = N * (d + 1) -> length out = N ->
  evaluatePolynomialsAtWithCoefficientsBuffer ar growcap bb buf N x out
  = Ret (map (hornerAt (row N buf) 0 d x) (seq 0 N)).
Proof.
  intros G HN Hb Ho. unfold evaluatePolynomialsAtWithCoefficientsBuffer.
  destruct (Nat.eqb_spec N 0); [lia|].
  pose proof (resetGrow_length growcap bb N G) as HG. rewrite slice_ok by lia. cbn [bind].
  assert (Hq : length buf / N = d + 1) by (rewrite Hb, Nat.mul_comm; apply Nat.div_mul; lia).
  rewrite Hq. destruct (Nat.eqb_spec (d + 1) 0); [lia|]. cbv zeta. rewrite Nat.add_sub.
  rewrite (Nat.mul_comm d N). rewrite slice_row by nia. cbn [bind].
  rewrite gocopy_same by (rewrite row_length, firstn_length, skipn_length; nia).
  rewrite (horner_loop _ (row N buf) N d x (row N buf d)).
  - cbn [bind]. rewrite (slice_ok out 0 N) by lia. cbn [bind].
    rewrite gocopy_same by (rewrite firstn_length, skipn_length, map_length, seq_length; lia).
    rewrite splice_0 by (rewrite map_length, seq_length; lia). reflexivity.
  - intros c Hc. apply row_length. nia.
  - intros i r Hi Hr. rewrite (Nat.mul_comm i N), slice_row by nia. cbn [bind]. rewrite MulConstVector_ok. cbn [bind].
    apply AddVector_ok. rewrite row_length, map_length; nia.
  - reflexivity.
Qed.

(** evaluation from a matrix *)
Lemma evaluateMatrix_ok ar growcap bb M N d x out : grow_ok growcap ->
  length M = d + 1 -> (forall c, c <= d -> length (nth c M []) = N) -> N <= length out ->
  evaluatePolynomialsAt ar growcap bb M x out
  = Ret (map (hornerAt (fun c => nth c M []) 0 d x) (seq 0 N) ++ skipn N out).
Proof.
  intros G HM Hr Ho. unfold evaluatePolynomialsAt. rewrite (idx_ok M 0 []) by lia. cbn [bind]. cbv zeta.
  rewrite (Hr 0) by lia. pose proof (resetGrow_length growcap bb N G) as HG. rewrite slice_ok by lia. cbn [bind].
  rewrite HM, Nat.add_sub. rewrite (idx_ok M d []) by lia. cbn [bind].
  rewrite gocopy_same by (rewrite firstn_length, skipn_length, Hr; lia).
  rewrite (horner_loop _ (fun c => nth c M []) N d x).
  - cbn [bind]. rewrite slice_ok by lia. cbn [bind].
    rewrite gocopy_same by (rewrite firstn_length, skipn_length, map_length, seq_length; lia).
    rewrite splice_0_app, map_length, seq_length. reflexivity.
  - exact Hr.
  - intros i r Hi Hl. rewrite (idx_ok M i []) by lia. cbn [bind]. rewrite MulConstVector_ok. cbn [bind].
    apply AddVector_ok. rewrite Hr, map_length; lia.
  - reflexivity.
Qed.

Lemma genericEvaluate_ok M N d x out :
  length M = d + 1 -> (forall c, c <= d -> length (nth c M []) = N) -> N <= length out ->
  genericEvaluatePolynomialsAt M x out
  = Ret (map (hornerAt (fun c => nth c M []) 0 d x) (seq 0 N) ++ skipn N out).
Proof.
  intros HM Hr Ho. unfold genericEvaluatePolynomialsAt. rewrite (idx_ok M 0 []) by lia. cbn [bind]. cbv zeta.
  rewrite (Hr 0) by lia. rewrite HM, Nat.add_sub. rewrite (idx_ok M d []) by lia. cbn [bind].
  rewrite gocopy_same by (rewrite zeros_length, Hr; lia).
  rewrite (horner_loop _ (fun c => nth c M []) N d x).
  - cbn [bind]. rewrite slice_ok by lia. cbn [bind].
    rewrite gocopy_same by (rewrite firstn_length, skipn_length, map_length, seq_length; lia).
    rewrite splice_0_app, map_length, seq_length. reflexivity.
  - exact Hr.
  - intros i r Hi Hl. rewrite (idx_ok M i []) by lia. cbn [bind]. rewrite MulConstVectorGeneric_ok. cbn [bind].
    apply AddVectorGeneric_ok. rewrite Hr, map_length; lia.
  - reflexivity.
Qed.

(** single polynomial *)
Lemma evaluate_ok p x : p <> [] -> evaluate p x = Ret (heval p x).
Proof.
  intros Hp. unfold evaluate. assert (Hl : 0 < length p) by (destruct p; [congruence|cbn; lia]).
  destruct (beq x x00) eqn:Ex.
  - apply beq_true in Ex as ->. rewrite heval_0. apply idx_ok. exact Hl.
  - cbv zeta. destruct (Nat.eqb_spec (length p) 0); [lia|]. rewrite (idx_ok p (length p - 1) x00) by lia. cbn [bind].
    destruct (foreach_down (fun k r => r = heval (skipn k p) x /\ k <= length p - 1)
      (fun i out => do coeff <- idx p i; Ret (GalAdd (GalMultiply out x) coeff)) (length p - 1) (nth (length p - 1) p x00))
      as (r & E & Q & _).
    + split; [|lia]. assert (S1 : skipn (length p - 1) p = [nth (length p - 1) p x00]).
      { apply nth_ext with x00 x00; [rewrite skipn_length; cbn; lia|]. intros i Hi. rewrite skipn_length in Hi.
        rewrite nth_skipn. replace i with 0 by lia. rewrite Nat.add_0_r. reflexivity. }
      rewrite S1. cbn. ring.
    + intros i r Hi (-> & _). rewrite (idx_ok p i x00) by lia. cbn [bind]. eexists. split; [reflexivity|]. split; [|lia].
      assert (S1 : skipn i p = nth i p x00 :: skipn (S i) p).
      { apply nth_ext with x00 x00; [cbn [length]; rewrite !skipn_length; lia|]. intros j Hj. rewrite nth_skipn.
        destruct j as [|j]; [rewrite Nat.add_0_r; reflexivity|]. cbn [nth]. rewrite nth_skipn. f_equal. lia. }
      rewrite S1. cbn [heval]. rewrite GalMultiply_gmul. change (GalAdd ?a ?b) with (gadd a b). ring.
    + rewrite E, Q. reflexivity.
Qed.
