(** Leaving out parts, and wrong parts (C82). *)
From Coq Require Import List NArith ZArith Lia Arith Bool Permutation.
From Coq.Init Require Import Byte.
From Verif Require Import GoSem Bytes Spec GF PolyFacts GoFacts Shamir CombineFacts SpecDetect.
Import ListNotations.

Lemma without_in {A} (l : list A) d i x : In x (without i l) -> exists j, j < length l /\ j <> i /\ nth j l d = x.
Proof.
  unfold without. intros H. apply in_app_or in H as [H|H].
  - apply In_nth with (d := d) in H as (j & Hj & <-). rewrite firstn_length in Hj. exists j. split; [lia|]. split; [lia|]. symmetry. apply nth_firstn. lia.
  - apply In_nth with (d := d) in H as (j & Hj & <-). rewrite skipn_length in Hj. exists (S i + j). split; [lia|]. split; [lia|]. symmetry. apply nth_skipn.
Qed.
Lemma in_without {A} (l : list A) d i j : j < length l -> j <> i -> In (nth j l d) (without i l).
Proof.
  intros H D. unfold without. apply in_or_app. destruct (Nat.lt_ge_cases j i).
  - left. rewrite <- (nth_firstn l i j) by lia. apply nth_In. rewrite firstn_length. lia.
  - right. replace (nth j l d) with (nth (j - S i) (skipn (S i) l) d) by (rewrite nth_skipn; f_equal; lia). apply nth_In. rewrite skipn_length. lia.
Qed.
Lemma without_length {A} (l : list A) i : i < length l -> length (without i l) = length l - 1.
Proof. intros H. unfold without. rewrite app_length, firstn_length, skipn_length. lia. Qed.
Lemma map_without {A B} (f : A -> B) l i : map f (without i l) = without i (map f l).
Proof. unfold without. rewrite map_app, firstn_map, skipn_map. reflexivity. Qed.
Lemma skipn_tail {A} i : forall (l : list A) a r, skipn i l = a :: r -> skipn (S i) l = r.
Proof. induction i as [|i IH]; intros [|x l] a r E; try discriminate E; [injection E as _ E2; exact E2|]. apply (IH l a). exact E. Qed.
Lemma NoDup_without {A} (l : list A) i : NoDup l -> NoDup (without i l).
Proof.
  intros N. unfold without. rewrite <- (firstn_skipn i l) in N. destruct (skipn i l) as [|a r] eqn:E.
  - replace (skipn (S i) l) with (@nil A); [exact N|]. symmetry. apply skipn_all2. assert (length (skipn i l) = 0) by (rewrite E; reflexivity). rewrite skipn_length in H. lia.
  - replace (skipn (S i) l) with r; [apply NoDup_remove_1 in N; exact N|]. symmetry. apply (skipn_tail i l a r E).
Qed.

Section Leave.
Context (parts : list (list byte)).
Hypothesis A : acceptable parts.
Hypothesis L3 : 3 <= length parts.
Let N := length (nth 0 parts []) - 1.

Lemma without_accept i : i < length parts -> acceptable (without i parts) /\ length (nth 0 (without i parts) []) = length (nth 0 parts []).
Proof.
  intros Hi. destruct A as (A1 & A2 & A3 & A4).
  assert (H : forall p, In p (without i parts) -> length p = length (nth 0 parts [])).
  { intros p Hp. apply (without_in _ []) in Hp as (j & Hj & _ & <-). apply A3, nth_In, Hj. }
  assert (L : length (nth 0 (without i parts) []) = length (nth 0 parts [])) by (apply H, nth_In; rewrite without_length; lia).
  split; [|exact L]. split; [rewrite without_length; lia|]. split; [lia|]. split; [intros p Hp; rewrite L; apply H, Hp|]. rewrite map_without. apply NoDup_without, A4.
Qed.
Lemma accepted_combine ps : acceptable ps -> Combine ps = Ret (interpAt ps (length (nth 0 ps []) - 1) x00).
Proof. intros (A1 & A2 & A3 & A4). apply Combine_accept; assumption. Qed.
Lemma without_combine i : i < length parts -> Combine (without i parts) = Ret (interpAt (without i parts) N x00).
Proof. intros Hi. destruct (without_accept i Hi) as [B L]. rewrite (accepted_combine _ B), L. reflexivity. Qed.

(** the interpolation of the parts without part [i], at byte [p] *)
Definition gwo (p i : nat) (x : byte) : byte := lagrange (map tag (without i parts)) (ycol (without i parts) p) x.
Lemma gwo_poly p i : i < length parts -> polyfun (length parts - 1) (gwo p i).
Proof. intros Hi. unfold gwo. rewrite <- (without_length parts i Hi), <- (map_length tag). apply lagrange_polyfun. Qed.
Lemma gwo_at p i j : i < length parts -> j < length parts -> j <> i -> gwo p i (tag (nth j parts [])) = nth p (nth j parts []) x00.
Proof. intros Hi Hj D. unfold gwo. apply interp_at_part; [apply (without_accept i Hi)|apply in_without; assumption]. Qed.

Lemma gwo_agree p i k : i < length parts -> k < length parts -> i <> k -> ~ In x00 (map tag parts) -> gwo p i x00 = gwo p k x00 ->
  forall x, gwo p i x = gwo p k x.
Proof.
  intros Hi Hk D NZ E.
  assert (Q : exists l, without k (map tag parts) = l /\ NoDup l /\ length l = length parts - 1) by (eexists; split; [reflexivity|]; split; [apply NoDup_without, A|rewrite without_length; rewrite map_length; [reflexivity|exact Hk]]).
  destruct Q as (l & El & ND & LL).
  (* the points other than i and k, and zero *)
  set (pts := x00 :: filter (fun x => if byte_eq_dec x (tag (nth i parts [])) then false else true) l).
  apply (polyfun_unique (length parts - 1) (gwo p i) (gwo p k) pts).
  - apply gwo_poly, Hi.
  - apply gwo_poly, Hk.
  - unfold pts. constructor.
    + intros F. apply filter_In in F as [F _]. rewrite <- El in F. apply (without_in _ x00) in F as (j & Hj & _ & Ej). apply NZ. rewrite <- Ej. apply nth_In, Hj.
    + apply NoDup_filter, ND.
  - unfold pts. cbn [length]. assert (H : length l <= S (length (filter (fun x => if byte_eq_dec x (tag (nth i parts [])) then false else true) l))).
    { clear -ND. induction ND as [|a l NI ND IH]; [cbn; lia|]. cbn [filter length]. destruct (byte_eq_dec a (tag (nth i parts []))) as [->|D].
      - assert (E : filter (fun x => if byte_eq_dec x (tag (nth i parts [])) then false else true) l = l).
        { clear -NI. induction l as [|b l IH]; [reflexivity|]. cbn [filter]. destruct (byte_eq_dec b (tag (nth i parts []))) as [->|D]; [exfalso; apply NI; left; reflexivity|]. f_equal. apply IH. intros H. apply NI. right. exact H. }
        rewrite E. lia.
      - cbn [length]. lia. }
    rewrite LL in H. lia.
  - intros r [<-|Hr]; [exact E|]. apply filter_In in Hr as [Hr Hd]. rewrite <- El in Hr. apply (without_in _ x00) in Hr as (j & Hj & Dj & <-). rewrite map_length in Hj.
    rewrite (nth_map' tag parts j x00 []) in * by exact Hj. rewrite gwo_at; [|exact Hi|exact Hj|].
    + rewrite gwo_at; [reflexivity|exact Hk|exact Hj|exact Dj].
    + intros ->. destruct (byte_eq_dec (tag (nth i parts [])) (tag (nth i parts []))); congruence.
Qed.

(** then all parts lie on it *)
Lemma gwo_all p i k j : i < length parts -> k < length parts -> i <> k -> ~ In x00 (map tag parts) -> gwo p i x00 = gwo p k x00 ->
  j < length parts -> gwo p i (tag (nth j parts [])) = nth p (nth j parts []) x00.
Proof.
  intros Hi Hk D NZ E Hj. destruct (Nat.eq_dec j i) as [->|N1]; [|apply gwo_at; assumption].
  rewrite (gwo_agree p i k Hi Hk D NZ E). apply gwo_at; try assumption.
Qed.
Lemma gwo_same p i k j : i < length parts -> k < length parts -> i <> k -> ~ In x00 (map tag parts) -> gwo p i x00 = gwo p k x00 ->
  j < length parts -> gwo p j x00 = gwo p i x00.
Proof.
  intros Hi Hk D NZ E Hj.
  apply (polyfun_unique (length parts - 1) (gwo p j) (gwo p i) (map tag (without j parts))); [apply gwo_poly, Hj|apply gwo_poly, Hi|apply (without_accept j Hj)|rewrite map_length, without_length; lia|].
  intros r Hr. apply in_map_iff in Hr as (q & <- & Hq). apply (without_in _ []) in Hq as (l & Hl & Dl & <-).
  rewrite gwo_at by assumption. rewrite (gwo_all p i k) by assumption. reflexivity.
Qed.
Lemma all_same p i k : i < length parts -> k < length parts -> i <> k -> ~ In x00 (map tag parts) -> gwo p i x00 = gwo p k x00 ->
  lagrange (map tag parts) (ycol parts p) x00 = gwo p i x00.
Proof.
  intros Hi Hk D NZ E. destruct A as (A1 & A2 & A3 & A4).
  apply (polyfun_unique (length parts) (lagrange (map tag parts) (ycol parts p)) (gwo p i) (map tag parts)).
  - rewrite <- (map_length tag parts). apply lagrange_polyfun.
  - apply (polyfun_le (length parts - 1)); [lia|]. apply gwo_poly, Hi.
  - exact A4.
  - rewrite map_length. lia.
  - intros r Hr. apply in_map_iff in Hr as (q & <- & Hq). rewrite interp_at_part by assumption. apply In_nth with (d := []) in Hq as (j & Hj & <-). rewrite (gwo_all p i k) by assumption. reflexivity.
Qed.
End Leave.

(** ** wrong parts *)
Lemma wrong_length a : forall b, length a = length b -> wrong a b = length (filter (fun j => if list_eq_dec byte_eq_dec (nth j a []) (nth j b []) then false else true) (seq 0 (length a))).
Proof.
  unfold wrong, count. induction a as [|x a IH]; intros [|y b] L; try discriminate L; [reflexivity|]. cbn [combine filter length seq fst snd].
  change (nth 0 (x :: a) []) with x. change (nth 0 (y :: b) []) with y.
  assert (S : length (filter (fun j => if list_eq_dec byte_eq_dec (nth j (x :: a) []) (nth j (y :: b) []) then false else true) (seq 1 (length a))) =
              length (filter (fun j => if list_eq_dec byte_eq_dec (nth j a []) (nth j b []) then false else true) (seq 0 (length a)))).
  { rewrite <- (seq_shift (length a) 0). generalize (seq 0 (length a)). intros l. induction l as [|j l IHl]; [reflexivity|]. cbn [map filter]. change (nth (Datatypes.S j) (x :: a) []) with (nth j a []). change (nth (Datatypes.S j) (y :: b) []) with (nth j b []). destruct (list_eq_dec byte_eq_dec (nth j a []) (nth j b [])); cbn [length]; rewrite IHl; reflexivity. }
  destruct (list_eq_dec byte_eq_dec x y); cbn [length]; rewrite S; [|f_equal]; apply IH; cbn [length] in L; lia.
Qed.
