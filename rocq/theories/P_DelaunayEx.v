(** Concrete point sets in general position, checked by integer arithmetic. *)
From Verif Require Import Base Num M_Linalg M_Helper M_Alignment S_Delaunay.
From Verif Require Import P_DelaunayGeo P_DelaunayAlg P_DelaunayCover.
From Coq Require Import Reals Lra Psatz.
Local Open Scope Z_scope.

Definition zcr (a b c : Z * Z) : Z :=
  (fst b - fst a) * (snd c - snd a) - (snd b - snd a) * (fst c - fst a).
Definition zdt (a b c : Z * Z) : Z :=
  (fst c - fst a) * (fst c - fst b) + (snd c - snd a) * (snd c - snd b).
Definition zicd (a b c d : Z * Z) : Z := zdt a b d * zcr a b c - zdt a b c * zcr a b d.
Definition zpt (zs : list (Z * Z)) (k : nat) : Z * Z := nth k zs (0, 0).

Definition all_lt (n : nat) (f : nat -> bool) : bool := forallb f (seq 0 n).
Lemma all_lt_spec n f : all_lt n f = true -> forall k, (k < n)%nat -> f k = true.
Proof. unfold all_lt. rewrite forallb_forall. intros H k Hk. apply H, in_seq. lia. Qed.

Definition check3 (zs : list (Z * Z)) : bool :=
  let n := length zs in
  all_lt n (fun a => all_lt n (fun b => all_lt n (fun c =>
    (a =? b)%nat || (b =? c)%nat || (a =? c)%nat || negb (zcr (zpt zs a) (zpt zs b) (zpt zs c) =? 0)))).
Definition check4 (zs : list (Z * Z)) : bool :=
  let n := length zs in
  all_lt n (fun a => all_lt n (fun b => all_lt n (fun c => all_lt n (fun d =>
    (a =? b)%nat || (a =? c)%nat || (a =? d)%nat || (b =? c)%nat || (b =? d)%nat || (c =? d)%nat ||
    negb (zicd (zpt zs a) (zpt zs b) (zpt zs c) (zpt zs d) =? 0))))).
(** no other point inside the circle through a, b, c *)
Definition check_empty (zs : list (Z * Z)) (a b c : nat) : bool :=
  all_lt (length zs) (fun d => (d =? a)%nat || (d =? b)%nat || (d =? c)%nat ||
    (0 <? zcr (zpt zs a) (zpt zs b) (zpt zs c) * zicd (zpt zs a) (zpt zs b) (zpt zs c) (zpt zs d))).

(** coordinates in hundredths of a degree *)
Definition toR (z : Z * Z) : point NumR := @Pt NumR (IZR (fst z) / 100)%R (IZR (snd z) / 100)%R.
Definition ptsR (zs : list (Z * Z)) : list (point NumR) := map toR zs.

Section Check.
Context (zs : list (Z * Z)).
Notation X := (PX (ptsR zs)). Notation Y := (PY (ptsR zs)).
Lemma ptR_at k : (k < length zs)%nat -> pt (ptsR zs) (Z.of_nat k) = toR (zpt zs k).
Proof.
  intros H. unfold pt, ptsR, zpt. rewrite Nat2Z.id.
  rewrite (nth_indep _ _ (toR (0, 0))) by (rewrite map_length; exact H). apply map_nth.
Qed.
Lemma X_at k : (k < length zs)%nat -> X (Z.of_nat k) = (IZR (fst (zpt zs k)) / 100)%R.
Proof. intros H. change (X (Z.of_nat k)) with (xof (pt (ptsR zs) (Z.of_nat k))). rewrite ptR_at by exact H. reflexivity. Qed.
Lemma Y_at k : (k < length zs)%nat -> Y (Z.of_nat k) = (IZR (snd (zpt zs k)) / 100)%R.
Proof. intros H. change (Y (Z.of_nat k)) with (yof (pt (ptsR zs) (Z.of_nat k))). rewrite ptR_at by exact H. reflexivity. Qed.

Lemma cr_at a b c : (a < length zs)%nat -> (b < length zs)%nat -> (c < length zs)%nat ->
  cr X Y (Z.of_nat a) (Z.of_nat b) (Z.of_nat c) = (IZR (zcr (zpt zs a) (zpt zs b) (zpt zs c)) / 10000)%R.
Proof.
  intros Ha Hb Hc. unfold cr, zcr. rewrite !X_at, !Y_at by assumption.
  rewrite minus_IZR, !mult_IZR, !minus_IZR. field.
Qed.
Lemma icd_at a b c d : (a < length zs)%nat -> (b < length zs)%nat -> (c < length zs)%nat -> (d < length zs)%nat ->
  icd X Y (Z.of_nat a) (Z.of_nat b) (Z.of_nat c) (Z.of_nat d) =
  (IZR (zicd (zpt zs a) (zpt zs b) (zpt zs c) (zpt zs d)) / 100000000)%R.
Proof.
  intros Ha Hb Hc Hd. unfold icd. rewrite !cr_at by assumption. unfold dt. rewrite !X_at, !Y_at by assumption.
  unfold zicd, zdt. rewrite minus_IZR, !mult_IZR, !plus_IZR, !mult_IZR, !minus_IZR. field.
Qed.

Lemma index_nat k : index (ptsR zs) k -> exists n, k = Z.of_nat n /\ (n < length zs)%nat.
Proof. unfold index, ptsR. rewrite map_length. intros H. exists (Z.to_nat k). lia. Qed.

Lemma check_gp : check3 zs = true -> check4 zs = true -> in_general_position (ptsR zs).
Proof.
  intros H3 H4.
  assert (C3 : forall a b c, (a < length zs)%nat -> (b < length zs)%nat -> (c < length zs)%nat -> a <> b -> b <> c -> a <> c ->
     zcr (zpt zs a) (zpt zs b) (zpt zs c) <> 0).
  { intros a b c Ha Hb Hc N1 N2 N3. unfold check3 in H3.
    assert (K := all_lt_spec _ _ (all_lt_spec _ _ (all_lt_spec _ _ H3 a Ha) b Hb) c Hc). cbv beta in K.
    apply Nat.eqb_neq in N1, N2, N3. rewrite N1, N2, N3 in K. cbn [orb] in K.
    apply negb_true_iff, Z.eqb_neq in K. exact K. }
  split; [|split].
  - intros a b c Ia Ib Ic N1 N2 N3. destruct (index_nat a Ia) as (i & -> & Hi). destruct (index_nat b Ib) as (j & -> & Hj).
    destruct (index_nat c Ic) as (k & -> & Hk). unfold collinear. rewrite turn_cr, cr_at by assumption.
    assert (K := C3 i j k Hi Hj Hk ltac:(lia) ltac:(lia) ltac:(lia)). apply IZR_neq in K. lra.
  - intros a b c d Ia Ib Ic Id N1 N2 N3 N4 N5 N6 ox oy E1 E2 E3.
    destruct (index_nat a Ia) as (i & -> & Hi). destruct (index_nat b Ib) as (j & -> & Hj).
    destruct (index_nat c Ic) as (k & -> & Hk). destruct (index_nat d Id) as (l & -> & Hl).
    assert (P := pw_icd X Y ox oy (Z.of_nat i) (Z.of_nat j) (Z.of_nat k) (Z.of_nat l)).
    rewrite <- !sqdist_pw in P. specialize (P ltac:(lra) ltac:(lra)).
    replace (sqdist ox oy (pt (ptsR zs) (Z.of_nat l)) - sqdist ox oy (pt (ptsR zs) (Z.of_nat i)))%R with 0%R in P by lra.
    rewrite Rmult_0_l, icd_at in P by assumption.
    assert (K := all_lt_spec _ _ (all_lt_spec _ _ (all_lt_spec _ _ (all_lt_spec _ _ H4 i Hi) j Hj) k Hk) l Hl). cbv beta in K.
    assert (M1 : (i =? j)%nat = false) by (apply Nat.eqb_neq; lia).
    assert (M2 : (i =? k)%nat = false) by (apply Nat.eqb_neq; lia).
    assert (M3 : (i =? l)%nat = false) by (apply Nat.eqb_neq; lia).
    assert (M4 : (j =? k)%nat = false) by (apply Nat.eqb_neq; lia).
    assert (M5 : (j =? l)%nat = false) by (apply Nat.eqb_neq; lia).
    assert (M6 : (k =? l)%nat = false) by (apply Nat.eqb_neq; lia).
    rewrite M1, M2, M3, M4, M5, M6 in K. cbn [orb] in K. apply negb_true_iff, Z.eqb_neq, IZR_neq in K. lra.
  - intros a b Ia Ib. destruct (index_nat a Ia) as (i & -> & Hi). destruct (index_nat b Ib) as (j & -> & Hj).
    rewrite !ptR_at by assumption. unfold yof, toR. cbn [py].
    destruct (Z.eq_dec (snd (zpt zs i)) (snd (zpt zs j))) as [E|E]; [left; rewrite E; reflexivity|right].
    replace (IZR (snd (zpt zs i)) / 100 - IZR (snd (zpt zs j)) / 100)%R with (IZR (snd (zpt zs i) - snd (zpt zs j)) / 100)%R
      by (rewrite minus_IZR; field).
    unfold Rdiv at 2. rewrite Rabs_mult, <- abs_IZR, (Rabs_pos_eq (/ 100)) by lra.
    assert (1 <= Z.abs (snd (zpt zs i) - snd (zpt zs j)))%Z by lia. apply IZR_le in H. lra.
Qed.

Lemma check_empty_spec a b c : (a < length zs)%nat -> (b < length zs)%nat -> (c < length zs)%nat ->
  check_empty zs a b c = true -> empty_circle (ptsR zs) (Z.of_nat a) (Z.of_nat b) (Z.of_nat c).
Proof.
  intros Ha Hb Hc H ox oy E1 E2 k Ik Na Nb Nc. destruct (index_nat k Ik) as (l & -> & Hl).
  assert (K := all_lt_spec _ _ H l Hl). cbv beta in K.
  assert (M1 : (l =? a)%nat = false) by (apply Nat.eqb_neq; lia).
  assert (M2 : (l =? b)%nat = false) by (apply Nat.eqb_neq; lia).
  assert (M3 : (l =? c)%nat = false) by (apply Nat.eqb_neq; lia).
  rewrite M1, M2, M3 in K. cbn [orb] in K. apply Z.ltb_lt, IZR_lt in K. rewrite mult_IZR in K.
  assert (P := pw_icd X Y ox oy (Z.of_nat a) (Z.of_nat b) (Z.of_nat c) (Z.of_nat l)).
  rewrite <- !sqdist_pw in P. specialize (P ltac:(lra) ltac:(lra)).
  rewrite cr_at, icd_at in P by assumption.
  set (u := IZR (zcr _ _ _)) in *. set (v := IZR (zicd _ _ _ _)) in *.
  set (w := (sqdist ox oy (pt (ptsR zs) (Z.of_nat l)) - sqdist ox oy (pt (ptsR zs) (Z.of_nat a)))%R) in *.
  assert (Ev : v = (10000 * w * u)%R) by lra. rewrite Ev in K.
  assert (0 < w)%R; [|unfold w in *; lra].
  assert (0 < (u * u) * w)%R by lra. assert (0 <= u * u)%R by nra. nra.
Qed.
End Check.
