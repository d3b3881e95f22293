(** Correctness of LUDecompose / LUSolve / Invert in exact arithmetic. *)
From Verif Require Import Base Num M_Linalg.
From Coq Require Import Reals Lra Psatz.
From Flocq Require Import Core.
Open Scope R_scope.

Notation matR := (mat NumR).
Notation vecR := (vec NumR).
Notation RMat := (@Mat NumR).
Notation RVec := (@Vec NumR).

Definition det (a : matR) : R :=
  (m00 a : R) * (m11 a * m22 a - m12 a * m21 a) - m01 a * (m10 a * m22 a - m12 a * m20 a)
  + m02 a * (m10 a * m21 a - m11 a * m20 a).

(** The inverse by cofactors. *)
Definition inverse (a : matR) : matR :=
  let d := det a in
  let b := a in
  RMat ((m11 b * m22 b - m12 b * m21 b : R) / d) ((m02 b * m21 b - m01 b * m22 b : R) / d) ((m01 b * m12 b - m02 b * m11 b : R) / d)
       ((m12 b * m20 b - m10 b * m22 b : R) / d) ((m00 b * m22 b - m02 b * m20 b : R) / d) ((m02 b * m10 b - m00 b * m12 b : R) / d)
       ((m10 b * m21 b - m11 b * m20 b : R) / d) ((m01 b * m20 b - m00 b * m21 b : R) / d) ((m00 b * m11 b - m01 b * m10 b : R) / d).

Definition pos_vec (v : vecR) : Prop := 0 < (v0 v : R) /\ 0 < (v1 v : R) /\ 0 < (v2 v : R).

Ltac norm0 := repeat match goal with
  | |- context [?x - 0] => replace (x - 0) with x by (symmetry; apply Rminus_0_r)
  | |- context [0 + ?x] => replace (0 + x) with x by (symmetry; apply Rplus_0_l)
  end.

Lemma Rle_bool_true' x y : x <= y -> Rle_bool x y = true.
Proof. intros H. apply Rle_bool_true. exact H. Qed.

(** ** Pivot search *)
Lemma scaled_nonneg (s x : R) : 0 < s -> 0 <= s * Rabs x.
Proof. intros. apply Rmult_le_pos; [lra|apply Rabs_pos]. Qed.
Lemma scaled_zero (s x : R) : 0 < s -> s * Rabs x <= 0 -> x = 0.
Proof.
  intros Hs H. destruct (Req_dec x 0) as [E|E]; [exact E|]. exfalso.
  pose proof (Rabs_pos_lt x E). assert (0 < s * Rabs x) by (apply Rmult_lt_0_compat; assumption). lra.
Qed.

Lemma find_pivot_0 (a : matR) (rs : vecR) : pos_vec rs ->
  exists p, find_pivot NumR a rs 0 = p /\ (p = 0 \/ p = 1 \/ p = 2)%nat /\
    ((mget a p 0 : R) = 0 -> (m00 a : R) = 0 /\ (m10 a : R) = 0 /\ (m20 a : R) = 0).
Proof.
  intros (H0 & H1 & H2). eexists. split; [reflexivity|].
  unfold find_pivot. cbn [seq fold_left Nat.sub vget mget].
  cbn [fle fabs fmul fZ NumR].
  pose proof (scaled_nonneg _ (m00 a) H0) as P0. pose proof (scaled_nonneg _ (m10 a) H1) as P1.
  pose proof (scaled_nonneg _ (m20 a) H2) as P2.
  rewrite (Rle_bool_true' _ _ P0). cbn [vget mget].
  destruct (Rle_bool_spec (v0 rs * Rabs (m00 a)) (v1 rs * Rabs (m10 a))) as [C1|C1]; cbn [vget mget].
  - destruct (Rle_bool_spec (v1 rs * Rabs (m10 a)) (v2 rs * Rabs (m20 a))) as [C2|C2]; cbn [snd mget].
    + split; [auto|]. intros E. rewrite E, Rabs_R0, Rmult_0_r in C2.
      repeat split; [eapply (scaled_zero _ _ H0); lra|eapply (scaled_zero _ _ H1); lra|exact E].
    + split; [auto|]. intros E. rewrite E, Rabs_R0, Rmult_0_r in C2. lra.
  - destruct (Rle_bool_spec (v0 rs * Rabs (m00 a)) (v2 rs * Rabs (m20 a))) as [C2|C2]; cbn [snd mget].
    + split; [auto|]. intros E. rewrite E, Rabs_R0, Rmult_0_r in C2. lra.
    + split; [auto|]. intros E. rewrite E, Rabs_R0, Rmult_0_r in C2. lra.
Qed.

Lemma find_pivot_1 (a : matR) (rs : vecR) : pos_vec rs ->
  exists p, find_pivot NumR a rs 1 = p /\ (p = 1 \/ p = 2)%nat /\
    ((mget a p 1 : R) = 0 -> (m11 a : R) = 0 /\ (m21 a : R) = 0).
Proof.
  intros (H0 & H1 & H2). eexists. split; [reflexivity|].
  unfold find_pivot. cbn [seq fold_left Nat.sub vget mget].
  cbn [fle fabs fmul fZ NumR].
  pose proof (scaled_nonneg _ (m11 a) H1) as P1. pose proof (scaled_nonneg _ (m21 a) H2) as P2.
  rewrite (Rle_bool_true' _ _ P1). cbn [vget mget].
  destruct (Rle_bool_spec (v1 rs * Rabs (m11 a)) (v2 rs * Rabs (m21 a))) as [C2|C2]; cbn [snd mget].
  - split; [auto|]. intros E. rewrite E, Rabs_R0, Rmult_0_r in C2.
    split; [eapply (scaled_zero _ _ H1); lra|exact E].
  - split; [auto|]. intros E. rewrite E, Rabs_R0, Rmult_0_r in C2. lra.
Qed.

Lemma find_pivot_2 (a : matR) (rs : vecR) : pos_vec rs -> find_pivot NumR a rs 2 = 2%nat.
Proof.
  intros (H0 & H1 & H2). unfold find_pivot. cbn [seq fold_left Nat.sub vget mget].
  cbn [fle fabs fmul fZ NumR].
  rewrite (Rle_bool_true' _ _ (scaled_nonneg _ (m22 a) H2)). reflexivity.
Qed.

(** ** The three elimination steps *)
Lemma step0 (a : matR) (rs : vecR) : pos_vec rs -> ~ ((m00 a : R) = 0 /\ (m10 a : R) = 0 /\ (m20 a : R) = 0) ->
  exists i0 i1 i2 rs' l1 l2,
    lu_step NumR (a, (0, 1, 2)%nat, rs) 0 =
      (RMat (mget a i0 0) (mget a i0 1) (mget a i0 2) l1 (mget a i1 1) (mget a i1 2) l2 (mget a i2 1) (mget a i2 2),
       (i0, i1, i2), rs') /\ pos_vec rs' /\
    ((i0, i1, i2) = (0, 1, 2) \/ (i0, i1, i2) = (1, 0, 2) \/ (i0, i1, i2) = (2, 1, 0))%nat /\
    (mget a i0 0 : R) <> 0 /\ (l1 * mget a i0 0 = mget a i1 0) /\ (l2 * mget a i0 0 = mget a i2 0).
Proof.
  intros Hrs Hne. destruct a as [a b c d e f g h i].
  unfold lu_step. set (a1 := crout_column NumR (RMat a b c d e f g h i) 0).
  assert (Ha1 : a1 = RMat a b c d e f g h i).
  { unfold a1, crout_column, crout_elem. cbn [seq fold_left Nat.sub mset mget m00 m01 m02 m10 m11 m12 m20 m21 m22].
    cbn [fsub fadd fmul fZ NumR]. rewrite !Rminus_0_r. reflexivity. }
  rewrite Ha1. clear a1 Ha1.
  destruct (find_pivot_0 (RMat a b c d e f g h i) rs Hrs) as (p & Ep & Hp & Hz). rewrite Ep.
  destruct Hrs as (P0 & P1 & P2).
  destruct Hp as [ -> | [ -> | -> ] ]; cbn [Nat.eqb mget m00 m01 m02 m10 m11 m12 m20 m21 m22] in *.
  - assert (Ha : a <> 0) by tauto.
    cbn [feq fZ NumR]. rewrite (Req_bool_false a 0 Ha).
    cbn [seq fold_left Nat.sub Nat.add mset mget m00 m01 m02 m10 m11 m12 m20 m21 m22 fmul fdiv fZ NumR].
    eexists 0%nat, 1%nat, 2%nat, _, _, _. split; [reflexivity|]. cbn [mget m00 m10 m20].
    split; [repeat split; assumption|]. split; [auto|]. split; [exact Ha|]. split; field; exact Ha.
  - assert (Ha : d <> 0) by tauto.
    unfold swap_rows. cbn [seq fold_left mset mget m00 m01 m02 m10 m11 m12 m20 m21 m22].
    cbn [feq fZ NumR]. rewrite (Req_bool_false d 0 Ha).
    cbn [seq fold_left Nat.sub Nat.add mset mget m00 m01 m02 m10 m11 m12 m20 m21 m22 fmul fdiv fZ NumR iget iset].
    eexists 1%nat, 0%nat, 2%nat, _, _, _. split; [reflexivity|]. cbn [mget m00 m10 m20].
    split; [repeat split; assumption|]. split; [auto|]. split; [exact Ha|]. split; field; exact Ha.
  - assert (Ha : g <> 0) by tauto.
    unfold swap_rows. cbn [seq fold_left mset mget m00 m01 m02 m10 m11 m12 m20 m21 m22].
    cbn [feq fZ NumR]. rewrite (Req_bool_false g 0 Ha).
    cbn [seq fold_left Nat.sub Nat.add mset mget m00 m01 m02 m10 m11 m12 m20 m21 m22 fmul fdiv fZ NumR iget iset].
    eexists 2%nat, 1%nat, 0%nat, _, _, _. split; [reflexivity|]. cbn [mget m00 m10 m20].
    split; [repeat split; assumption|]. split; [auto|]. split; [exact Ha|]. split; field; exact Ha.
Qed.

Lemma step1 (u00 u01 u02 l1 b1 c1 l2 b2 c2 : R) (i0 i1 i2 : nat) (rs : vecR) : pos_vec rs ->
  ~ (b1 - l1 * u01 = 0 /\ b2 - l2 * u01 = 0) ->
  exists l1' u11 c1' l2' b2' l21 c2' i1' i2' rs',
    lu_step NumR (RMat u00 u01 u02 l1 b1 c1 l2 b2 c2, (i0, i1, i2), rs) 1 =
      (RMat u00 u01 u02 l1' u11 c1' l2' l21 c2', (i0, i1', i2'), rs') /\ pos_vec rs' /\
    ((l1', u11 + l1' * u01, c1', i1') = (l1, b1, c1, i1) /\ (l2', b2', c2', i2') = (l2, b2, c2, i2) \/
     (l1', u11 + l1' * u01, c1', i1') = (l2, b2, c2, i2) /\ (l2', b2', c2', i2') = (l1, b1, c1, i1)) /\
    u11 <> 0 /\ l21 * u11 = b2' - l2' * u01.
Proof.
  intros Hrs Hne. unfold lu_step.
  set (a1 := crout_column NumR _ 1).
  assert (Ha1 : a1 = RMat u00 u01 u02 l1 (b1 - l1 * u01) c1 l2 (b2 - l2 * u01) c2).
  { unfold a1, crout_column, crout_elem. cbn [seq fold_left Nat.sub mset mget m00 m01 m02 m10 m11 m12 m20 m21 m22].
    cbn [fsub fadd fmul fZ NumR]. rewrite !Rminus_0_r, !Rplus_0_l. reflexivity. }
  rewrite Ha1. clear a1 Ha1.
  destruct (find_pivot_1 (RMat u00 u01 u02 l1 (b1 - l1 * u01) c1 l2 (b2 - l2 * u01) c2) rs Hrs) as (p & Ep & Hp & Hz).
  rewrite Ep. destruct Hrs as (P0 & P1 & P2).
  destruct Hp as [ -> | -> ]; cbn [Nat.eqb mget m00 m01 m02 m10 m11 m12 m20 m21 m22] in *.
  - assert (Ha : b1 - l1 * u01 <> 0) by tauto.
    cbn [feq fZ NumR]. rewrite (Req_bool_false _ 0 Ha).
    cbn [seq fold_left Nat.sub Nat.add mset mget m00 m01 m02 m10 m11 m12 m20 m21 m22 fmul fdiv fZ NumR].
    eexists l1, _, c1, l2, b2, _, c2, i1, i2, _. split; [reflexivity|].
    split; [repeat split; assumption|]. split; [left; split; [|reflexivity]; f_equal; f_equal; f_equal; ring|].
    split; [exact Ha|]. field. exact Ha.
  - assert (Ha : b2 - l2 * u01 <> 0) by tauto.
    unfold swap_rows. cbn [seq fold_left mset mget m00 m01 m02 m10 m11 m12 m20 m21 m22].
    cbn [feq fZ NumR]. rewrite (Req_bool_false _ 0 Ha).
    cbn [seq fold_left Nat.sub Nat.add mset mget m00 m01 m02 m10 m11 m12 m20 m21 m22 fmul fdiv fZ NumR iget iset].
    eexists l2, _, c2, l1, b1, _, c1, i2, i1, _. split; [reflexivity|].
    split; [repeat split; assumption|]. split; [right; split; [|reflexivity]; f_equal; f_equal; f_equal; ring|].
    split; [exact Ha|]. field. exact Ha.
Qed.

Lemma step2 (u00 u01 u02 l1 u11 c1 l2 l21 c2 : R) idx (rs : vecR) : pos_vec rs ->
  let u12 := c1 - l1 * u02 in
  let u22 := c2 - (l2 * u02 + l21 * u12) in
  u22 <> 0 ->
  exists rs', lu_step NumR (RMat u00 u01 u02 l1 u11 c1 l2 l21 c2, idx, rs) 2 =
    (RMat u00 u01 u02 l1 u11 u12 l2 l21 u22, idx, rs').
Proof.
  intros Hrs u12 u22 Hne. unfold lu_step.
  set (a1 := crout_column NumR _ 2).
  assert (Ha1 : a1 = RMat u00 u01 u02 l1 u11 u12 l2 l21 u22).
  { unfold a1, crout_column, crout_elem. cbn [seq fold_left Nat.sub mset mget m00 m01 m02 m10 m11 m12 m20 m21 m22].
    cbn [fsub fadd fmul fZ NumR]. rewrite !Rminus_0_r, !Rplus_0_l. reflexivity. }
  rewrite Ha1. clear a1 Ha1. rewrite find_pivot_2 by exact Hrs. cbn [Nat.eqb].
  cbn [mget m00 m01 m02 m10 m11 m12 m20 m21 m22 feq fZ NumR]. rewrite (Req_bool_false _ 0 Hne).
  cbn [seq fold_left Nat.sub Nat.add]. eexists. reflexivity.
Qed.

(** ** Solving *)
Definition is_perm3 (p : idx3) : Prop :=
  p = (0, 1, 2)%nat \/ p = (1, 0, 2)%nat \/ p = (2, 1, 0)%nat \/ p = (0, 2, 1)%nat \/
  p = (1, 2, 0)%nat \/ p = (2, 0, 1)%nat.

(** row [i] of the product of the unit lower and the upper factor *)
Definition lu_row (lu : matR) (i j : nat) : R :=
  match i with
  | O => mget lu 0 j
  | S O => match j with O => m10 lu * m00 lu | S O => m10 lu * m01 lu + m11 lu | _ => m10 lu * m02 lu + m12 lu end
  | _ => match j with O => m20 lu * m00 lu | S O => m20 lu * m01 lu + m21 lu * m11 lu
                    | _ => m20 lu * m02 lu + m21 lu * m12 lu + m22 lu end
  end.

Lemma LUSolve_ok (lu : matR) idx (b : vecR) : is_perm3 idx ->
  (m00 lu : R) <> 0 -> (m11 lu : R) <> 0 -> (m22 lu : R) <> 0 ->
  let x := LUSolve NumR lu idx b in
  forall i, (i < 3)%nat ->
    lu_row lu i 0 * v0 x + lu_row lu i 1 * v1 x + lu_row lu i 2 * v2 x = vget b (iget idx i).
Proof.
  intros Hp H0 H1 H2. destruct lu as [u00 u01 u02 l10 u11 u12 l20 l21 u22], b as [b0 b1 b2].
  cbn [m00 m11 m22] in H0, H1, H2.
  unfold LUSolve.
  destruct Hp as [ -> |[ -> |[ -> |[ -> |[ -> | -> ]]]]];
    cbn [seq fold_left Nat.sub Nat.add iget iset vget vset v0 v1 v2 mget m00 m01 m02 m10 m11 m12 m20 m21 m22
         fsub fadd fmul fdiv fZ NumR];
    intros [|[|[|i]]] Hi; try lia;
    cbn [lu_row iget vget v0 v1 v2 mget m00 m01 m02 m10 m11 m12 m20 m21 m22]; field; auto.
Qed.

(** ** LUDecompose *)
Definition row_of (a : matR) (i : nat) : R * R * R := (mget a i 0, mget a i 1, mget a i 2).

Lemma fmaxR (x y : R) : fmax NumR x y = Rmax x y.
Proof.
  unfold fmax. cbn [flt feq NumR].
  destruct (Rlt_bool_spec x y); [rewrite Rmax_right; lra|].
  rewrite Req_bool_true by reflexivity. rewrite Rmax_left; lra.
Qed.
Lemma row_largest_zero (m9 : R) (a : matR) i (l : R) : row_largest NumR (Ok m9) a i = Ok l ->
  0 <= l /\ Rabs (mget a i 0) <= l /\ Rabs (mget a i 1) <= l /\ Rabs (mget a i 2) <= l.
Proof.
  unfold row_largest.
  assert (forall z : R, Ok (fmax NumR (fabs NumR z) (fmax NumR (fabs NumR (mget a i 2)) (fmax NumR (fabs NumR (mget a i 1))
       (fmax NumR (fabs NumR (mget a i 0)) (fZ NumR 0))))) = Ok l ->
     0 <= l /\ Rabs (mget a i 0) <= l /\ Rabs (mget a i 1) <= l /\ Rabs (mget a i 2) <= l) as H.
  { intros z E. injection E as <-. rewrite !fmaxR. cbn [fabs fZ NumR].
    set (A := Rabs (mget a i 0)). set (B := Rabs (mget a i 1)). set (C := Rabs (mget a i 2)).
    pose proof (Rmax_l A 0). pose proof (Rmax_r A 0). set (D := Rmax A 0) in *.
    pose proof (Rmax_l B D). pose proof (Rmax_r B D). set (E := Rmax B D) in *.
    pose proof (Rmax_l C E). pose proof (Rmax_r C E). set (G := Rmax C E) in *.
    pose proof (Rmax_l (Rabs z) G). pose proof (Rmax_r (Rabs z) G). lra. }
  destruct i as [|[|i]]; cbn [bind]; apply H.
Qed.
Lemma Rabs_le0 x : Rabs x <= 0 -> x = 0.
Proof. intros H. destruct (Req_dec x 0); [assumption|]. pose proof (Rabs_pos_lt x). lra. Qed.

Lemma row_largest_ex (m9 : R) (a : matR) i : exists l, row_largest NumR (Ok m9) a i = Ok l.
Proof. unfold row_largest. destruct i as [|[|i]]; cbn [bind]; eauto. Qed.

Lemma LUDecompose_ok (m9 : R) (a : matR) : det a <> 0 ->
  exists lu idx, LUDecompose NumR (Ok m9) a = Ok (Some (lu, idx)) /\ is_perm3 idx /\
    (m00 lu : R) <> 0 /\ (m11 lu : R) <> 0 /\ (m22 lu : R) <> 0 /\
    (forall i j, (i < 3)%nat -> (j < 3)%nat -> lu_row lu i j = mget a (iget idx i) j).
Proof.
  intros Hd. unfold LUDecompose.
  destruct (row_largest_ex m9 a 0) as (l0 & E0), (row_largest_ex m9 a 1) as (l1 & E1), (row_largest_ex m9 a 2) as (l2 & E2).
  pose proof (row_largest_zero m9 a 0 l0 E0) as (N0 & R00 & R01 & R02).
  pose proof (row_largest_zero m9 a 1 l1 E1) as (N1 & R10 & R11 & R12).
  pose proof (row_largest_zero m9 a 2 l2 E2) as (N2 & R20 & R21 & R22).
  rewrite E0, E1, E2. cbn [bind feq fZ NumR fdiv]. cbn [mget] in *.
  assert (Z0 : l0 <> 0).
  { intros ->. apply Rabs_le0 in R00, R01, R02. apply Hd. unfold det. rewrite R00, R01, R02. ring. }
  assert (Z1 : l1 <> 0).
  { intros ->. apply Rabs_le0 in R10, R11, R12. apply Hd. unfold det. rewrite R10, R11, R12. ring. }
  assert (Z2 : l2 <> 0).
  { intros ->. apply Rabs_le0 in R20, R21, R22. apply Hd. unfold det. rewrite R20, R21, R22. ring. }
  rewrite !Req_bool_false by assumption.
  set (rs := RVec (1 / l0) (1 / l1) (1 / l2)).
  assert (Hrs : pos_vec rs).
  { unfold rs, pos_vec. cbn. repeat split; apply Rdiv_lt_0_compat; lra. }
  cbn [seq]. cbn [fold_left].
  destruct (step0 a rs Hrs) as (i0 & i1 & i2 & rs1 & p & q & S0 & Hrs1 & Hi & Hpiv & Hp & Hq).
  { intros (A0 & A1 & A2). apply Hd. unfold det. rewrite A0, A1, A2. ring. }
  match goal with |- context [lu_step NumR (a, ?x, rs) 0] => change x with (0, 1, 2)%nat end.
  rewrite S0.
  set (x0 := mget a i0 0 : R) in *. set (y0 := mget a i0 1 : R) in *. set (z0 := mget a i0 2 : R) in *.
  set (x1 := mget a i1 0 : R) in *. set (y1 := mget a i1 1 : R) in *. set (z1 := mget a i1 2 : R) in *.
  set (x2 := mget a i2 0 : R) in *. set (y2 := mget a i2 1 : R) in *. set (z2 := mget a i2 2 : R) in *.
  assert (Hdet : x0 * (y1 * z2 - z1 * y2) - y0 * (x1 * z2 - z1 * x2) + z0 * (x1 * y2 - y1 * x2) <> 0).
  { intros Hz. apply Hd.
    destruct Hi as [Hi|[Hi|Hi]]; injection Hi as -> -> ->;
      unfold x0, x1, x2, y0, y1, y2, z0, z1, z2 in Hz; cbn [mget] in Hz; unfold det; lra. }
  assert (Hfac : x0 * (y1 * z2 - z1 * y2) - y0 * (x1 * z2 - z1 * x2) + z0 * (x1 * y2 - y1 * x2)
                 = x0 * ((y1 - p * y0) * (z2 - q * z0) - (y2 - q * y0) * (z1 - p * z0))).
  { rewrite <- Hp, <- Hq. ring. }
  destruct (step1 x0 y0 z0 p y1 z1 q y2 z2 i0 i1 i2 rs1 Hrs1)
    as (p' & u11 & c1 & q' & b2 & l21 & c2 & i1' & i2' & rs2 & S1 & Hrs2 & Hsw & Hu & Hl).
  { intros (A1 & A2). apply Hdet. rewrite Hfac, A1, A2. ring. }
  rewrite S1.
  assert (Hu22 : c2 - (q' * z0 + l21 * (c1 - p' * z0)) <> 0).
  { intros Hz. apply Hdet. rewrite Hfac.
    assert (Hz' : u11 * (c2 - q' * z0) - (l21 * u11) * (c1 - p' * z0) = 0) by (replace (u11 * (c2 - q' * z0) - l21 * u11 * (c1 - p' * z0)) with (u11 * (c2 - (q' * z0 + l21 * (c1 - p' * z0)))) by ring; rewrite Hz; ring).
    rewrite Hl in Hz'.
    destruct Hsw as [[A B]|[A B]]; injection A as -> A -> _; injection B as -> -> -> _.
    - replace (y1 - p * y0) with u11 by lra. rewrite Rmult_eq_0_compat_l; [ring|lra].
    - replace (y2 - q * y0) with u11 by lra.
      replace ((y1 - p * y0) * (z2 - q * z0) - u11 * (z1 - p * z0)) with
        (- (u11 * (z1 - p * z0) - (y1 - p * y0) * (z2 - q * z0))) by ring. rewrite Hz'. ring. }
  destruct (step2 x0 y0 z0 p' u11 c1 q' l21 c2 (i0, i1', i2') rs2 Hrs2 Hu22) as (rs3 & S2).
  match goal with |- context [lu_step NumR ?st 2] => replace (lu_step NumR st 2) with
    (RMat x0 y0 z0 p' u11 (c1 - p' * z0) q' l21 (c2 - (q' * z0 + l21 * (c1 - p' * z0))), (i0, i1', i2'), rs3)
    by (symmetry; exact S2) end.
  eexists _, _. split; [reflexivity|].
  split.
  { unfold is_perm3. destruct Hsw as [[A B]|[A B]]; injection A as _ _ _ ->; injection B as _ _ _ ->;
    destruct Hi as [Hi|[Hi|Hi]]; injection Hi as -> -> ->; auto 10. }
  cbn [m00 m11 m22]. split; [exact Hpiv|]. split; [exact Hu|]. split; [exact Hu22|].
  intros i j Hi3 Hj3. clear S0 S1 S2.
  destruct Hsw as [[A B]|[A B]]; injection A as A1 A2 A3 A4; injection B as B1 B2 B3 B4; subst.
  - destruct i as [|[|[|i]]]; [| | |lia]; (destruct j as [|[|[|j]]]; [| | |lia]);
      cbn [lu_row iget mget m00 m01 m02 m10 m11 m12 m20 m21 m22]; try reflexivity;
      try (fold x0 y0 z0 x1 y1 z1 x2 y2 z2; lra).
  - destruct i as [|[|[|i]]]; [| | |lia]; (destruct j as [|[|[|j]]]; [| | |lia]);
      cbn [lu_row iget mget m00 m01 m02 m10 m11 m12 m20 m21 m22]; try reflexivity;
      try (fold x0 y0 z0 x1 y1 z1 x2 y2 z2; lra).
Qed.

(** ** Invert *)
Lemma cramer (a : matR) (x y z b0 b1 b2 : R) : det a <> 0 ->
  m00 a * x + m01 a * y + m02 a * z = b0 ->
  m10 a * x + m11 a * y + m12 a * z = b1 ->
  m20 a * x + m21 a * y + m22 a * z = b2 ->
  x = m00 (inverse a) * b0 + m01 (inverse a) * b1 + m02 (inverse a) * b2 /\
  y = m10 (inverse a) * b0 + m11 (inverse a) * b1 + m12 (inverse a) * b2 /\
  z = m20 (inverse a) * b0 + m21 (inverse a) * b1 + m22 (inverse a) * b2.
Proof.
  intros Hd <- <- <-. unfold inverse. cbn [m00 m01 m02 m10 m11 m12 m20 m21 m22].
  set (D := det a) in *. assert (HD : D = det a) by reflexivity. clearbody D. unfold det in HD.
  repeat split; field_simplify_eq; try assumption; rewrite HD; ring.
Qed.

Lemma Invert_ok_R (m9 : R) (a : matR) : det a <> 0 -> Invert NumR (Ok m9) a = Ok (Some (inverse a)).
Proof.
  intros Hd. unfold Invert. destruct (LUDecompose_ok m9 a Hd) as (lu & idx & E & Hp & H0 & H1 & H2 & Hrow).
  rewrite E. cbn [bind].
  assert (Hcol : forall b : vecR, let x := LUSolve NumR lu idx b in
     (v0 x : R) = m00 (inverse a) * v0 b + m01 (inverse a) * v1 b + m02 (inverse a) * v2 b /\
     (v1 x : R) = m10 (inverse a) * v0 b + m11 (inverse a) * v1 b + m12 (inverse a) * v2 b /\
     (v2 x : R) = m20 (inverse a) * v0 b + m21 (inverse a) * v1 b + m22 (inverse a) * v2 b).
  { intros b x. pose proof (LUSolve_ok lu idx b Hp H0 H1 H2) as Hs. cbv zeta in Hs. fold x in Hs.
    assert (Hs' : forall i, (i < 3)%nat -> mget a (iget idx i) 0 * v0 x + mget a (iget idx i) 1 * v1 x
                   + mget a (iget idx i) 2 * v2 x = vget b (iget idx i)).
    { intros i Hi. rewrite <- !Hrow by lia. apply Hs, Hi. }
    pose proof (Hs' 0%nat ltac:(lia)) as A0. pose proof (Hs' 1%nat ltac:(lia)) as A1. pose proof (Hs' 2%nat ltac:(lia)) as A2.
    apply cramer; [exact Hd| | |];
      (destruct Hp as [ -> |[ -> |[ -> |[ -> |[ -> | -> ]]]]]; cbn [iget mget vget] in *; assumption). }
  destruct (Hcol (RVec 1 0 0)) as (A0 & A1 & A2). destruct (Hcol (RVec 0 1 0)) as (B0 & B1 & B2).
  destruct (Hcol (RVec 0 0 1)) as (C0 & C1 & C2).
  do 2 f_equal. cbn [fZ NumR]. cbn [v0 v1 v2] in *.
  rewrite A0, A1, A2, B0, B1, B2, C0, C1, C2. clear.
  destruct (inverse a) as [a00 a01 a02 a10 a11 a12 a20 a21 a22]. cbn [m00 m01 m02 m10 m11 m12 m20 m21 m22].
  f_equal; ring.
Qed.

Lemma inverse_left (a : matR) : det a <> 0 -> forall x y z : R,
  mvmul NumR (inverse a) (mvmul NumR a (RVec x y z)) = RVec x y z.
Proof.
  intros Hd x y z.
  destruct (cramer a x y z _ _ _ Hd eq_refl eq_refl eq_refl) as (Ex & Ey & Ez).
  unfold mvmul, dot3. cbn [mget v0 v1 v2 fadd fmul NumR].
  rewrite <- Ex, <- Ey, <- Ez. reflexivity.
Qed.

(** When does Invert report a singular matrix? *)
Lemma LUDecompose_some (m9 : R) (a : matR) l0 l1 l2 :
  row_largest NumR (Ok m9) a 0 = Ok l0 -> row_largest NumR (Ok m9) a 1 = Ok l1 -> row_largest NumR (Ok m9) a 2 = Ok l2 ->
  l0 <> 0 -> l1 <> 0 -> l2 <> 0 -> exists d, LUDecompose NumR (Ok m9) a = Ok (Some d).
Proof.
  intros E0 E1 E2 Z0 Z1 Z2. unfold LUDecompose. rewrite E0, E1, E2. cbn [bind feq fZ NumR].
  rewrite !Req_bool_false by assumption.
  destruct (fold_left (lu_step NumR) _ _) as [[lu idx] rs]. eexists. reflexivity.
Qed.
Lemma row_largest_iff (m9 : R) (a : matR) i (l : R) : row_largest NumR (Ok m9) a i = Ok l ->
  (l = 0 <-> (mget a i 0 : R) = 0 /\ (mget a i 1 : R) = 0 /\ (mget a i 2 : R) = 0 /\
     match i with 0%nat => (m10 a : R) | 1%nat => m20 a | _ => m9 end = 0).
Proof.
  intros E. pose proof (row_largest_zero m9 a i l E) as (N0 & R0 & R1 & R2).
  unfold row_largest in E.
  assert (Hz : exists z : R, match i with 0%nat => (m10 a : R) | 1%nat => m20 a | _ => m9 end = z /\
     l = Rmax (Rabs z) (Rmax (Rabs (mget a i 2)) (Rmax (Rabs (mget a i 1)) (Rmax (Rabs (mget a i 0)) 0)))).
  { destruct i as [|[|i]]; cbn [bind] in E; injection E as <-; rewrite !fmaxR; eexists; split; reflexivity. }
  destruct Hz as (z & -> & Hl). split.
  - intros ->. pose proof (Rmax_l (Rabs z) (Rmax (Rabs (mget a i 2)) (Rmax (Rabs (mget a i 1)) (Rmax (Rabs (mget a i 0)) 0)))).
    rewrite <- Hl in H. repeat split; apply Rabs_le0; assumption.
  - intros (A & B & C & D). rewrite Hl, A, B, C, D, Rabs_R0.
    assert (M : Rmax 0 0 = 0) by (apply Rmax_left; lra). rewrite !M. reflexivity.
Qed.

Lemma Invert_none_iff (m9 : R) (a : matR) :
  Invert NumR (Ok m9) a = Ok None <->
  ((m00 a : R) = 0 /\ (m01 a : R) = 0 /\ (m02 a : R) = 0 /\ (m10 a : R) = 0) \/
  ((m10 a : R) = 0 /\ (m11 a : R) = 0 /\ (m12 a : R) = 0 /\ (m20 a : R) = 0) \/
  ((m20 a : R) = 0 /\ (m21 a : R) = 0 /\ (m22 a : R) = 0 /\ m9 = 0).
Proof.
  destruct (row_largest_ex m9 a 0) as (l0 & E0), (row_largest_ex m9 a 1) as (l1 & E1), (row_largest_ex m9 a 2) as (l2 & E2).
  pose proof (row_largest_iff m9 a 0 l0 E0) as I0. pose proof (row_largest_iff m9 a 1 l1 E1) as I1.
  pose proof (row_largest_iff m9 a 2 l2 E2) as I2. cbn [mget] in I0, I1, I2.
  unfold Invert.
  destruct (Req_dec l0 0) as [Z0|Z0].
  { split; [intros _; left; apply I0, Z0|]. intros _. unfold LUDecompose. rewrite E0. cbn [bind feq fZ NumR].
    rewrite Z0, Req_bool_true by reflexivity. reflexivity. }
  destruct (Req_dec l1 0) as [Z1|Z1].
  { split; [intros _; right; left; apply I1, Z1|]. intros _. unfold LUDecompose. rewrite E0, E1. cbn [bind feq fZ NumR].
    rewrite Req_bool_false by assumption. rewrite Z1, Req_bool_true by reflexivity. reflexivity. }
  destruct (Req_dec l2 0) as [Z2|Z2].
  { split; [intros _; right; right; apply I2, Z2|]. intros _. unfold LUDecompose. rewrite E0, E1, E2. cbn [bind feq fZ NumR].
    rewrite !Req_bool_false by assumption. rewrite Z2, Req_bool_true by reflexivity. reflexivity. }
  destruct (LUDecompose_some m9 a l0 l1 l2 E0 E1 E2 Z0 Z1 Z2) as ([lu idx] & E). rewrite E. cbn [bind].
  split; [discriminate|]. intros [H|[H|H]]; exfalso; tauto.
Qed.
