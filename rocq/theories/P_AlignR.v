(** The corrections in exact arithmetic. *)
From Verif Require Import Base Num M_Linalg M_Helper M_Alignment S_Alignment.
From Verif Require Import P_Alignment P_AlignState P_AlignState2 P_AlignSmall P_Linalg.
From Coq Require Import Permutation Sorted Reals Lra Psatz.
From Flocq Require Import Core.
Open Scope R_scope.

Notation pointR := (point NumR).
Notation alignR := (align NumR).
Notation vpairR := (vpair NumR).

Definition X (p : pointR) : R := px p.
Definition Y (p : pointR) : R := py p.

(** ** f_mod in exact arithmetic *)
Lemma f_mod_R (a n : R) : 0 < n ->
  0 <= f_mod NumR a n < n /\ exists k : Z, f_mod NumR a n = a + n * IZR k.
Proof.
  intros Hn. unfold f_mod. cbn [fsub fmul ffloor fdiv NumR].
  pose proof (Zfloor_lb (a / n)) as H1. pose proof (Zfloor_ub (a / n)) as H2.
  assert (E : a = n * (a / n)) by (field; lra).
  set (q := a / n) in *. set (z := Zfloor q) in *. rewrite E. split.
  - replace (n * q - n * IZR z) with (n * (q - IZR z)) by ring. split.
    + apply Rmult_le_pos; lra.
    + rewrite <- (Rmult_1_r n) at 2. apply Rmult_lt_compat_l; lra.
  - exists (- z)%Z. rewrite opp_IZR. change (n * q - n * IZR z = n * q + n * (- IZR z)). ring.
Qed.

(** [q] is (x mod 360, y). *)
Definition is_direction (q : pointR) (x y : R) : Prop :=
  0 <= X q < 360 /\ (exists k : Z, X q = x + 360 * IZR k) /\ Y q = y.
Definition calibrated_to (a : alignR) (p : pointR) (x y : R) : Prop :=
  exists q, getCalibratedOrientation NumR a p = Ok q /\ is_direction q x y.

Lemma calibrated_from_matrix (a : alignR) p m : getTransformationMatrix NumR a p = Ok m ->
  calibrated_to a p (m00 m * X p + m01 m * Y p + m02 m * 1) (m10 m * X p + m11 m * Y p + m12 m * 1).
Proof.
  intros E. unfold calibrated_to, getCalibratedOrientation. rewrite E. cbn [bind].
  eexists. split; [reflexivity|]. unfold is_direction, X, Y. cbn [px py].
  unfold mvmul, dot3. cbn [v0 v1 v2 mget fadd fmul fZ NumR].
  destruct (f_mod_R (m00 m * px p + m01 m * py p + m02 m * 1) 360 ltac:(lra)) as (H1 & k & H2).
  split; [exact H1|]. split; [exists k; exact H2|]. reflexivity.
Qed.

(** ** Matrices *)
Lemma mmul_mv (a b : mat NumR) v : mvmul NumR (mmul NumR a b) v = mvmul NumR a (mvmul NumR b v).
Proof.
  unfold mvmul, mmul, dot3. cbn [mget m00 m01 m02 m10 m11 m12 m20 m21 m22 v0 v1 v2 fadd fmul NumR].
  f_equal; ring.
Qed.

(** The three columns of a matrix as homogeneous points *)
Lemma solve_affine x (A B : mat NumR) (c1 c2 c3 : R) : det A <> 0 ->
  mvmul NumR (solve NumR x A B) (mvmul NumR A (RVec c1 c2 c3)) = mvmul NumR B (RVec c1 c2 c3).
Proof.
  intros Hd. unfold solve, solve_matrix.
  match goal with |- context [Invert NumR ?m A] => replace (Invert NumR m A) with (Ok (Some (inverse A))) by (symmetry; exact (Invert_ok_R x A Hd)) end.
  cbn [bind].
  rewrite mmul_mv, inverse_left by exact Hd. reflexivity.
Qed.

Lemma solve_combination x (A B : mat NumR) (c1 c2 c3 px py pz : R) : det A <> 0 ->
  mvmul NumR A (RVec c1 c2 c3) = RVec px py pz ->
  mvmul NumR (solve NumR x A B) (RVec px py pz) = mvmul NumR B (RVec c1 c2 c3).
Proof. intros Hd <-. apply solve_affine, Hd. Qed.

Definition cross (a b c : pointR) : R := (X b - X a) * (Y c - Y a) - (Y b - Y a) * (X c - X a).

Lemma det_tri (a b c : pointR) : det (tri_matrix NumR a b c) = cross a b c.
Proof.
  unfold det, tri_matrix, cross, X, Y. cbn [m00 m01 m02 m10 m11 m12 m20 m21 m22 fZ NumR]. ring.
Qed.
Lemma det_line (a b : pointR) : det (line_matrix NumR a b) = - ((X b - X a) ^ 2 + (Y b - Y a) ^ 2).
Proof.
  unfold det, line_matrix, X, Y. cbn [m00 m01 m02 m10 m11 m12 m20 m21 m22 fZ fadd fsub NumR]. ring.
Qed.

Lemma mv_rows (m : mat NumR) (x y z : R) :
  mvmul NumR m (RVec x y z) = RVec (m00 m * x + m01 m * y + m02 m * z)
    (m10 m * x + m11 m * y + m12 m * z) (m20 m * x + m21 m * y + m22 m * z).
Proof. reflexivity. Qed.

(** a matrix given by three corner pairs maps barycentric combinations to combinations *)
Lemma tri_affine x (a b c ra rb rc : pointR) (l1 l2 l3 : R) : cross a b c <> 0 -> l1 + l2 + l3 = 1 ->
  let m := solve NumR x (tri_matrix NumR a b c) (tri_matrix NumR ra rb rc) in
  let p1 := l1 * X a + l2 * X b + l3 * X c in
  let p2 := l1 * Y a + l2 * Y b + l3 * Y c in
  m00 m * p1 + m01 m * p2 + m02 m * 1 = l1 * X ra + l2 * X rb + l3 * X rc /\
  m10 m * p1 + m11 m * p2 + m12 m * 1 = l1 * Y ra + l2 * Y rb + l3 * Y rc.
Proof.
  intros Hc Hl m p1 p2.
  assert (Hd : det (tri_matrix NumR a b c) <> 0) by (rewrite det_tri; exact Hc).
  pose proof (solve_combination x (tri_matrix NumR a b c) (tri_matrix NumR ra rb rc) l1 l2 l3 p1 p2 1 Hd) as H.
  fold m in H. rewrite !mv_rows in H. unfold tri_matrix in H.
  cbn [m00 m01 m02 m10 m11 m12 m20 m21 m22 fZ NumR] in H.
  assert (E : RVec (m00 m * p1 + m01 m * p2 + m02 m * 1) (m10 m * p1 + m11 m * p2 + m12 m * 1)
                (m20 m * p1 + m21 m * p2 + m22 m * 1) =
              RVec (px ra * l1 + px rb * l2 + px rc * l3) (py ra * l1 + py rb * l2 + py rc * l3) (1 * l1 + 1 * l2 + 1 * l3)).
  { apply H. unfold p1, p2, X, Y. f_equal; try ring. lra. }
  injection E as E1 E2 _. rewrite E1, E2. unfold X, Y. split; ring.
Qed.

(** the two-point matrix is a similarity *)
Lemma line_similarity x (a b ra rb : pointR) : a <> b ->
  exists s t, X rb = X ra + s * (X b - X a) - t * (Y b - Y a) /\
              Y rb = Y ra + t * (X b - X a) + s * (Y b - Y a) /\
  let m := solve NumR x (line_matrix NumR a b) (line_matrix NumR ra rb) in
  forall p1 p2, m00 m * p1 + m01 m * p2 + m02 m * 1 = X ra + s * (p1 - X a) - t * (p2 - Y a) /\
                m10 m * p1 + m11 m * p2 + m12 m * 1 = Y ra + t * (p1 - X a) + s * (p2 - Y a).
Proof.
  intros Hab. set (dx := X b - X a). set (dy := Y b - Y a).
  assert (Hn : dx * dx + dy * dy <> 0).
  { intros H. apply Hab. pose proof (Rle_0_sqr dx) as P1. pose proof (Rle_0_sqr dy) as P2. unfold Rsqr in *.
    assert (dx * dx = 0) by lra. assert (dy * dy = 0) by lra.
    apply Rmult_integral in H0, H1. assert (dx = 0) by tauto. assert (dy = 0) by tauto.
    unfold dx, dy, X, Y in *. destruct a as [ax ay], b as [bx by_]. cbn in *. f_equal; lra. }
  set (n := dx * dx + dy * dy) in *.
  set (ex := X rb - X ra). set (ey := Y rb - Y ra).
  exists ((ex * dx + ey * dy) / n), ((ey * dx - ex * dy) / n).
  split; [unfold n in *; unfold ex, dx, dy in *; field; exact Hn|].
  split; [unfold n in *; unfold ey, dx, dy in *; field; exact Hn|].
  intros m p1 p2.
  assert (Hd : det (line_matrix NumR a b) <> 0).
  { rewrite det_line. fold dx dy. intros E. apply Hn. unfold n. nra. }
  (* coordinates of p in the frame (a, b, b + J(b - a)) *)
  set (u := p1 - X a). set (w := p2 - Y a).
  set (c3 := (dy * u - dx * w) / n).
  set (c2 := (dx * u + dy * w) / n - c3).
  pose proof (solve_combination x (line_matrix NumR a b) (line_matrix NumR ra rb) (1 - c2 - c3) c2 c3 p1 p2 1 Hd) as H.
  fold m in H. rewrite !mv_rows in H. unfold line_matrix in H.
  cbn [m00 m01 m02 m10 m11 m12 m20 m21 m22 fZ fadd fsub NumR] in H.
  assert (E : RVec (m00 m * p1 + m01 m * p2 + m02 m * 1) (m10 m * p1 + m11 m * p2 + m12 m * 1)
                (m20 m * p1 + m21 m * p2 + m22 m * 1) =
     RVec (px ra * (1 - c2 - c3) + px rb * c2 + (px rb + (py rb - py ra)) * c3)
          (py ra * (1 - c2 - c3) + py rb * c2 + (py rb - (px rb - px ra)) * c3)
          (1 * (1 - c2 - c3) + 1 * c2 + 1 * c3)).
  { apply H. f_equal.
    - replace (px a * (1 - c2 - c3) + px b * c2 + (px b + (py b - py a)) * c3)
        with (X a + dx * (c2 + c3) + dy * c3) by (unfold dx, dy, X, Y; ring).
      unfold c2. replace ((dx * u + dy * w) / n - c3 + c3) with ((dx * u + dy * w) / n) by ring. unfold c3.
      replace p1 with (X a + u) by (unfold u; ring).
      replace (X a + dx * ((dx * u + dy * w) / n) + dy * ((dy * u - dx * w) / n)) with (X a + u * (n / n))
        by (unfold n; field; exact Hn).
      unfold Rdiv. rewrite Rinv_r by exact Hn. ring.
    - replace (py a * (1 - c2 - c3) + py b * c2 + (py b - (px b - px a)) * c3)
        with (Y a + dy * (c2 + c3) - dx * c3) by (unfold dx, dy, X, Y; ring).
      unfold c2. replace ((dx * u + dy * w) / n - c3 + c3) with ((dx * u + dy * w) / n) by ring. unfold c3.
      replace p2 with (Y a + w) by (unfold w; ring).
      replace (Y a + dy * ((dx * u + dy * w) / n) - dx * ((dy * u - dx * w) / n)) with (Y a + w * (n / n))
        by (unfold n; field; exact Hn).
      unfold Rdiv. rewrite Rinv_r by exact Hn. ring.
    - ring. }
  injection E as E1 E2 _. rewrite E1, E2. clear H E1 E2 Hd m. unfold X, Y in *. split.
  - unfold c2, c3, ex, ey. change (p1 - px a) with u. change (p2 - py a) with w. field. exact Hn.
  - unfold c2, c3, ex, ey. change (p1 - px a) with u. change (p2 - py a) with w. field. exact Hn.
Qed.

(** ** Containment test *)
Definition area2 (a b c : pointR) : R := X a * (Y b - Y c) + X b * (Y c - Y a) + X c * (Y a - Y b).
Lemma triangleArea_R (a b c : pointR) : (triangleArea NumR a b c : R) = Rabs (area2 a b c) / 2.
Proof.
  unfold triangleArea, area2, X, Y, two. cbn [fabs fdiv fadd fmul fsub fZ NumR].
  unfold Rdiv. rewrite Rabs_mult, (Rabs_pos_eq (/ 2)) by lra. reflexivity.
Qed.
Lemma isIn_R (p a b c : pointR) : isInTriangle NumR p a b c = true <->
  Rabs (Rabs (area2 a b c) - (Rabs (area2 p b c) + Rabs (area2 a p c) + Rabs (area2 a b p))) < 2 / 10000.
Proof.
  unfold isInTriangle. cbn [f32 flt fabs fsub fadd fq NumR]. rewrite !triangleArea_R, Rlt_bool_iff.
  set (A := Rabs (area2 a b c)). set (B := Rabs (area2 p b c)). set (C := Rabs (area2 a p c)). set (D := Rabs (area2 a b p)).
  replace (A / 2 - (B / 2 + C / 2 + D / 2)) with ((A - (B + C + D)) * / 2) by field.
  rewrite Rabs_mult, (Rabs_pos_eq (/ 2)) by lra. lra.
Qed.
Lemma area2_sum (p a b c : pointR) : area2 p b c + area2 a p c + area2 a b p = area2 a b c.
Proof. unfold area2. ring. Qed.

Definition neg_part (x : R) : R := Rmax 0 (- x).

(** The test accepts exactly the points whose total area beyond the edges is < 1/20000. *)
Lemma isIn_iff (p a b c : pointR) : 0 < area2 a b c ->
  (isInTriangle NumR p a b c = true <->
   neg_part (area2 p b c) + neg_part (area2 a p c) + neg_part (area2 a b p) < 1 / 10000).
Proof.
  intros Hpos. rewrite isIn_R. rewrite (Rabs_pos_eq (area2 a b c)) by lra.
  pose proof (area2_sum p a b c) as Hs. unfold neg_part.
  assert (Hk : forall x, Rabs x = x + 2 * Rmax 0 (- x)).
  { intros x. unfold Rabs, Rmax. destruct (Rcase_abs x), (Rle_dec 0 (- x)); lra. }
  rewrite (Hk (area2 p b c)), (Hk (area2 a p c)), (Hk (area2 a b p)).
  set (u := Rmax 0 (- area2 p b c)). set (v := Rmax 0 (- area2 a p c)). set (w := Rmax 0 (- area2 a b p)).
  assert (0 <= u) by apply Rmax_l. assert (0 <= v) by apply Rmax_l. assert (0 <= w) by apply Rmax_l.
  replace (area2 a b c - (area2 p b c + 2 * u + (area2 a p c + 2 * v) + (area2 a b p + 2 * w)))
    with (- (2 * (u + v + w))) by lra.
  rewrite Rabs_Ropp, Rabs_pos_eq by lra. lra.
Qed.

Definition in_hull (p a b c : pointR) : Prop :=
  exists l1 l2 l3, 0 <= l1 /\ 0 <= l2 /\ 0 <= l3 /\ l1 + l2 + l3 = 1 /\
    X p = l1 * X a + l2 * X b + l3 * X c /\ Y p = l1 * Y a + l2 * Y b + l3 * Y c.

Lemma isIn_hull (p a b c : pointR) : in_hull p a b c -> isInTriangle NumR p a b c = true.
Proof.
  intros (l1 & l2 & l3 & H1 & H2 & H3 & Hs & Hx & Hy). rewrite isIn_R.
  assert (E1 : area2 p b c = l1 * area2 a b c).
  { unfold area2. rewrite Hx, Hy. replace l1 with (1 - l2 - l3) by lra. ring. }
  assert (E2 : area2 a p c = l2 * area2 a b c).
  { unfold area2. rewrite Hx, Hy. replace l1 with (1 - l2 - l3) by lra. ring. }
  assert (E3 : area2 a b p = l3 * area2 a b c).
  { unfold area2. rewrite Hx, Hy. replace l1 with (1 - l2 - l3) by lra. ring. }
  rewrite E1, E2, E3, !Rabs_mult, (Rabs_pos_eq l1), (Rabs_pos_eq l2), (Rabs_pos_eq l3) by assumption.
  set (A := Rabs (area2 a b c)).
  replace (A - (l1 * A + l2 * A + l3 * A)) with (A * (1 - (l1 + l2 + l3))) by ring.
  rewrite Hs. replace (A * (1 - 1)) with 0 by ring. rewrite Rabs_R0. lra.
Qed.

(** ** Unwrapping of reference azimuths *)
Lemma unwrap_R (v : vpairR) (r : pointR) :
  let r' := unwrap NumR v r in
  Y r' = Y r /\
  (X r' = X r \/ X r' = X r + 360 \/ X r' = X r - 360) /\
  (-540 <= X (reference v) - X r <= 540 -> Rabs (X (reference v) - X r') <= 180).
Proof.
  unfold unwrap, X, Y. cbn [flt fsub fadd fZ NumR].
  destruct (Rlt_bool_spec 180 (px (reference v) - px r)) as [H|H]; cbn [px py];
    match goal with |- context [Rlt_bool ?a ?b] => destruct (Rlt_bool_spec a b) as [H'|H'] end; cbn [px py];
    (split; [reflexivity|]); (split; [try lra|intros Hb; apply Rabs_le; lra]).
Qed.

(** ** Flat supertriangle *)
Lemma bbox_R (ps : list pointR) : forall xmin xmax ymin ymax : R, xmin <= xmax -> ymin <= ymax ->
  exists xmin' xmax' ymin' ymax' : R, fold_left (bbox_step NumR) ps (xmin, xmax, ymin, ymax) = (xmin', xmax', ymin', ymax') /\
    xmin' <= xmin /\ xmax <= xmax' /\ ymin' <= ymin /\ ymax <= ymax' /\
    (forall p, In p ps -> xmin' <= X p <= xmax' /\ ymin' <= Y p <= ymax') /\
    (xmin' = xmin \/ exists p, In p ps /\ X p = xmin') /\ (xmax' = xmax \/ exists p, In p ps /\ X p = xmax') /\
    (ymin' = ymin \/ exists p, In p ps /\ Y p = ymin') /\ (ymax' = ymax \/ exists p, In p ps /\ Y p = ymax').
Proof.
  induction ps as [|p ps IH]; intros xmin xmax ymin ymax Hx Hy; cbn [fold_left].
  - exists xmin, xmax, ymin, ymax. repeat split; auto; try lra; try (intros p []); destruct H.
  - unfold bbox_step at 2. cbn [flt NumR].
    set (x0 := if Rlt_bool (px p) xmin then px p else xmin). set (x1 := if Rlt_bool xmax (px p) then px p else xmax).
    set (y0 := if Rlt_bool (py p) ymin then py p else ymin). set (y1 := if Rlt_bool ymax (py p) then py p else ymax).
    assert (B0 : x0 <= xmin /\ x0 <= px p /\ (x0 = xmin \/ x0 = px p)).
    { unfold x0. destruct (Rlt_bool_spec (px p) xmin); repeat split; auto; lra. }
    assert (B1 : xmax <= x1 /\ px p <= x1 /\ (x1 = xmax \/ x1 = px p)).
    { unfold x1. destruct (Rlt_bool_spec xmax (px p)); repeat split; auto; lra. }
    assert (B2 : y0 <= ymin /\ y0 <= py p /\ (y0 = ymin \/ y0 = py p)).
    { unfold y0. destruct (Rlt_bool_spec (py p) ymin); repeat split; auto; lra. }
    assert (B3 : ymax <= y1 /\ py p <= y1 /\ (y1 = ymax \/ y1 = py p)).
    { unfold y1. destruct (Rlt_bool_spec ymax (py p)); repeat split; auto; lra. }
    clearbody x0 x1 y0 y1.
    destruct (IH x0 x1 y0 y1 ltac:(lra) ltac:(lra)) as (a & b & c & d & E & H1 & H2 & H3 & H4 & Hin & K1 & K2 & K3 & K4).
    exists a, b, c, d. split; [exact E|]. split; [lra|]. split; [lra|]. split; [lra|]. split; [lra|].
    split. { intros q [<-|Hq]; [unfold X, Y; lra|apply Hin, Hq]. }
    assert (forall (z0 z : R) (f : pointR -> R) (z1 : R), (z1 = z0 \/ z1 = f p) -> (z = z1 \/ exists q, In q ps /\ f q = z) ->
       z = z0 \/ exists q, In q (p :: ps) /\ f q = z) as Hg.
    { intros z0 z f z1 [ -> | -> ] [Hz|(q & Hq & Eq)]; auto.
      - right. exists q. split; [right; exact Hq|exact Eq].
      - right. exists p. split; [left; reflexivity|auto].
      - right. exists q. split; [right; exact Hq|exact Eq]. }
    split; [eapply (Hg xmin a X x0); tauto|]. split; [eapply (Hg xmax b X x1); tauto|].
    split; [eapply (Hg ymin c Y y0); tauto|eapply (Hg ymax d Y y1); tauto].
Qed.

(** The supertriangle is flat (and xc, r are read uninitialised) exactly when all points lie
    within a box whose sides are smaller than EPSILON/21. *)
Lemma super_flat_R (ps : list pointR) : ps <> [] ->
  (super_flat NumR ps = true <->
   forall p q, In p ps -> In q ps -> 21 * Rabs (X p - X q) < 1 / 1000000 /\ 21 * Rabs (Y p - Y q) < 1 / 1000000).
Proof.
  intros Hne. destruct ps as [|p0 rest]; [contradiction|]. unfold super_flat, super_vertices.
  destruct (bbox_R rest (px p0) (px p0) (py p0) (py p0) (Rle_refl _) (Rle_refl _))
    as (x0 & x1 & y0 & y1 & E & H1 & H2 & H3 & H4 & Hin & K1 & K2 & K3 & K4).
  match goal with |- context [fold_left (bbox_step NumR) rest ?b] =>
    replace (fold_left (bbox_step NumR) rest b) with (x0, x1, y0, y1) by (symmetry; exact E) end.
  unfold two. cbn [fsub fadd fmul fdiv fZ flt NumR px py].
  set (dx := x1 - x0) in *. set (dy := y1 - y0) in *.
  set (dmax := if Rlt_bool dy dx then dx else dy).
  assert (Hdm : dx <= dmax /\ dy <= dmax /\ (dmax = dx \/ dmax = dy)).
  { unfold dmax. destruct (Rlt_bool_spec dy dx); repeat split; auto; lra. }
  unfold flat. cbn [fsub fabs flt py NumR EPSILON fq]. set (ym := (y1 + y0) / 2).
  unfold EPSILON; cbn [fq NumR].
  rewrite andb_true_iff, !Rlt_bool_iff.
  assert (Hd0 : 0 <= dmax) by (unfold dx in *; lra).
  assert (EA : Rabs (ym - dmax - (ym + 20 * dmax)) = 21 * dmax).
  { replace (ym - dmax - (ym + 20 * dmax)) with (- (21 * dmax)) by ring. rewrite Rabs_Ropp. apply Rabs_pos_eq. lra. }
  assert (EB : Rabs (ym + 20 * dmax - (ym - dmax)) = 21 * dmax).
  { replace (ym + 20 * dmax - (ym - dmax)) with (21 * dmax) by ring. apply Rabs_pos_eq. lra. }
  match goal with |- (Rabs ?u < _ /\ Rabs ?v < _) <-> _ =>
    change u with (ym - dmax - (ym + 20 * dmax)); change v with (ym + 20 * dmax - (ym - dmax)) end.
  rewrite EA, EB. clear EA EB.
  assert (Hall : forall p, In p (p0 :: rest) -> x0 <= X p <= x1 /\ y0 <= Y p <= y1).
  { intros p [<-|Hp]; [unfold X, Y; lra|apply Hin, Hp]. }
  split.
  - intros [Hl _] p q Hp Hq. destruct (Hall p Hp) as [A B], (Hall q Hq) as [C D].
    assert (Rabs (X p - X q) <= dx) by (apply Rabs_le; unfold dx; lra).
    assert (Rabs (Y p - Y q) <= dy) by (apply Rabs_le; unfold dy; lra). lra.
  - intros Hbox.
    assert (Gx : forall z, (z = px p0 \/ exists p, In p rest /\ X p = z) -> exists p, In p (p0 :: rest) /\ X p = z).
    { intros z [ -> |(p & Hp & Ep)]; [exists p0; split; [left; auto|reflexivity]|exists p; split; [right; auto|auto]]. }
    assert (Gy : forall z, (z = py p0 \/ exists p, In p rest /\ Y p = z) -> exists p, In p (p0 :: rest) /\ Y p = z).
    { intros z [ -> |(p & Hp & Ep)]; [exists p0; split; [left; auto|reflexivity]|exists p; split; [right; auto|auto]]. }
    destruct (Gx _ K1) as (a & Ha & Ea), (Gx _ K2) as (b & Hb & Eb), (Gy _ K3) as (c & Hc & Ec), (Gy _ K4) as (d & Hd & Ed).
    destruct (Hbox b a Hb Ha) as [Hx _]. destruct (Hbox d c Hd Hc) as [_ Hy].
    rewrite Ea, Eb in Hx. rewrite Ec, Ed in Hy. fold dx in Hx. fold dy in Hy.
    pose proof (Rle_abs dx). pose proof (Rle_abs dy). lra.
Qed.

(** ** One, two and three points *)
Lemma triangulated_small x j (a : alignR) : WF NumR a -> (numVertices a <= 3)%Z ->
  exists a', TriangulateActual NumR (Ok x) (Some j) a = Ok a'.
Proof.
  intros HW Hn. destruct (triangulate_actual NumR x j a HW) as [(a' & E & _)|(Hp & E & _)]; [eauto|].
  exfalso. destruct (small_fits NumR j (map actual (stored a))) as (r & Er).
  - rewrite map_length, (stored_length NumR a HW). lia.
  - rewrite Er in E. discriminate.
Qed.

Lemma one_point x j (a0 a : alignR) v : WF NumR a0 -> TriangulateActual NumR (Ok x) (Some j) a0 = Ok a ->
  stored a0 = [v] -> forall p, getTransformationType NumR a p = Ok POINT /\
    calibrated_to a p (X p + (X (reference v) - X (actual v))) (Y p + (Y (reference v) - Y (actual v))).
Proof.
  intros HW E Hs p. destruct (triangulate_actual NumR x j a0 HW) as [(a' & E' & HW' & En & Es & Hpos & H0 & Hm)|(_ & _ & E')];
    rewrite E' in E; [|discriminate]. injection E as ->.
  pose proof (stored_length NumR a0 HW) as Hl. rewrite Hs in Hl. cbn [length] in Hl.
  assert (Hn : numVertices a0 = 1%Z) by lia.
  destruct Hpos as (Ht & _); [lia|].
  assert (Etr : tris a = []).
  { destruct (tris a) as [|t l]; [reflexivity|]. inversion Ht; subst. exfalso. eapply (no_three_of t 1); [lia|]. rewrite <- Hn. assumption. }
  rewrite <- Es in Hs.
  destruct (type_and_matrix NumR x a p HW' Hm) as (ty & m & Ety & Em & Hc).
  assert (Hty : ty = POINT /\ m = translation NumR v).
  { destruct ty.
    - destruct Hc as (Hc & _). congruence.
    - destruct Hc as (_ & v' & Hc & ->). rewrite Hs in Hc. injection Hc as <-. auto.
    - destruct Hc as (_ & v' & w' & r' & Hc & _). congruence.
    - destruct Hc as (Hc & _). congruence.
    - destruct Hc as (k & t & Hc & _). rewrite Etr in Hc. destruct k; discriminate. }
  destruct Hty as [-> ->]. split; [exact Ety|].
  pose proof (calibrated_from_matrix a p _ Em) as H.
  unfold translation in H. cbn [mset identity m00 m01 m02 m10 m11 m12 fZ fsub NumR] in H.
  destruct H as (q & Eq & (B1 & (k & B2) & B3)). exists q. split; [exact Eq|]. split; [exact B1|]. split.
  - exists k. rewrite B2. unfold X, Y. ring.
  - rewrite B3. unfold X, Y. ring.
Qed.

Lemma two_points x j (a0 a : alignR) v w : WF NumR a0 -> TriangulateActual NumR (Ok x) (Some j) a0 = Ok a ->
  stored a0 = [v; w] -> actual v <> actual w ->
  exists s t, X (reference w) = X (reference v) + s * (X (actual w) - X (actual v)) - t * (Y (actual w) - Y (actual v)) /\
              Y (reference w) = Y (reference v) + t * (X (actual w) - X (actual v)) + s * (Y (actual w) - Y (actual v)) /\
  forall p, getTransformationType NumR a p = Ok LINE /\
    calibrated_to a p (X (reference v) + s * (X p - X (actual v)) - t * (Y p - Y (actual v)))
                      (Y (reference v) + t * (X p - X (actual v)) + s * (Y p - Y (actual v))).
Proof.
  intros HW E Hs Hne. destruct (triangulate_actual NumR x j a0 HW) as [(a' & E' & HW' & En & Es & Hpos & H0 & Hm)|(_ & _ & E')];
    rewrite E' in E; [|discriminate]. injection E as ->.
  pose proof (stored_length NumR a0 HW) as Hl. rewrite Hs in Hl. cbn [length] in Hl.
  assert (Hn : numVertices a0 = 2%Z) by lia.
  destruct Hpos as (Ht & _); [lia|].
  assert (Etr : tris a = []).
  { destruct (tris a) as [|t l]; [reflexivity|]. inversion Ht; subst. exfalso. eapply (no_three_of t 2); [lia|]. rewrite <- Hn. assumption. }
  rewrite <- Es in Hs.
  destruct (line_similarity x (actual v) (actual w) (reference v) (reference w) Hne) as (s & t & S1 & S2 & S3).
  exists s, t. split; [exact S1|]. split; [exact S2|]. intros p.
  destruct (type_and_matrix NumR x a p HW' Hm) as (ty & m & Ety & Em & Hc).
  assert (Hty : ty = LINE /\ m = solve NumR x (line_matrix NumR (actual v) (actual w)) (line_matrix NumR (reference v) (reference w))).
  { destruct ty.
    - destruct Hc as (Hc & _). congruence.
    - destruct Hc as (_ & v' & Hc & ->). congruence.
    - destruct Hc as (_ & v' & w' & r' & Hc & ->). rewrite Hs in Hc. injection Hc as <- <- _. auto.
    - destruct Hc as (Hc & _). congruence.
    - destruct Hc as (k & t' & Hc & _). rewrite Etr in Hc. destruct k; discriminate. }
  destruct Hty as [-> ->]. split; [exact Ety|].
  pose proof (calibrated_from_matrix a p _ Em) as H. destruct (S3 (X p) (Y p)) as [A1 A2].
  rewrite A1, A2 in H. exact H.
Qed.

(** ** Triangles *)
Definition corners (a : alignR) (t : tri) (u v w : vpairR) : Prop :=
  nth_error (stored a) (Z.to_nat (t1 t)) = Some u /\ nth_error (stored a) (Z.to_nat (t2 t)) = Some v /\
  nth_error (stored a) (Z.to_nat (t3 t)) = Some w.
Definition in_tri (a : alignR) (p : pointR) (t : tri) : Prop :=
  exists u v w, corners a t u v w /\ isInTriangle NumR p (actual u) (actual v) (actual w) = true.
(** squared distance to the centroid *)
Definition centroid_dist2 (p : pointR) (u v w : pointR) : R :=
  ((X u + X v + X w) / 3 - X p) ^ 2 + ((Y u + Y v + Y w) / 3 - Y p) ^ 2.
(** [t] is a nearest triangle *)
Definition nearest (a : alignR) (p : pointR) (t : tri) : Prop :=
  forall t' u v w u' v' w', In t' (tris a) -> corners a t u v w -> corners a t' u' v' w' ->
    centroid_dist2 p (actual u) (actual v) (actual w) <= centroid_dist2 p (actual u') (actual v') (actual w').

Lemma rdz_stored (a : alignR) i v : WF NumR a -> (0 <= i < numVertices a)%Z ->
  (rdz (verts a) i = Ok v <-> nth_error (stored a) (Z.to_nat i) = Some v).
Proof.
  intros HW Hi. pose proof (stored_length NumR a HW) as Hl.
  unfold rdz. replace (i <? 0)%Z with false by (symmetry; apply Z.ltb_ge; lia). rewrite rd_ok.
  destruct (nth_error (stored a) (Z.to_nat i)) as [w|] eqn:E.
  - rewrite (stored_nth NumR _ _ _ E). reflexivity.
  - apply nth_error_None in E. lia.
Qed.

Lemma contains_in_tri (a : alignR) p t : WF NumR a -> three_of (numVertices a) t ->
  (contains NumR (verts a) p t <-> in_tri a p t).
Proof.
  intros HW (K1 & K2 & K3 & _). unfold contains, in_tri, corners. split.
  - intros (u & v & w & Eu & Ev & Ew & H). exists u, v, w.
    apply (rdz_stored a _ _ HW K1) in Eu. apply (rdz_stored a _ _ HW K2) in Ev. apply (rdz_stored a _ _ HW K3) in Ew. auto.
  - intros (u & v & w & (Eu & Ev & Ew) & H). exists u, v, w.
    apply (rdz_stored a _ _ HW K1) in Eu. apply (rdz_stored a _ _ HW K2) in Ev. apply (rdz_stored a _ _ HW K3) in Ew. auto.
Qed.

(** first triangle containing the direction, otherwise a nearest one *)
Definition selected (a : alignR) (p : pointR) (t : tri) : Prop :=
  (exists k, nth_error (tris a) k = Some t /\ in_tri a p t /\
     forall k' t', (k' < k)%nat -> nth_error (tris a) k' = Some t' -> ~ in_tri a p t') \/
  (In t (tris a) /\ (forall t', In t' (tris a) -> ~ in_tri a p t') /\ nearest a p t).

Lemma dist_corners (a : alignR) p t u v w : WF NumR a -> three_of (numVertices a) t -> corners a t u v w ->
  dist_to NumR (verts a) p t (centroid_dist2 p (actual u) (actual v) (actual w)).
Proof.
  intros HW (K1 & K2 & K3 & _) (Eu & Ev & Ew). exists u, v, w.
  apply (rdz_stored a _ _ HW K1) in Eu. apply (rdz_stored a _ _ HW K2) in Ev. apply (rdz_stored a _ _ HW K3) in Ew.
  repeat split; auto. unfold centroid_distance, centroid_dist2, X, Y. cbn [f32 fadd fsub fmul fdiv fZ NumR].
  match goal with |- ?l = ?r => change ((l : R) = r) end. ring.
Qed.
Lemma dist_unique (vs : list vpairR) p t d d' : dist_to NumR vs p t d -> dist_to NumR vs p t d' -> d = d'.
Proof.
  intros (u & v & w & E1 & E2 & E3 & ->) (u' & v' & w' & E1' & E2' & E3' & ->). congruence.
Qed.

Lemma triangle_case x j (a0 a : alignR) p : WF NumR a0 -> (0 < numVertices a0)%Z ->
  TriangulateActual NumR (Ok x) (Some j) a0 = Ok a -> tris a <> [] ->
  WF NumR a /\ Forall (three_of (numVertices a)) (tris a) /\ stored a = stored a0 /\
  exists t m, selected a p t /\ In t (tris a) /\ getTransformationMatrix NumR a p = Ok m /\
    getTransformationType NumR a p = Ok (if existsb (fun _ => true) (tris a) then
        match find_containing NumR (verts a) p (tris a) 0 with Ok (Some _) => TRIANGLE_IN | _ => TRIANGLE_OUT end else NONE) /\
    (forall u v w, corners a t u v w ->
       m = solve NumR x (tri_matrix NumR (actual u) (actual v) (actual w))
                        (tri_matrix NumR (reference u) (reference v) (reference w))).
Proof.
  intros HW Hn E Htr. destruct (triangulate_actual NumR x j a0 HW) as [(a' & E' & HW' & En & Es & Hpos & H0 & Hm)|(_ & _ & E')];
    rewrite E' in E; [|discriminate]. injection E as ->.
  destruct (Hpos Hn) as (Ht & _). rewrite <- En in Ht.
  split; [exact HW'|]. split; [exact Ht|]. split; [exact Es|].
  assert (Hsol : forall t m, In t (tris a) -> tri_solution NumR x (verts a) t = Ok m ->
     forall u v w, corners a t u v w ->
       m = solve NumR x (tri_matrix NumR (actual u) (actual v) (actual w))
                        (tri_matrix NumR (reference u) (reference v) (reference w))).
  { intros t m Hin Hs u v w (Eu & Ev & Ew). rewrite Forall_forall in Ht. destruct (Ht t Hin) as (K1 & K2 & K3 & _).
    apply (rdz_stored a _ _ HW' K1) in Eu. apply (rdz_stored a _ _ HW' K2) in Ev. apply (rdz_stored a _ _ HW' K3) in Ew.
    unfold tri_solution in Hs. rewrite Eu, Ev, Ew in Hs. cbn [bind] in Hs. injection Hs as <-. reflexivity. }
  assert (Hty : forall ty, getTransformationType NumR a p = Ok ty ->
     ty = (if existsb (fun _ => true) (tris a) then
        match find_containing NumR (verts a) p (tris a) 0 with Ok (Some _) => TRIANGLE_IN | _ => TRIANGLE_OUT end else NONE)).
  { intros ty. unfold getTransformationType, numTriangles. destruct (tris a) as [|t l] eqn:El; [contradiction|].
    replace (Z.of_nat (length (t :: l)) =? 0)%Z with false by (symmetry; apply Z.eqb_neq; cbn [length]; lia).
    replace (1 <=? Z.of_nat (length (t :: l)))%Z with true by (symmetry; apply Z.leb_le; cbn [length]; lia).
    cbn [andb existsb orb]. destruct (find_containing _ _ _ _ _) as [[i|]|u]; cbn [bind]; intros Eq; try discriminate; injection Eq as <-; reflexivity. }
  destruct (type_and_matrix NumR x a p HW' Hm) as (ty & m & Ety & Em & Hc).
  pose proof (Hty ty Ety) as Hty'. rewrite Forall_forall in Ht.
  destruct ty.
  - destruct Hc as (_ & Hc & _). contradiction.
  - destruct Hc as (Hc & _). contradiction.
  - destruct Hc as (Hc & _). contradiction.
  - destruct Hc as (_ & Hno & Hc).
    destruct (nearestTriangle_R a p HW' Htr) as (k & t & d & Ek & Hk & Hd & Hmin).
    destruct Hc as [(Hk' & _)|(k' & t' & Ek' & Hk' & Hs)].
    { rewrite Ek in Hk'. injection Hk' as Hk'. lia. }
    assert (Z.of_nat k' = Z.of_nat k) by congruence. assert (k' = k) by lia. subst k'.
    rewrite Hk in Hk'. injection Hk' as <-.
    assert (Hin : In t (tris a)) by (eapply nth_error_In; eauto).
    exists t, m. split.
    { right. split; [exact Hin|]. split.
      - intros t' Hin' Hc. apply (Hno t' Hin'). apply contains_in_tri; auto.
      - intros t' u v w u' v' w' Hin' Hcu Hcu'.
        rewrite <- (dist_unique _ _ _ _ _ Hd (dist_corners a p t u v w HW' (Ht t Hin) Hcu)).
        apply (Hmin t' _ Hin'). apply dist_corners; auto. }
    split; [exact Hin|]. split; [exact Em|]. split; [rewrite Ety, Hty' at 1; reflexivity|]. eauto.
  - destruct Hc as (k & t & Hk & Hct & Hfirst & Hs).
    assert (Hin : In t (tris a)) by (eapply nth_error_In; eauto).
    exists t, m. split.
    { left. exists k. split; [exact Hk|]. split; [apply contains_in_tri; auto|].
      intros k' t' Hlt Hk' Hc. apply (Hfirst k' t' Hlt Hk'). apply contains_in_tri; auto.
      apply Ht. eapply nth_error_In; eauto. }
    split; [exact Hin|]. split; [exact Em|]. split; [rewrite Ety, Hty' at 1; reflexivity|]. eauto.
Qed.

Lemma triangle_map x j (a0 a : alignR) p : WF NumR a0 -> (0 < numVertices a0)%Z ->
  TriangulateActual NumR (Ok x) (Some j) a0 = Ok a -> tris a <> [] ->
  exists t, selected a p t /\
    forall u v w l1 l2 l3, corners a t u v w -> cross (actual u) (actual v) (actual w) <> 0 ->
      l1 + l2 + l3 = 1 ->
      X p = l1 * X (actual u) + l2 * X (actual v) + l3 * X (actual w) ->
      Y p = l1 * Y (actual u) + l2 * Y (actual v) + l3 * Y (actual w) ->
      calibrated_to a p (l1 * X (reference u) + l2 * X (reference v) + l3 * X (reference w))
                        (l1 * Y (reference u) + l2 * Y (reference v) + l3 * Y (reference w)).
Proof.
  intros HW Hn E Htr.
  destruct (triangle_case x j a0 a p HW Hn E Htr) as (HW' & Ht & Es & t & m & Hsel & Hin & Em & _ & Hm).
  exists t. split; [exact Hsel|]. intros u v w l1 l2 l3 Hc Hx Hl Ep1 Ep2.
  pose proof (calibrated_from_matrix a p m Em) as H. rewrite (Hm u v w Hc), Ep1, Ep2 in H.
  destruct (tri_affine x (actual u) (actual v) (actual w) (reference u) (reference v) (reference w) l1 l2 l3 Hx Hl) as [A1 A2].
  cbv zeta in A1, A2. rewrite A1, A2 in H. exact H.
Qed.
