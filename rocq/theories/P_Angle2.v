(** From close directions to close angles, with constants near the best ones: distances in space are kept by turning. *)
From Verif Require Import Base Num M_Telescope S_Sky P_Sky S_SkyIEEE P_SkyIEEE P_SkyIEEE2 P_OneIEEE P_Angle.
From Coq Require Import Reals Lra Psatz Machin.
From Flocq Require Import Core.
Open Scope R_scope.

Lemma PI_tight : 3141 / 1000 <= PI <= 3144 / 1000.
Proof.
  pose proof (PI_2_3_7_ineq 1) as [L U]. cbn [Nat.mul Nat.add sum_f_R0] in L, U. unfold tg_alt, PI_2_3_7_tg, Ratan_seq in L, U. simpl in L, U.
  split; lra.
Qed.
(** square of the distance in space *)
Definition dist2 (v w : R * R * R) : R :=
  let '(x, y, z) := v in let '(x', y', z') := w in (x - x') * (x - x') + (y - y') * (y - y') + (z - z') * (z - z').
Lemma dist2_vec a d a' d' : dist2 (vec a d) (vec a' d') = 2 * (1 - (sin (radians d) * sin (radians d') + cos (radians d) * cos (radians d') * cos (radians a - radians a'))).
Proof.
  unfold dist2, vec. rewrite cos_minus.
  pose proof (sin2_cos2 (radians a)) as Qa. pose proof (sin2_cos2 (radians d)) as Qd. pose proof (sin2_cos2 (radians a')) as Qa'. pose proof (sin2_cos2 (radians d')) as Qd'.
  unfold Rsqr in *. set (ca := cos (radians a)) in *. set (sa := sin (radians a)) in *. set (ca' := cos (radians a')) in *. set (sa' := sin (radians a')) in *.
  set (cd := cos (radians d)) in *. set (sd := sin (radians d)) in *. set (cd' := cos (radians d')) in *. set (sd' := sin (radians d')) in *.
  clearbody ca sa ca' sa' cd sd cd' sd'.
  assert (N : ca * cd * (ca * cd) + sa * cd * (sa * cd) + sd * sd = 1).
  { transitivity ((sa * sa + ca * ca) * (cd * cd) + sd * sd); [ring|]. rewrite Qa. lra. }
  assert (N' : ca' * cd' * (ca' * cd') + sa' * cd' * (sa' * cd') + sd' * sd' = 1).
  { transitivity ((sa' * sa' + ca' * ca') * (cd' * cd') + sd' * sd'); [ring|]. rewrite Qa'. lra. }
  clear Qa Qd Qa' Qd'. ring_simplify in N. ring_simplify in N'. ring_simplify. lra.
Qed.
Lemma dist2_rot p v w : dist2 (rot p v) (rot p w) = dist2 v w.
Proof.
  destruct v as [[x y] z], w as [[x' y'] z']. unfold rot, dist2. pose proof (sin2_cos2 (radians p)) as Q. unfold Rsqr in Q.
  set (c := cos (radians p)) in *. set (s := sin (radians p)) in *. clearbody c s.
  match goal with |- ?l = ?r => replace l with ((s * s + c * c) * ((x - x') * (x - x') + (z - z') * (z - z')) + (y - y') * (y - y')) by ring end. rewrite Q. ring.
Qed.
Lemma dist2_turned l h d h' d' : dist2 (vec (l - h) d) (vec (l - h') d') = dist2 (vec h d) (vec h' d').
Proof.
  rewrite !dist2_vec, !radians_minus. replace (radians l - radians h - (radians l - radians h')) with (- (radians h - radians h')) by ring. rewrite cos_neg. reflexivity.
Qed.
Lemma dist2_near g e u v w : 0 <= g -> dist2 u v <= g * g -> near e v w -> dist2 u w <= (g + 3 * e) * (g + 3 * e).
Proof.
  intros Hg. destruct u as [[x y] z], v as [[x' y'] z'], w as [[x2 y2] z2]. unfold dist2, near. intros H (A & B & C).
  assert (E0 : 0 <= e) by (pose proof (Rabs_pos (x' - x2)); lra).
  assert (S : forall a b c, a * a + b * b + c * c <= g * g -> Rabs a <= g /\ Rabs b <= g /\ Rabs c <= g).
  { intros a b c Q. pose proof (Rle_0_sqr a) as Qa. pose proof (Rle_0_sqr b) as Qb. pose proof (Rle_0_sqr c) as Qc. unfold Rsqr in *. repeat split; apply root_le; lra. }
  destruct (S _ _ _ H) as (A0 & B0 & C0). set (a := x - x') in *. set (b := y - y') in *. set (c := z - z') in *.
  replace (x - x2) with (a + (x' - x2)) by (unfold a; ring). replace (y - y2) with (b + (y' - y2)) by (unfold b; ring). replace (z - z2) with (c + (z' - z2)) by (unfold c; ring).
  set (a1 := x' - x2) in *. set (b1 := y' - y2) in *. set (c1 := z' - z2) in *. clearbody a b c a1 b1 c1.
  pose proof (mul_le a a1 _ _ A0 A) as PA. pose proof (mul_le b b1 _ _ B0 B) as PB. pose proof (mul_le c c1 _ _ C0 C) as PC.
  pose proof (mul_le a1 a1 _ _ A A) as QA. pose proof (mul_le b1 b1 _ _ B B) as QB. pose proof (mul_le c1 c1 _ _ C C) as QC.
  apply Rabs_le_inv in PA, PB, PC, QA, QB, QC. assert (0 <= e * e) by (apply Rmult_le_pos; assumption). lra.
Qed.
Lemma dist2_sym u v : dist2 u v = dist2 v u.
Proof. destruct u as [[x y] z], v as [[x' y'] z']. unfold dist2. ring. Qed.
Lemma near_sym e u v : near e u v -> near e v u.
Proof.
  destruct u as [[x y] z], v as [[x' y'] z']. unfold near. intros (A & B & C). rewrite (Rabs_minus_sym x'), (Rabs_minus_sym y'), (Rabs_minus_sym z'). auto.
Qed.
(** a square of a sine is at most that of the angle *)
Lemma sine_sq u : sin u * sin u <= u * u.
Proof.
  pose proof (sin_lip u 0) as H. rewrite sin_0, !Rminus_0_r in H. rewrite <- (Rabs_pos_eq (sin u * sin u)) by apply Rle_0_sqr. rewrite Rabs_mult.
  apply Rle_trans with (Rabs u * Rabs u); [apply Rmult_le_compat; try apply Rabs_pos; exact H|]. rewrite <- Rabs_mult, Rabs_pos_eq by apply Rle_0_sqr. lra.
Qed.
(** angles that differ by at most [e] degrees *)
Lemma dist2_lip a e a' e' f : Rabs (a - a') <= f -> Rabs (e - e') <= f -> dist2 (vec a e) (vec a' e') <= (f / 40) * (f / 40).
Proof.
  intros Ha He. pose proof PI_tight as [P1 P2]. rewrite dist2_vec.
  assert (F0 : 0 <= f) by (pose proof (Rabs_pos (a - a')); lra).
  assert (K : PI / 180 <= 1747 / 100000) by lra.
  assert (Q : forall u u', Rabs (u - u') <= f -> (radians u - radians u') * (radians u - radians u') <= (1747 / 100000 * f) * (1747 / 100000 * f)).
  { intros u u' Hu. assert (B : Rabs (radians u - radians u') <= 1747 / 100000 * f).
    { unfold radians. replace (u * PI / 180 - u' * PI / 180) with ((PI / 180) * (u - u')) by field. rewrite Rabs_mult, (Rabs_pos_eq (PI / 180)) by lra. apply Rmult_le_compat; try lra. apply Rabs_pos. }
    rewrite <- (Rabs_pos_eq (_ * _)) by apply Rle_0_sqr. rewrite Rabs_mult. apply Rmult_le_compat; try apply Rabs_pos; exact B. }
  pose proof (Q _ _ Ha) as Q1. pose proof (Q _ _ He) as Q2. clear Q.
  pose proof (cos_minus (radians e) (radians e')) as E1. pose proof (half_angle (radians e - radians e')) as H1. pose proof (half_angle (radians a - radians a')) as H2.
  pose proof (sine_sq ((radians e - radians e') / 2)) as S1. pose proof (sine_sq ((radians a - radians a') / 2)) as S2.
  pose proof (abs_mul_1 _ _ (cos_1 (radians e)) (cos_1 (radians e'))) as M1.
  set (m := cos (radians e) * cos (radians e')) in *. set (n := sin (radians e) * sin (radians e')) in *.
  set (q := cos (radians a - radians a')) in *. set (t := cos (radians e - radians e')) in *.
  set (s1 := sin ((radians e - radians e') / 2) * sin ((radians e - radians e') / 2)) in *.
  set (s2 := sin ((radians a - radians a') / 2) * sin ((radians a - radians a') / 2)) in *.
  assert (Z2 : 0 <= s2) by apply Rle_0_sqr.
  set (u := radians e - radians e') in *. set (w := radians a - radians a') in *. clearbody s1 s2 u w q t m n.
  apply Rabs_le_inv in M1. assert (m * s2 <= 1 * s2) by (apply Rmult_le_compat_r; lra).
  replace q with (1 - 2 * s2) by lra. replace n with (t - m) by lra. replace t with (1 - 2 * s1) by lra.
  assert (FF : 0 <= f * f) by (apply Rmult_le_pos; assumption). lra.
Qed.
(** a small angle is hardly more than its sine *)
Lemma tiny_sine u s : Rabs u <= / 100 -> Rabs (sin u) <= s -> Rabs u <= 1001 / 1000 * s.
Proof.
  assert (P : forall v, 0 <= v <= / 100 -> 1000 / 1001 * v <= sin v).
  { intros v [H0 H1]. destruct (Req_dec v 0) as [->|Hn]; [rewrite sin_0; lra|].
    destruct (MVT_cor2 sin cos 0 v ltac:(lra)) as (c & Ec & Hc); [intros; apply derivable_pt_lim_sin|]. rewrite sin_0 in Ec.
    assert (1000 / 1001 <= cos c).
    { pose proof (half_angle c) as Hh. pose proof (sine_sq (c / 2)) as Hs. assert (c / 2 * (c / 2) <= / 200 * / 200) by (apply Rmult_le_compat; lra). lra. }
    assert (1000 / 1001 * v <= cos c * v) by (apply Rmult_le_compat_r; lra). lra. }
  intros Hu Hs. destruct (Rle_dec 0 u) as [K|K].
  - rewrite Rabs_pos_eq in * by assumption. pose proof (P u ltac:(lra)). apply Rabs_le_inv in Hs. lra.
  - rewrite Rabs_left1 in * by lra. pose proof (P (- u) ltac:(lra)) as Q. rewrite sin_neg in Q. apply Rabs_le_inv in Hs. lra.
Qed.
Lemma degrees_fine d c : Rabs (radians d) <= c -> Rabs d <= 574 / 10 * c.
Proof.
  intros H. unfold radians, Rdiv in H. rewrite Rmult_assoc, Rabs_mult, (Rabs_pos_eq (PI * / 180)) in H by (pose proof PI_RGT_0; lra).
  pose proof PI_tight. pose proof (Rabs_pos d). assert (Rabs d * (3141 / 1000 * / 180) <= Rabs d * (PI * / 180)) by (apply Rmult_le_compat_l; lra). lra.
Qed.
(** Directions at a distance of at most [g], away from the poles: declinations within 58 g degrees, right ascensions (up to whole
    turns, scaled by the cosine of the declination) within 60 g degrees. *)
Lemma close_angles g a d a' d' : 0 <= g <= / 10 ^ 4 -> dist2 (vec a d) (vec a' d') <= g * g -> Rabs d <= 91 -> Rabs d' <= 85 ->
  Rabs (d - d') <= 58 * g /\ exists k : Z, Rabs (a - (a' + 360 * IZR k)) * cos (radians d') <= 60 * g.
Proof.
  intros He HN Hd Hd'. pose proof PI_tight as [P1 P2].
  assert (NG : near g (vec a d) (vec a' d')).
  { unfold near, vec in *. unfold dist2 in HN. 
    match type of HN with ?x * ?x + ?y * ?y + ?z * ?z <= _ => pose proof (Rle_0_sqr x) as Qa; pose proof (Rle_0_sqr y) as Qb; pose proof (Rle_0_sqr z) as Qc end. unfold Rsqr in *.
    repeat split; apply root_le; lra. }
  assert (C' : / 25 <= cos (radians d')) by (apply cos_85; lra). pose proof (cos_91 d Hd) as Kc.
  assert (C : / 30 <= cos (radians d)).
  { destruct NG as (X0 & Y0 & _). pose proof (abs_mul_1 _ _ (cos_1 (radians a')) (cos_1 (radians d'))) as B1. pose proof (abs_mul_1 _ _ (sin_1 (radians a')) (cos_1 (radians d'))) as B2.
    pose proof (sq_lower _ _ _ X0 B1) as L1. pose proof (sq_lower _ _ _ Y0 B2) as L2.
    pose proof (sin2_cos2 (radians a)) as Qa. pose proof (sin2_cos2 (radians a')) as Qa'. unfold Rsqr in *.
    set (ca := cos (radians a)) in *. set (sa := sin (radians a)) in *. set (ca' := cos (radians a')) in *. set (sa' := sin (radians a')) in *.
    set (cd := cos (radians d)) in *. set (cd' := cos (radians d')) in *. clearbody ca sa ca' sa' cd cd'. clear X0 Y0 B1 B2 HN Hd Hd' P1 P2.
    assert (N : ca * cd * (ca * cd) + sa * cd * (sa * cd) = cd * cd). { transitivity ((sa * sa + ca * ca) * (cd * cd)); [ring|]. rewrite Qa. ring. }
    assert (N' : ca' * cd' * (ca' * cd') + sa' * cd' * (sa' * cd') = cd' * cd'). { transitivity ((sa' * sa' + ca' * ca') * (cd' * cd')); [ring|]. rewrite Qa'. ring. }
    assert (L : / 25 * / 25 - 4 * g <= cd * cd). { assert (/ 25 * / 25 <= cd' * cd') by (apply Rmult_le_compat; lra). lra. }
    destruct (Rle_dec (/ 30) cd) as [K|K]; [exact K|exfalso].
    assert (cd * cd <= / 30 * / 30); [|lra]. destruct (Rle_dec 0 cd) as [K0|K0]; [apply Rmult_le_compat; lra|].
    replace (cd * cd) with ((- cd) * (- cd)) by ring. apply Rmult_le_compat; lra. }
  clear NG Kc. rewrite dist2_vec in HN.
  assert (LipC : Rabs (cos (radians d) - cos (radians d')) <= Rabs (radians d - radians d')) by apply cos_lip.
  set (cd := cos (radians d)) in *. set (cd' := cos (radians d')) in *.
  pose proof (cos_minus (radians d) (radians d')) as E1. fold cd cd' in E1.
  pose proof (half_angle (radians d - radians d')) as H1. pose proof (half_angle (radians a - radians a')) as H2.
  set (t := (radians d - radians d') / 2) in *. set (w := (radians a - radians a') / 2) in *.
  set (q := cos (radians a - radians a')) in *. set (n := sin (radians d) * sin (radians d')) in *.
  set (ct := cos (radians d - radians d')) in *.
  assert (S1 : 0 <= sin t * sin t) by apply Rle_0_sqr. assert (S2 : 0 <= sin w * sin w) by apply Rle_0_sqr.
  assert (CC : 0 <= cd * cd') by (apply Rmult_le_pos; lra).
  assert (T : 4 * (sin t * sin t) + 4 * (cd * cd' * (sin w * sin w)) <= g * g).
  { replace (4 * (sin t * sin t) + 4 * (cd * cd' * (sin w * sin w))) with (2 * (1 - (n + cd * cd' * q))); [exact HN|].
    replace n with (ct - cd * cd') by lra. replace ct with (1 - 2 * (sin t * sin t)) by lra. replace q with (1 - 2 * (sin w * sin w)) by lra. ring. }
  assert (M0 : 0 <= cd * cd' * (sin w * sin w)) by (apply Rmult_le_pos; lra).
  assert (R1 : Rabs (sin t) <= g / 2). { apply root_le; [|lra]. replace (g / 2 * (g / 2)) with (g * g / 4) by field. lra. }
  assert (Bt : Rabs t <= 2 * PI / 3).
  { unfold t, Rdiv. rewrite Rabs_mult, (Rabs_pos_eq (/ 2)) by lra. pose proof (radians_b1 d 91 Hd). pose proof (radians_b1 d' 85 Hd').
    pose proof (Rabs_triang (radians d) (- radians d')) as Tr. rewrite Rabs_Ropp in Tr. unfold Rminus. lra. }
  pose proof (small_sine t (g / 2) Bt R1 ltac:(lra)) as G. pose proof (tiny_sine t (g / 2) ltac:(lra) R1) as G1.
  assert (Dd : Rabs (radians d - radians d') <= 1001 / 1000 * g).
  { replace (radians d - radians d') with (t * 2) by (unfold t; field). rewrite Rabs_mult, (Rabs_pos_eq 2) by lra. lra. }
  split.
  - apply Rle_trans with (574 / 10 * (1001 / 1000 * g)); [|lra]. apply degrees_fine. rewrite radians_minus. exact Dd.
  - assert (CL : 99 / 100 * cd' <= cd). { apply Rabs_le_inv in LipC. lra. }
    assert (W1 : 99 / 100 * (cd' * sin w * (cd' * sin w)) <= g * g / 4).
    { assert (99 / 100 * cd' * (cd' * (sin w * sin w)) <= cd * (cd' * (sin w * sin w))) by (apply Rmult_le_compat_r; [apply Rmult_le_pos; lra|exact CL]).
      replace (99 / 100 * (cd' * sin w * (cd' * sin w))) with (99 / 100 * cd' * (cd' * (sin w * sin w))) by ring. replace (cd * (cd' * (sin w * sin w))) with (cd * cd' * (sin w * sin w)) in H by ring. lra. }
    assert (W2 : Rabs (cd' * sin w) <= 101 / 200 * g). { apply root_le; [|lra]. assert (0 <= g * g) by (apply Rmult_le_pos; lra). replace (101 / 200 * g * (101 / 200 * g)) with (10201 / 40000 * (g * g)) by field. lra. }
    rewrite Rabs_mult, (Rabs_pos_eq cd') in W2 by lra.
    assert (W3 : Rabs (sin w) <= 13 * g).
    { assert (/ 25 * Rabs (sin w) <= cd' * Rabs (sin w)) by (apply Rmult_le_compat_r; [apply Rabs_pos|exact C']). lra. }
    destruct (small_sine_turn w (13 * g) W3 ltac:(lra)) as (k & G2). exists k.
    assert (SK : Rabs (sin (w - PI * IZR k)) = Rabs (sin w)).
    { assert (S0 : sin (IZR k * PI) = 0) by (apply sin_eq_0_1; exists k; reflexivity).
      rewrite sin_minus. replace (PI * IZR k) with (IZR k * PI) by ring. rewrite S0, Rmult_0_r, Rminus_0_r.
      rewrite Rabs_mult. replace (Rabs (cos (IZR k * PI))) with 1; [ring|].
      pose proof (sin2_cos2 (IZR k * PI)) as Q. rewrite S0 in Q. unfold Rsqr in Q.
      symmetry. destruct (Rle_dec 0 (cos (IZR k * PI))) as [K|K]; [rewrite Rabs_pos_eq by exact K|rewrite Rabs_left1 by lra]; nra. }
    pose proof (tiny_sine (w - PI * IZR k) (Rabs (sin w)) ltac:(lra) ltac:(rewrite SK; lra)) as G3.
    assert (G4 : Rabs (a - (a' + 360 * IZR k)) <= 574 / 10 * (2002 / 1000 * Rabs (sin w))).
    { apply degrees_fine. replace (radians (a - (a' + 360 * IZR k))) with ((w - PI * IZR k) * 2) by (unfold w, radians; field). rewrite Rabs_mult, (Rabs_pos_eq 2) by lra. lra. }
    assert (G5 : Rabs (a - (a' + 360 * IZR k)) * cd' <= 574 / 10 * (2002 / 1000 * Rabs (sin w)) * cd') by (apply Rmult_le_compat_r; lra). lra.
Qed.
