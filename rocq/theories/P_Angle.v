(** From close directions to close angles. *)
From Verif Require Import Base Num M_Telescope S_Sky P_Sky S_SkyIEEE P_SkyIEEE P_SkyIEEE2.
From Coq Require Import Reals Lra Psatz.
From Flocq Require Import Core.
Open Scope R_scope.

Lemma sin_half u : 0 <= u <= PI / 3 -> u / 2 <= sin u.
Proof.
  intros [H0 H1]. destruct (Req_dec u 0) as [->|Hn]; [rewrite sin_0; lra|].
  destruct (MVT_cor2 sin cos 0 u ltac:(lra)) as (c & Ec & Hc); [intros; apply derivable_pt_lim_sin|].
  rewrite sin_0 in Ec. assert (Hcos : cos (PI / 3) <= cos c) by (pose proof PI_RGT_0; apply cos_decr_1; lra).
  rewrite cos_PI3 in Hcos. nra.
Qed.
(** an angle of at most 120 degrees with a small sine is small *)
Lemma small_sine u e : Rabs u <= 2 * PI / 3 -> Rabs (sin u) <= e -> e < / 2 -> Rabs u <= 2 * e.
Proof.
  assert (P : forall v, 0 <= v <= 2 * PI / 3 -> Rabs (sin v) <= e -> e < / 2 -> v <= 2 * e).
  { intros v [H0 H1] Hs He. pose proof PI_RGT_0. rewrite Rabs_pos_eq in Hs by (apply sin_ge_0; lra). destruct (Rle_dec v (PI / 3)) as [K|K].
    - pose proof (sin_half v ltac:(lra)). lra.
    - exfalso. assert (1 / 2 <= sin v); [|lra]. rewrite <- sin_PI6.
      destruct (Rle_dec v (PI / 2)) as [K2|K2]; [apply sin_incr_1; lra|]. replace (sin v) with (sin (PI - v)) by (rewrite sin_PI_x; reflexivity). apply sin_incr_1; lra. }
  intros Hu Hs He. destruct (Rle_dec 0 u) as [K|K].
  - rewrite Rabs_pos_eq in * by assumption. apply P; [lra|exact Hs|exact He].
  - rewrite Rabs_left1 in * by lra. apply P; [lra| |exact He]. rewrite sin_neg, Rabs_Ropp. exact Hs.
Qed.
Lemma small_sine_turn u e : Rabs (sin u) <= e -> e < / 2 -> exists k : Z, Rabs (u - PI * IZR k) <= 2 * e.
Proof.
  intros Hs He. pose proof PI_RGT_0. set (k := Zfloor (u / PI + / 2)). exists k.
  assert (H1 : IZR k <= u / PI + / 2) by apply Zfloor_lb. assert (H2 : u / PI + / 2 < IZR k + 1) by apply Zfloor_ub.
  assert (Eu : u / PI * PI = u) by (field; lra).
  assert (B : Rabs (u - PI * IZR k) <= PI / 2).
  { apply Rabs_le. assert (IZR k * PI <= (u / PI + / 2) * PI) by (apply Rmult_le_compat_r; lra). assert ((u / PI + / 2) * PI <= (IZR k + 1) * PI) by (apply Rmult_le_compat_r; lra). lra. }
  apply small_sine; [lra| |exact He].
  assert (S : Rabs (sin (u - PI * IZR k)) = Rabs (sin u)); [|rewrite S; exact Hs].
  assert (S0 : sin (IZR k * PI) = 0) by (apply sin_eq_0_1; exists k; reflexivity).
  rewrite sin_minus. replace (PI * IZR k) with (IZR k * PI) by ring. rewrite S0, Rmult_0_r, Rminus_0_r.
  rewrite Rabs_mult. replace (Rabs (cos (IZR k * PI))) with 1; [ring|].
  pose proof (sin2_cos2 (IZR k * PI)) as Q. rewrite S0 in Q. unfold Rsqr in Q.
  symmetry. destruct (Rle_dec 0 (cos (IZR k * PI))) as [K|K]; [rewrite Rabs_pos_eq by exact K|rewrite Rabs_left1 by lra]; nra.
Qed.
(** squares of the components add up to the cosine of the separation *)
Lemma near_sep e a d a' d' : near e (vec a d) (vec a' d') ->
  1 - (sin (radians d) * sin (radians d') + cos (radians d) * cos (radians d') * cos (radians a - radians a')) <= 3 * e * e / 2.
Proof.
  unfold near, vec. intros (A & B & C). rewrite cos_minus.
  pose proof (sin2_cos2 (radians a)) as Qa. pose proof (sin2_cos2 (radians d)) as Qd. pose proof (sin2_cos2 (radians a')) as Qa'. pose proof (sin2_cos2 (radians d')) as Qd'.
  unfold Rsqr in *. set (ca := cos (radians a)) in *. set (sa := sin (radians a)) in *. set (ca' := cos (radians a')) in *. set (sa' := sin (radians a')) in *.
  set (cd := cos (radians d)) in *. set (sd := sin (radians d)) in *. set (cd' := cos (radians d')) in *. set (sd' := sin (radians d')) in *.
  clearbody ca sa ca' sa' cd sd cd' sd'.
  assert (S : forall t, Rabs t <= e -> t * t <= e * e).
  { intros t Ht. pose proof (mul_le t t e e Ht Ht) as M. rewrite Rabs_pos_eq in M by apply Rle_0_sqr. exact M. }
  pose proof (S _ A) as SA. pose proof (S _ B) as SB. pose proof (S _ C) as SC. clear A B C S.
  assert (N : ca * cd * (ca * cd) + sa * cd * (sa * cd) + sd * sd = 1).
  { transitivity ((sa * sa + ca * ca) * (cd * cd) + sd * sd); [ring|]. rewrite Qa. lra. }
  assert (N' : ca' * cd' * (ca' * cd') + sa' * cd' * (sa' * cd') + sd' * sd' = 1).
  { transitivity ((sa' * sa' + ca' * ca') * (cd' * cd') + sd' * sd'); [ring|]. rewrite Qa'. lra. }
  lra.
Qed.
Lemma half_angle u : 1 - cos u = 2 * (sin (u / 2) * sin (u / 2)).
Proof. replace u with (2 * (u / 2)) at 1 by field. rewrite cos_2a_sin. ring. Qed.
Lemma root_le s e : s * s <= e * e -> 0 <= e -> Rabs s <= e.
Proof. intros H He. apply Rsqr_incr_0_var; [|exact He]. unfold Rsqr. rewrite <- Rabs_mult, Rabs_pos_eq by apply Rle_0_sqr. exact H. Qed.
Lemma radians_b1 d c : Rabs d <= c -> Rabs (radians d) <= c * PI / 180.
Proof.
  intros H. unfold radians. unfold Rdiv. rewrite Rmult_assoc, Rabs_mult, (Rabs_pos_eq (PI * / 180)) by (pose proof PI_RGT_0; lra).
  pose proof PI_RGT_0. rewrite Rmult_assoc. apply Rmult_le_compat_r; lra.
Qed.
Lemma degrees_of d c : Rabs (radians d) <= c -> Rabs d <= 60 * c.
Proof.
  intros H. unfold radians, Rdiv in H. rewrite Rmult_assoc, Rabs_mult, (Rabs_pos_eq (PI * / 180)) in H by (pose proof PI_RGT_0; lra).
  pose proof PI_lo. pose proof (Rabs_pos d). assert (Rabs d * (3 * / 180) <= Rabs d * (PI * / 180)) by (apply Rmult_le_compat_l; lra). lra.
Qed.
Lemma cos_85 d : Rabs d <= 85 + / 100 -> / 25 <= cos (radians d).
Proof.
  intros H. apply radians_b1 in H. pose proof PI_lo as P1. pose proof PI_hi as P2.
  replace (cos (radians d)) with (cos (Rabs (radians d))) by (unfold Rabs; destruct (Rcase_abs (radians d)); [apply cos_neg|reflexivity]).
  pose proof (Rabs_pos (radians d)). set (u := Rabs (radians d)) in *. clearbody u.
  set (w := (85 + / 100) * PI / 180) in *.
  assert (cos w <= cos u) by (apply cos_decr_1; unfold w in *; lra).
  assert (cos w = sin (PI / 2 - w)) by (rewrite sin_shift; reflexivity).
  pose proof (sin_half (PI / 2 - w) ltac:(unfold w; lra)). unfold w in *. lra.
Qed.

Lemma cos_91 d : Rabs d <= 91 -> - / 40 <= cos (radians d).
Proof.
  intros Hd. pose proof PI_lo as P1. pose proof PI_hi as P2. pose proof (radians_b1 d 91 Hd) as B.
  replace (cos (radians d)) with (cos (Rabs (radians d))) by (unfold Rabs; destruct (Rcase_abs (radians d)); [apply cos_neg|reflexivity]).
  pose proof (Rabs_pos (radians d)). set (u := Rabs (radians d)) in *. clearbody u.
  assert (cos (91 * PI / 180) <= cos u) by (apply cos_decr_1; lra).
  assert (E1 : cos (91 * PI / 180) = - sin (PI / 180)). { replace (91 * PI / 180) with (PI / 2 + PI / 180) by field. rewrite cos_plus, cos_PI2, sin_PI2. ring. }
  assert (sin (PI / 180) < PI / 180) by (apply sin_lt_x; lra). lra.
Qed.
Lemma sq_lower x x' e : Rabs (x - x') <= e -> Rabs x' <= 1 -> x' * x' - 2 * e <= x * x.
Proof.
  intros H H'. assert (E : x * x = x' * x' + 2 * (x' * (x - x')) + (x - x') * (x - x')) by ring.
  pose proof (mul_le x' (x - x') 1 e H' H) as M. apply Rabs_le_inv in M. pose proof (Rle_0_sqr (x - x')) as Q. unfold Rsqr in Q. lra.
Qed.
(** Close directions, away from the poles: close declinations, and right ascensions that are close up to whole turns. *)
Lemma near_angles e a d a' d' : 0 <= e <= / 10 ^ 8 -> near e (vec a d) (vec a' d') -> Rabs d <= 91 -> Rabs d' <= 85 ->
  Rabs (d - d') <= 240 * e /\ exists k : Z, Rabs (a - (a' + 360 * IZR k)) <= 5760 * e.
Proof.
  intros He HN Hd Hd'. pose proof PI_lo as P1. pose proof PI_hi as P2. pose proof (near_sep e a d a' d' HN) as Hs.
  assert (C' : / 25 <= cos (radians d')) by (apply cos_85; lra). pose proof (cos_91 d Hd) as Kc.
  assert (C : / 30 <= cos (radians d)).
  { destruct HN as (X0 & Y0 & _). pose proof (abs_mul_1 _ _ (cos_1 (radians a')) (cos_1 (radians d'))) as B1. pose proof (abs_mul_1 _ _ (sin_1 (radians a')) (cos_1 (radians d'))) as B2.
    pose proof (sq_lower _ _ _ X0 B1) as L1. pose proof (sq_lower _ _ _ Y0 B2) as L2.
    pose proof (sin2_cos2 (radians a)) as Qa. pose proof (sin2_cos2 (radians a')) as Qa'. unfold Rsqr in *.
    set (ca := cos (radians a)) in *. set (sa := sin (radians a)) in *. set (ca' := cos (radians a')) in *. set (sa' := sin (radians a')) in *.
    set (cd := cos (radians d)) in *. set (cd' := cos (radians d')) in *. clearbody ca sa ca' sa' cd cd'. clear X0 Y0 B1 B2 Hs Hd Hd' P1 P2.
    assert (N : ca * cd * (ca * cd) + sa * cd * (sa * cd) = cd * cd). { transitivity ((sa * sa + ca * ca) * (cd * cd)); [ring|]. rewrite Qa. ring. }
    assert (N' : ca' * cd' * (ca' * cd') + sa' * cd' * (sa' * cd') = cd' * cd'). { transitivity ((sa' * sa' + ca' * ca') * (cd' * cd')); [ring|]. rewrite Qa'. ring. }
    assert (L : / 25 * / 25 - 4 * e <= cd * cd). { assert (/ 25 * / 25 <= cd' * cd') by (apply Rmult_le_compat; lra). lra. }
    destruct (Rle_dec (/ 30) cd) as [K|K]; [exact K|exfalso].
    assert (cd * cd <= / 30 * / 30); [|lra]. destruct (Rle_dec 0 cd) as [K0|K0]; [apply Rmult_le_compat; lra|].
    replace (cd * cd) with ((- cd) * (- cd)) by ring. apply Rmult_le_compat; lra. }
  assert (CC : / 750 <= cos (radians d) * cos (radians d')). { assert (/ 30 * / 25 <= cos (radians d) * cos (radians d')) by (apply Rmult_le_compat; lra). lra. }
  clear HN C C' Kc.
  set (m := cos (radians d) * cos (radians d')) in *. pose proof (cos_minus (radians d) (radians d')) as E1. fold m in E1.
  pose proof (half_angle (radians d - radians d')) as H1. pose proof (half_angle (radians a - radians a')) as H2.
  set (t := (radians d - radians d') / 2) in *. set (w := (radians a - radians a') / 2) in *.
  set (q := cos (radians a - radians a')) in *. set (n := sin (radians d) * sin (radians d')) in *.
  set (ct := cos (radians d - radians d')) in *.
  assert (S1 : 0 <= sin t * sin t) by apply Rle_0_sqr. assert (S2 : 0 <= sin w * sin w) by apply Rle_0_sqr.
  set (s2 := sin t * sin t) in *. set (w2 := sin w * sin w) in *.
  assert (M0 : 0 <= m * w2) by (apply Rmult_le_pos; lra). assert (M1 : / 750 * w2 <= m * w2) by (apply Rmult_le_compat_r; lra).
  assert (T : 2 * s2 + 2 * (m * w2) <= 3 * e * e / 2).
  { replace (2 * s2 + 2 * (m * w2)) with (1 - (n + m * q)); [exact Hs|]. rewrite <- H1. replace q with (1 - 2 * w2) by lra. rewrite E1. ring. }
  assert (Q0 : 0 <= e * e) by (apply Rmult_le_pos; lra). split.
  - assert (R1 : Rabs (sin t) <= e) by (apply root_le; [fold s2; lra|lra]).
    assert (Bt : Rabs t <= 2 * PI / 3).
    { unfold t, Rdiv. rewrite Rabs_mult, (Rabs_pos_eq (/ 2)) by lra. pose proof (radians_b1 d 91 Hd). pose proof (radians_b1 d' 85 Hd').
      pose proof (Rabs_triang (radians d) (- radians d')) as Tr. rewrite Rabs_Ropp in Tr. unfold Rminus. lra. }
    pose proof (small_sine t e Bt R1 ltac:(lra)) as G. apply Rle_trans with (60 * (4 * e)); [|lra]. apply degrees_of.
    rewrite radians_minus. replace (radians d - radians d') with (t * 2) by (unfold t; field). rewrite Rabs_mult, (Rabs_pos_eq 2) by lra. lra.
  - assert (R2 : Rabs (sin w) <= 24 * e) by (apply root_le; [fold w2; lra|lra]).
    destruct (small_sine_turn w (24 * e) R2 ltac:(lra)) as (k & G). exists k.
    apply Rle_trans with (60 * (96 * e)); [|lra]. apply degrees_of.
    replace (radians (a - (a' + 360 * IZR k))) with ((w - PI * IZR k) * 2) by (unfold w, radians; field). rewrite Rabs_mult, (Rabs_pos_eq 2) by lra. lra.
Qed.
