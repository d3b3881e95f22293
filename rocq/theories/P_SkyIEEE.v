(** The coordinate conversions with IEEE rounding at every step, for a libm of known accuracy. *)
From Verif Require Import Base Num M_Linalg M_Helper M_Alignment M_Telescope S_Sky P_Sky P_Round P_Helper2 P_TriIEEE S_SkyIEEE.
From Coq Require Import Reals Lra Psatz.
From Flocq Require Import Core Relative.
Open Scope R_scope.

Lemma PI_lo : 3 < PI. Proof. pose proof PI2_3_2. lra. Qed.
Lemma PI_hi : PI <= 4. Proof. apply PI_4. Qed.
Lemma sin_lip a b : Rabs (sin a - sin b) <= Rabs (a - b).
Proof.
  destruct (Rtotal_order a b) as [H|[->|H]]; [|rewrite !Rminus_eq_0, Rabs_R0; lra|].
  - destruct (MVT_cor2 sin cos a b H) as (c & E & _); [intros; apply derivable_pt_lim_sin|]. rewrite Rabs_minus_sym, E, (Rabs_minus_sym a b), Rabs_mult.
    pose proof (COS_bound c). rewrite <- (Rmult_1_l (Rabs (b - a))) at 2. apply Rmult_le_compat_r; [apply Rabs_pos|]. apply Rabs_le. lra.
  - destruct (MVT_cor2 sin cos b a H) as (c & E & _); [intros; apply derivable_pt_lim_sin|]. rewrite E, Rabs_mult.
    pose proof (COS_bound c). rewrite <- (Rmult_1_l (Rabs (a - b))) at 2. apply Rmult_le_compat_r; [apply Rabs_pos|]. apply Rabs_le. lra.
Qed.
Lemma cos_lip a b : Rabs (cos a - cos b) <= Rabs (a - b).
Proof.
  rewrite !cos_sin. eapply Rle_trans; [apply sin_lip|]. right. f_equal. ring.
Qed.
Lemma sin_1 a : Rabs (sin a) <= 1. Proof. pose proof (SIN_bound a). apply Rabs_le. lra. Qed.
Lemma cos_1 a : Rabs (cos a) <= 1. Proof. pose proof (COS_bound a). apply Rabs_le. lra. Qed.

(** product of two values known within e and f *)
Lemma mul_err a b A B e f : Rabs (a - A) <= e -> Rabs (b - B) <= f -> Rabs A <= 1 -> Rabs b <= 1 + / 1000 ->
  Rabs (a * b - A * B) <= (1 + / 1000) * e + f.
Proof.
  intros Ha Hb HA HB. replace (a * b - A * B) with ((a - A) * b + A * (b - B)) by ring. eapply Rle_trans; [apply Rabs_triang|]. rewrite !Rabs_mult.
  pose proof (Rabs_pos (a - A)). pose proof (Rabs_pos (b - B)). pose proof (Rabs_pos A). pose proof (Rabs_pos b).
  assert (Rabs (a - A) * Rabs b <= e * (1 + / 1000)) by (apply Rmult_le_compat; lra).
  assert (Rabs A * Rabs (b - B) <= 1 * f) by (apply Rmult_le_compat; lra). lra.
Qed.
Lemma near_1 a A e : Rabs (a - A) <= e -> Rabs A <= 1 -> e <= / 1000 -> Rabs a <= 1 + / 1000.
Proof. intros H HA He. replace a with ((a - A) + A) by ring. eapply Rle_trans; [apply Rabs_triang|]. lra. Qed.
Lemma rnd_err (k : Z) x X e : (-1000 <= k)%Z -> Rabs (x - X) <= e -> Rabs X + e <= bpow radix2 k -> Rabs (b64 x - X) <= e + bpow radix2 (k - 53).
Proof.
  intros Hk He HX. assert (Rabs x <= bpow radix2 k) by (replace x with ((x - X) + X) by ring; eapply Rle_trans; [apply Rabs_triang|lra]).
  pose proof (b64_error k x Hk H). replace (b64 x - X) with ((b64 x - x) + (x - X)) by ring. eapply Rle_trans; [apply Rabs_triang|]. lra.
Qed.

Section Libm.
Context (T : Trig NumB) (GL : good_libm T).

Lemma tpi_b : PI - bpow radix2 (-50) <= tpi T <= PI + bpow radix2 (-50).
Proof. destruct GL as (_ & _ & _ & H). apply Rabs_le_inv in H. lra. Qed.

Lemma rad_err d D e : Rabs (d - D) <= e -> e <= bpow radix2 (-40) -> Rabs D <= 4000 -> Rabs (rad NumB T d - radians D) <= bpow radix2 (-44) + e / 36.
Proof.
  intros He He1 HD. unfold rad, radians. cbn [fmul fdiv fZ NumB]. rewrite (b64_of_int 180) by lia. pose proof tpi_b as [P1 P2]. pose proof PI_lo. pose proof PI_hi.
  set (p := tpi T) in *. clearbody p. simpl bpow in P1, P2, He1.
  assert (E1 : Rabs (d * p - D * PI) <= 4001 * / 1125899906842624 + 4 * e).
  { replace (d * p - D * PI) with (d * (p - PI) + (d - D) * PI) by ring. eapply Rle_trans; [apply Rabs_triang|]. rewrite !Rabs_mult.
    assert (Rabs d <= 4001). { replace d with ((d - D) + D) by ring. eapply Rle_trans; [apply Rabs_triang|]. lra. }
    pose proof (Rabs_pos d). pose proof (Rabs_pos (d - D)). pose proof (Rabs_pos (p - PI)).
    assert (Rabs d * Rabs (p - PI) <= 4001 * / 1125899906842624) by (apply Rmult_le_compat; try lra; apply Rabs_le; lra).
    assert (Rabs (d - D) * Rabs PI <= e * 4) by (apply Rmult_le_compat; try lra; [apply Rabs_pos|apply Rabs_le; lra]). lra. }
  assert (B1 : Rabs (D * PI) <= 16000).
  { rewrite Rabs_mult. replace 16000 with (4000 * 4) by lra. apply Rmult_le_compat; try apply Rabs_pos; [lra|apply Rabs_le; lra]. }
  assert (E2 : Rabs (b64 (d * p) - D * PI) <= 4001 * / 1125899906842624 + 4 * e + bpow radix2 (14 - 53)).
  { apply rnd_err; [lia|exact E1|]. simpl bpow. pose proof (Rabs_pos (d - D)). lra. }
  simpl bpow in E2.
  assert (E3 : Rabs (b64 (d * p) / 180 - D * PI / 180) <= (4001 * / 1125899906842624 + 4 * e + / 549755813888) / 180).
  { replace (b64 (d * p) / 180 - D * PI / 180) with ((b64 (d * p) - D * PI) / 180) by field. unfold Rdiv. rewrite Rabs_mult, (Rabs_right (/ 180)) by lra. lra. }
  assert (B3 : Rabs (D * PI / 180) <= 90). { unfold Rdiv. rewrite Rabs_mult, (Rabs_right (/ 180)) by lra. lra. }
  pose proof (Rabs_pos (d - D)) as e0.
  pose proof (rnd_err 7 _ _ _ ltac:(lia) E3) as E4. simpl bpow in E4. eapply Rle_trans; [apply E4; lra|]. simpl bpow. lra.
Qed.
Lemma radians_b D : Rabs D <= 4000 -> Rabs (radians D) <= 90.
Proof.
  intros H. unfold radians. pose proof PI_lo. pose proof PI_hi. unfold Rdiv. rewrite !Rabs_mult, (Rabs_right (/ 180)), (Rabs_right PI) by lra.
  assert (Rabs D * PI <= 4000 * 4) by (apply Rmult_le_compat; try lra; apply Rabs_pos). lra.
Qed.
Lemma sincos_err d D e : Rabs (d - D) <= e -> e <= bpow radix2 (-40) -> Rabs D <= 4000 ->
  Rabs (tsin T (rad NumB T d) - sin (radians D)) <= bpow radix2 (-43) + e / 36 /\ Rabs (tcos T (rad NumB T d) - cos (radians D)) <= bpow radix2 (-43) + e / 36.
Proof.
  intros He He1 HD. pose proof (rad_err d D e He He1 HD) as Er. pose proof (radians_b D HD) as Bd. destruct GL as (Gs & Gc & _).
  set (r := rad NumB T d) in *. clearbody r. assert (Br : Rabs r <= 100).
  { replace r with ((r - radians D) + radians D) by ring. eapply Rle_trans; [apply Rabs_triang|]. simpl bpow in *. lra. }
  pose proof (Gs r Br) as S1. pose proof (Gc r Br) as C1. pose proof (sin_lip r (radians D)) as S2. pose proof (cos_lip r (radians D)) as C2.
  split.
  - replace (tsin T r - sin (radians D)) with ((tsin T r - sin r) + (sin r - sin (radians D))) by ring. eapply Rle_trans; [apply Rabs_triang|]. simpl bpow in *. lra.
  - replace (tcos T r - cos (radians D)) with ((tcos T r - cos r) + (cos r - cos (radians D))) by ring. eapply Rle_trans; [apply Rabs_triang|]. simpl bpow in *. lra.
Qed.
End Libm.

(** ** the rotation *)
Lemma prod_err a b A B e f : Rabs (a - A) <= e -> Rabs (b - B) <= f -> Rabs A <= 1 -> Rabs B <= 1 -> e <= / 10000 -> f <= / 10000 ->
  Rabs (b64 (a * b) - A * B) <= (1 + / 1000) * e + f + bpow radix2 (-52).
Proof.
  intros Ha Hb HA HB He Hf. pose proof (near_1 b B f Hb HB ltac:(lra)) as Hb1. pose proof (mul_err a b A B e f Ha Hb HA Hb1) as M.
  assert (P : Rabs (A * B) <= 1). { rewrite Rabs_mult, <- (Rmult_1_l 1). apply Rmult_le_compat; try apply Rabs_pos; assumption. }
  pose proof (rnd_err 1 _ _ _ ltac:(lia) M) as E. apply E. simpl bpow. lra.
Qed.
Lemma abs_mul_1 a b : Rabs a <= 1 -> Rabs b <= 1 -> Rabs (a * b) <= 1.
Proof. intros. rewrite Rabs_mult, <- (Rmult_1_l 1). apply Rmult_le_compat; try apply Rabs_pos; assumption. Qed.
Lemma rot_err sh ch sd cd sp cp SH CH SD CD SP CP e :
  Rabs (sh - SH) <= e -> Rabs (ch - CH) <= e -> Rabs (sd - SD) <= e -> Rabs (cd - CD) <= e -> Rabs (sp - SP) <= e -> Rabs (cp - CP) <= e ->
  Rabs SH <= 1 -> Rabs CH <= 1 -> Rabs SD <= 1 -> Rabs CD <= 1 -> Rabs SP <= 1 -> Rabs CP <= 1 -> bpow radix2 (-43) <= e <= / 1000000 ->
  Rabs (rot_x NumB sh ch sd cd sp cp - (- CH * CD * SP + SD * CP)) <= 6 * e /\
  Rabs (rot_y NumB sh ch sd cd sp cp - (- SH * CD)) <= 6 * e /\
  Rabs (rot_z NumB sh ch sd cd sp cp - (CH * CD * CP + SD * SP)) <= 6 * e.
Proof.
  intros E1 E2 E3 E4 E5 E6 B1 B2 B3 B4 B5 B6 He. unfold rot_x, rot_y, rot_z. cbn [fadd fmul fneg NumB].
  assert (N : forall a A, Rabs (a - A) <= e -> Rabs (- a - - A) <= e) by (intros a A H; replace (- a - - A) with (- (a - A)) by ring; rewrite Rabs_Ropp; exact H).
  assert (N1 : forall A, Rabs A <= 1 -> Rabs (- A) <= 1) by (intros A H; rewrite Rabs_Ropp; exact H).
  simpl bpow in He.
  assert (A1 : Rabs (b64 (- ch * cd) - - CH * CD) <= 2 * e + e / 100).
  { eapply Rle_trans; [apply (prod_err _ _ _ _ e e); [apply N; exact E2|exact E4|apply N1; exact B2|exact B4|lra|lra]|]. simpl bpow. lra. }
  assert (A2 : Rabs (b64 (ch * cd) - CH * CD) <= 2 * e + e / 100).
  { eapply Rle_trans; [apply (prod_err _ _ _ _ e e); [exact E2|exact E4|exact B2|exact B4|lra|lra]|]. simpl bpow. lra. }
  assert (A3 : Rabs (b64 (- sh * cd) - - SH * CD) <= 2 * e + e / 100).
  { eapply Rle_trans; [apply (prod_err _ _ _ _ e e); [apply N; exact E1|exact E4|apply N1; exact B1|exact B4|lra|lra]|]. simpl bpow. lra. }
  assert (A4 : Rabs (b64 (sd * cp) - SD * CP) <= 2 * e + e / 100).
  { eapply Rle_trans; [apply (prod_err _ _ _ _ e e); [exact E3|exact E6|exact B3|exact B6|lra|lra]|]. simpl bpow. lra. }
  assert (A5 : Rabs (b64 (sd * sp) - SD * SP) <= 2 * e + e / 100).
  { eapply Rle_trans; [apply (prod_err _ _ _ _ e e); [exact E3|exact E5|exact B3|exact B5|lra|lra]|]. simpl bpow. lra. }
  assert (A6 : Rabs (b64 (b64 (- ch * cd) * sp) - - CH * CD * SP) <= 3 * e + e / 20).
  { eapply Rle_trans; [apply (prod_err _ _ _ _ (2 * e + e / 100) e); [exact A1|exact E5|apply abs_mul_1; [apply N1|]; assumption|exact B5|lra|lra]|]. simpl bpow. lra. }
  assert (A7 : Rabs (b64 (b64 (ch * cd) * cp) - CH * CD * CP) <= 3 * e + e / 20).
  { eapply Rle_trans; [apply (prod_err _ _ _ _ (2 * e + e / 100) e); [exact A2|exact E6|apply abs_mul_1; assumption|exact B6|lra|lra]|]. simpl bpow. lra. }
  assert (Sum : forall a b A B, Rabs (a - A) <= 3 * e + e / 20 -> Rabs (b - B) <= 2 * e + e / 100 -> Rabs A <= 1 -> Rabs B <= 1 -> Rabs (b64 (a + b) - (A + B)) <= 6 * e).
  { intros a b A B HA HB LA LB. assert (S : Rabs (a + b - (A + B)) <= 5 * e + e / 10).
    { replace (a + b - (A + B)) with ((a - A) + (b - B)) by ring. eapply Rle_trans; [apply Rabs_triang|]. lra. }
    assert (L : Rabs (A + B) <= 2) by (eapply Rle_trans; [apply Rabs_triang|]; lra).
    pose proof (rnd_err 2 _ _ _ ltac:(lia) S) as Q. simpl bpow in Q. eapply Rle_trans; [apply Q; lra|]. lra. }
  split; [|split].
  - apply Sum; [exact A6|exact A4|apply abs_mul_1; [apply abs_mul_1; [apply N1|]|]; assumption|apply abs_mul_1; assumption].
  - lra.
  - apply Sum; [exact A7|exact A5|apply abs_mul_1; [apply abs_mul_1|]; assumption|apply abs_mul_1; assumption].
Qed.

(** ** the hypotenuse *)
Lemma b64_rel x : 0 <= x -> x * (1 - bpow radix2 (-53)) - bpow radix2 (-1074) <= b64 x <= x * (1 + bpow radix2 (-53)) + bpow radix2 (-1074).
Proof.
  intros Hx. destruct (error_N_FLT radix2 (-1074) 53 ltac:(lia) (fun z => negb (Z.even z)) x) as (eps & eta & He & Hn & _ & E).
  unfold b64. change (round radix2 exp64 ZnearestE x) with (round radix2 (FLT_exp (-1074) 53) (Znearest (fun z => negb (Z.even z))) x). rewrite E.
  apply Rabs_le_inv in He, Hn. assert (Q : / 2 * bpow radix2 (- (53) + 1) = bpow radix2 (-53)) by (simpl bpow; lra). rewrite Q in He. clear Q E.
  pose proof (bpow_gt_0 radix2 (-1074)). set (q := bpow radix2 (-53)) in *. set (w := bpow radix2 (-1074)) in *. clearbody q w.
  assert (x * eps <= x * q) by (apply Rmult_le_compat_l; lra). assert (x * (- q) <= x * eps) by (apply Rmult_le_compat_l; lra). lra.
Qed.
Lemma hypot_err x y : Rabs x <= 1 + / 1000 -> Rabs y <= 1 + / 1000 -> x * x + y * y <= 1 + / 1000 ->
  let r := b64 (sqrt (b64 (b64 (x * x) + b64 (y * y)))) in 0 <= r /\ Rabs (r - sqrt (x * x + y * y)) <= bpow radix2 (-50).
Proof.
  intros Hx Hy Hs. cbv zeta. set (s := x * x + y * y) in *. set (th := bpow radix2 (-51)). set (k := bpow radix2 (-500)).
  assert (S0 : 0 <= s) by (unfold s; nra). assert (Px : 0 <= x * x) by nra. assert (Py : 0 <= y * y) by nra.
  pose proof (b64_rel (x * x) Px) as R1. pose proof (b64_rel (y * y) Py) as R2.
  assert (Q1 : 0 <= b64 (x * x)) by (apply b64_nonneg; exact Px). assert (Q2 : 0 <= b64 (y * y)) by (apply b64_nonneg; exact Py).
  pose proof (b64_rel (b64 (x * x) + b64 (y * y)) ltac:(lra)) as R3.
  set (S := b64 (b64 (x * x) + b64 (y * y))) in *. assert (QS : 0 <= S) by (unfold S; apply b64_nonneg; lra).
  assert (W : bpow radix2 (-1074) * 8 <= k * k).
  { unfold k. rewrite <- bpow_plus. change 8 with (bpow radix2 3). rewrite <- bpow_plus. apply bpow_le. lia. }
  assert (W0 : 0 < bpow radix2 (-1074)) by apply bpow_gt_0. set (w := bpow radix2 (-1074)) in *.
  assert (Th : th = 4 * bpow radix2 (-53)) by (unfold th; simpl bpow; lra).
  assert (q53 : 0 < bpow radix2 (-53) <= / 1000000) by (simpl bpow; lra). set (q := bpow radix2 (-53)) in *. clearbody q.
  assert (BS : s * (1 - th) - k * k <= S <= s * (1 + th) + k * k).
  { assert (T1 : s * (1 - q) - 2 * w <= b64 (x * x) + b64 (y * y) <= s * (1 + q) + 2 * w) by (unfold s; lra).
    set (t := b64 (x * x) + b64 (y * y)) in *. clearbody t S s. rewrite Th.
    assert ((s * (1 - q) - 2 * w) * (1 - q) <= t * (1 - q)) by (apply Rmult_le_compat_r; lra). assert (t * (1 + q) <= (s * (1 + q) + 2 * w) * (1 + q)) by (apply Rmult_le_compat_r; lra).
    assert (0 <= w * q) by (apply Rmult_le_pos; lra). assert (w * q <= w * 1) by (apply Rmult_le_compat_l; lra). assert (0 <= s * q) by (apply Rmult_le_pos; lra). assert (s * q * q <= s * q * 1) by (apply Rmult_le_compat_l; lra).
    assert (0 <= s * q * q) by (apply Rmult_le_pos; lra).
    split; lra. }
  assert (k0 : 0 < k) by apply bpow_gt_0. assert (k1 : k <= / 2 ^ 60). { unfold k. replace (/ 2 ^ 60) with (bpow radix2 (-60)) by (simpl bpow; simpl pow; lra). apply bpow_le. lia. }
  assert (th0 : 0 < th <= / 1000) by lra. assert (th1 : th = / 2251799813685248) by (unfold th; simpl bpow; lra).
  clearbody S s k th w. clear R1 R2 R3 Q1 Q2 W W0 w Th q q53 Px Py Hx Hy x y.
  set (rho := sqrt s). assert (Er : rho * rho = s) by (apply sqrt_sqrt; exact S0). assert (r0 : 0 <= rho) by apply sqrt_pos.
  assert (r1 : rho <= 1 + / 1000) by nra.
  assert (U : sqrt S <= rho * (1 + th) + k).
  { apply Rsqr_incr_0_var; [|nra]. unfold Rsqr. rewrite sqrt_sqrt by exact QS. rewrite <- Er in BS. assert (0 <= rho * rho * th) by nra. nra. }
  assert (L : rho * (1 - th) - k <= sqrt S).
  { destruct (Rle_dec (rho * (1 - th)) k) as [H|H]; [pose proof (sqrt_pos S); lra|]. apply Rsqr_incr_0_var; [|apply sqrt_pos]. unfold Rsqr. rewrite sqrt_sqrt by exact QS.
    rewrite <- Er in BS. assert (rho * (1 - th) * k >= k * k) by nra. assert (0 <= rho * rho * th * (1 - th)) by nra.
    replace ((rho * (1 - th) - k) * (rho * (1 - th) - k)) with (rho * rho * (1 - th) - rho * rho * th * (1 - th) - 2 * (rho * (1 - th) * k) + k * k) by ring. lra. }
  split; [apply b64_nonneg, sqrt_pos|].
  assert (E : Rabs (sqrt S - rho) <= (1 + / 1000) * th + k) by (apply Rabs_le; nra).
  pose proof (rnd_err 1 _ _ _ ltac:(lia) E) as Q. eapply Rle_trans; [apply Q|]; [rewrite (Rabs_right rho) by lra|]; simpl bpow; simpl pow in k1; lra.
Qed.
