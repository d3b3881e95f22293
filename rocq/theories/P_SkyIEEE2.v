(** The coordinate conversions with IEEE rounding: from the vector to the angles. *)
From Verif Require Import Base Num M_Linalg M_Helper M_Alignment M_Telescope S_Sky P_Sky P_Round P_Helper2 P_TriIEEE S_SkyIEEE P_SkyIEEE.
From Coq Require Import Reals Lra Psatz.
From Flocq Require Import Core Relative.
Open Scope R_scope.

(** ** from the vector to the angles *)
Lemma mul_le u v a b : Rabs u <= a -> Rabs v <= b -> Rabs (u * v) <= a * b.
Proof. intros. rewrite Rabs_mult. apply Rmult_le_compat; try apply Rabs_pos; assumption. Qed.
Lemma root_near n b : 0 <= n -> - b <= n * n - 1 <= b -> - b <= n - 1 <= b.
Proof. intros Hn H. apply Rabs_le_inv. assert (B : Rabs (n * n - 1) <= b) by (apply Rabs_le; exact H). replace (n * n - 1) with ((n + 1) * (n - 1)) in B by ring. rewrite Rabs_mult, (Rabs_right (n + 1)) in B by lra.
  pose proof (Rabs_pos (n - 1)). set (w := Rabs (n - 1)) in *. clearbody w. assert (0 <= n * w) by (apply Rmult_le_pos; lra). lra. Qed.
(** x, y, z within [e] of a unit vector; r close to sqrt (x^2 + y^2): the angles of atan2 point to that vector *)
Lemma polar_err x y z X Y Z r e : Rabs (x - X) <= e -> Rabs (y - Y) <= e -> Rabs (z - Z) <= e -> X * X + Y * Y + Z * Z = 1 ->
  bpow radix2 (-43) <= e <= / 100000 -> 0 <= r -> Rabs (r - sqrt (x * x + y * y)) <= bpow radix2 (-50) ->
  let h := if Req_bool r 0 then 0 else atan2R y x in let d := atan2R z r in
  Rabs (cos h * cos d - X) <= 8 * e /\ Rabs (sin h * cos d - Y) <= 8 * e /\ Rabs (sin d - Z) <= 8 * e.
Proof.
  intros Ex Ey Ez HN He Hr Er. cbv zeta. set (rho := sqrt (x * x + y * y)) in *.
  assert (R0 : 0 <= rho) by apply sqrt_pos. assert (R2 : rho * rho = x * x + y * y) by (apply sqrt_sqrt; nra).
  destruct (atan2R_spec y x) as [_ [Ch Sh]]. fold rho in Ch, Sh. destruct (atan2R_spec z r) as [_ [Cd Sd]].
  set (n := sqrt (r * r + z * z)) in *. assert (N0 : 0 <= n) by apply sqrt_pos. assert (N2 : n * n = r * r + z * z) by (apply sqrt_sqrt; nra).
  set (H := atan2R y x) in *. set (D := atan2R z r) in *.
  assert (BX : Rabs X <= 1) by (apply Rabs_le; nra). assert (BY : Rabs Y <= 1) by (apply Rabs_le; nra). assert (BZ : Rabs Z <= 1) by (apply Rabs_le; nra).
  assert (Sq : forall a A, Rabs (a - A) <= e -> Rabs A <= 1 -> - (2 * e + e / 1000) <= a * a - A * A <= 2 * e + e / 1000).
  { intros a A Ha HA. apply Rabs_le_inv. pose proof (near_1 a A e Ha HA ltac:(lra)) as B. replace (a * a - A * A) with ((a - A) * a + A * (a - A)) by ring. eapply Rle_trans; [apply Rabs_triang|]. rewrite !Rabs_mult.
    pose proof (Rabs_pos (a - A)). pose proof (Rabs_pos a). pose proof (Rabs_pos A).
    assert (Rabs (a - A) * Rabs a <= e * (1 + / 1000)) by (apply Rmult_le_compat; lra). assert (Rabs A * Rabs (a - A) <= 1 * e) by (apply Rmult_le_compat; lra). lra. }
  pose proof (Sq x X Ex BX) as Qx. pose proof (Sq y Y Ey BY) as Qy. pose proof (Sq z Z Ez BZ) as Qz. clear Sq.
  simpl bpow in He, Er. apply Rabs_le_inv in Er.
  assert (Rb : rho <= 1 + / 1000). { assert (0 <= Z * Z) by apply Rle_0_sqr. assert (K : rho * rho <= 1 + / 1000) by lra. destruct (Rle_dec rho (1 + / 1000)) as [L|L]; [exact L|exfalso]. assert ((1 + / 1000) * (1 + / 1000) <= rho * rho) by (apply Rmult_le_compat; lra). lra. }
  assert (Qr : - (e / 30) <= r * r - rho * rho <= e / 30).
  { replace (r * r - rho * rho) with ((r - rho) * (r + rho)) by ring. assert (M : Rabs ((r - rho) * (r + rho)) <= / 1125899906842624 * 3) by (apply mul_le; apply Rabs_le; lra). apply Rabs_le_inv in M. lra. }
  assert (Qn : - (6 * e + e / 10) <= n - 1 <= 6 * e + e / 10).
  { apply root_near; [exact N0|]. lra. }
  pose proof (COS_bound D) as CD. pose proof (SIN_bound D) as SD. 
  assert (Dc : Rabs (cos D - r) <= 6 * e + e / 10).
  { rewrite <- Cd. replace (cos D - n * cos D) with (- ((n - 1) * cos D)) by ring. rewrite Rabs_Ropp, Rabs_mult. rewrite <- (Rmult_1_r (6 * e + e / 10)).
    apply Rmult_le_compat; try apply Rabs_pos; apply Rabs_le; lra. }
  assert (Ds : Rabs (sin D - z) <= 6 * e + e / 10).
  { rewrite <- Sd. replace (sin D - n * sin D) with (- ((n - 1) * sin D)) by ring. rewrite Rabs_Ropp, Rabs_mult. rewrite <- (Rmult_1_r (6 * e + e / 10)).
    apply Rmult_le_compat; try apply Rabs_pos; apply Rabs_le; lra. }
  assert (Fz : Rabs (sin D - Z) <= 8 * e).
  { replace (sin D - Z) with ((sin D - z) + (z - Z)) by ring. eapply Rle_trans; [apply Rabs_triang|]. lra. }
  assert (Dr : Rabs (cos D - rho) <= 6 * e + e / 5).
  { replace (cos D - rho) with ((cos D - r) + (r - rho)) by ring. eapply Rle_trans; [apply Rabs_triang|]. assert (Rabs (r - rho) <= / 1125899906842624) by (apply Rabs_le; lra). lra. }
  destruct (Req_bool_spec r 0) as [Hz|Hz].
  - assert (C0 : cos D = 0). { rewrite Hz in Cd. apply Rmult_integral in Cd. destruct Cd as [K|K]; [lra|exact K]. }
    rewrite C0, !Rmult_0_r. rewrite Hz in Er.
    assert (S : forall a A, Rabs (a - A) <= e -> a * a <= rho * rho -> Rabs (0 - A) <= 8 * e).
    { intros a A Ha H2. assert (Rabs a <= rho) by (apply Rsqr_incr_0_var; [rewrite <- Rsqr_abs; exact H2|exact R0]).
      replace (0 - A) with ((a - A) + - a) by ring. eapply Rle_trans; [apply Rabs_triang|]. rewrite Rabs_Ropp. lra. }
    split; [apply (S x); [exact Ex|nra]|]. split; [apply (S y); [exact Ey|nra]|exact Fz].
  - assert (S : forall t w W, Rabs t <= 1 -> rho * t = w -> Rabs (w - W) <= e -> Rabs (t * cos D - W) <= 8 * e).
    { intros t w W Ht Hw HW. replace (t * cos D - W) with (t * (cos D - rho) + (rho * t - W)) by ring. eapply Rle_trans; [apply Rabs_triang|]. rewrite Rabs_mult, Hw.
      assert (Rabs t * Rabs (cos D - rho) <= 1 * (6 * e + e / 5)) by (apply Rmult_le_compat; try apply Rabs_pos; assumption). lra. }
    split; [apply (S (cos H) x X); [apply cos_1|exact Ch|exact Ex]|]. split; [apply (S (sin H) y Y); [apply sin_1|exact Sh|exact Ey]|exact Fz].
Qed.

Section Libm2.
Context (T : Trig NumB) (GL : good_libm T).
Lemma deg_err v : Rabs v <= 11 -> Rabs (deg NumB T v - v * 180 / PI) <= bpow radix2 (-41) /\ Rabs (radians (deg NumB T v) - v) <= bpow radix2 (-46).
Proof.
  intros Hv. assert (M : Rabs (deg NumB T v - v * 180 / PI) <= bpow radix2 (-41)).
  { unfold deg. cbn [fmul fdiv fZ NumB]. rewrite (b64_of_int 180) by lia. pose proof (tpi_b T GL) as [P1 P2]. pose proof PI_lo. pose proof PI_hi.
    set (p := tpi T) in *. clearbody p. simpl bpow in P1, P2.
    assert (B1 : Rabs (v * 180) <= 1980) by (rewrite Rabs_mult, (Rabs_right 180) by lra; lra).
    pose proof (b64_error 11 (v * 180) ltac:(lia) ltac:(simpl bpow; lra)) as E1. simpl bpow in E1.
    set (w := b64 (v * 180)) in *. clearbody w.
    assert (Ip : 0 < / p <= / 2) by (split; [apply Rinv_0_lt_compat; lra|apply Rinv_le_contravar; lra]).
    assert (IP : 0 < / PI <= / 3) by (split; [apply Rinv_0_lt_compat; lra|apply Rinv_le_contravar; lra]).
    assert (E2 : Rabs (w / p - v * 180 / PI) <= 350 * / 1125899906842624).
    { replace (w / p - v * 180 / PI) with ((w - v * 180) * / p + v * 180 * ((PI - p) * (/ p * / PI))) by (field; lra).
      eapply Rle_trans; [apply Rabs_triang|]. rewrite Rabs_mult, (Rabs_mult (v * 180)), (Rabs_mult (PI - p)).
      assert (Rabs (/ p) <= 4 / 11) .
      { rewrite Rabs_right by lra. replace (4 / 11) with (/ (11 / 4)) by field. apply Rinv_le_contravar; lra. }
      assert (I2 : Rabs (/ p * / PI) <= / 8).
      { rewrite Rabs_right by nra. replace (/ p * / PI) with (/ (p * PI)) by (field; lra). apply Rinv_le_contravar; [lra|]. nra. }
      assert (A : Rabs (w - v * 180) * Rabs (/ p) <= / 4398046511104 * (4 / 11)) by (apply Rmult_le_compat; try apply Rabs_pos; assumption).
      assert (D1 : Rabs (PI - p) * Rabs (/ p * / PI) <= / 1125899906842624 * / 8) by (apply Rmult_le_compat; try apply Rabs_pos; [apply Rabs_le; lra|exact I2]).
      assert (D2 : Rabs (v * 180) * (Rabs (PI - p) * Rabs (/ p * / PI)) <= 1980 * (/ 1125899906842624 * / 8)) by (apply Rmult_le_compat; try apply Rabs_pos; [apply Rmult_le_pos; apply Rabs_pos|exact B1|exact D1]).
      lra. }
    assert (B2 : Rabs (v * 180 / PI) <= 660).
    { unfold Rdiv. rewrite Rabs_mult, (Rabs_right (/ PI)) by lra. replace 660 with (1980 * / 3) by lra. apply Rmult_le_compat; try apply Rabs_pos; lra. }
    pose proof (rnd_err 10 _ _ _ ltac:(lia) E2) as Q. simpl bpow in Q. eapply Rle_trans; [apply Q; lra|]. simpl bpow. lra. }
  split; [exact M|]. pose proof PI_lo. pose proof PI_hi.
  replace (radians (deg NumB T v) - v) with ((deg NumB T v - v * 180 / PI) * (PI / 180)) by (unfold radians; change (F NumB) with R; field; lra).
  rewrite Rabs_mult, (Rabs_right (PI / 180)) by lra.
  assert (Q : Rabs (deg NumB T v - v * 180 / PI) * (PI / 180) <= bpow radix2 (-41) * (4 / 180)) by (apply Rmult_le_compat; try apply Rabs_pos; lra).
  eapply Rle_trans; [exact Q|]. simpl bpow. lra.
Qed.
End Libm2.

Lemma near_sym e v w : near e v w -> near e w v.
Proof. destruct v as [[x y] z], w as [[x' y'] z']. unfold near. intros (A & B & C). rewrite Rabs_minus_sym in A, B, C. split; [|split]; assumption. Qed.
Lemma near_trans e f u v w : near e u v -> near f v w -> near (e + f) u w.
Proof.
  destruct u as [[x y] z], v as [[x' y'] z'], w as [[x2 y2] z2]. unfold near. intros (A & B & C) (A' & B' & C').
  split; [|split]; [replace (x - x2) with ((x - x') + (x' - x2)) by ring|replace (y - y2) with ((y - y') + (y' - y2)) by ring|replace (z - z2) with ((z - z') + (z' - z2)) by ring];
    (eapply Rle_trans; [apply Rabs_triang|]; lra).
Qed.
Lemma near_le e f v w : e <= f -> near e v w -> near f v w.
Proof. destruct v as [[? ?] ?], w as [[? ?] ?]. unfold near. intros H (A & B & C). repeat split; lra. Qed.
Lemma near_refl e v : 0 <= e -> near e v v.
Proof. destruct v as [[? ?] ?]. unfold near. intros H. rewrite !Rminus_eq_0, Rabs_R0. auto. Qed.
Lemma rot_near p e v w : near e v w -> near (2 * e) (rot p v) (rot p w).
Proof.
  destruct v as [[x y] z], w as [[x' y'] z']. unfold near, rot. intros (A & B & C). pose proof (cos_1 (radians p)) as Hc. pose proof (sin_1 (radians p)) as Hs.
  set (c := cos (radians p)) in *. set (s := sin (radians p)) in *. clearbody c s.
  assert (M : forall a b f, Rabs a <= 1 -> Rabs b <= f -> Rabs (a * b) <= f).
  { intros a b f Ha Hb. rewrite Rabs_mult, <- (Rmult_1_l f). apply Rmult_le_compat; try apply Rabs_pos; assumption. }
  pose proof (Rabs_pos (y - y')).
  split; [|split].
  - replace (c * z - s * x - (c * z' - s * x')) with (c * (z - z') + - (s * (x - x'))) by ring. eapply Rle_trans; [apply Rabs_triang|]. rewrite Rabs_Ropp.
    pose proof (M c (z - z') e Hc C). pose proof (M s (x - x') e Hs A). lra.
  - replace (- y - - y') with (- (y - y')) by ring. rewrite Rabs_Ropp. lra.
  - replace (s * z + c * x - (s * z' + c * x')) with (s * (z - z') + c * (x - x')) by ring. eapply Rle_trans; [apply Rabs_triang|].
    pose proof (M s (z - z') e Hs C). pose proof (M c (x - x') e Hc A). lra.
Qed.

(** angles (in degrees) whose radians are close to given ones point to a direction that is close *)
Lemma vec_near (a e a' e' f g : R) : Rabs (cos (radians a) - cos a') <= f -> Rabs (sin (radians a) - sin a') <= f ->
  Rabs (cos (radians e) - cos e') <= g -> Rabs (sin (radians e) - sin e') <= g -> g <= / 1000 ->
  near (2 * f + 2 * g) (vec a e) (cos a' * cos e', sin a' * cos e', sin e').
Proof.
  intros Ca Sa Ce Se Hg. unfold near, vec. pose proof (Rabs_pos (cos (radians a) - cos a')) as f0. pose proof (Rabs_pos (cos (radians e) - cos e')) as g0.
  pose proof (near_1 _ _ _ Ce (cos_1 _) Hg) as N. split; [|split].
  - pose proof (mul_err _ _ _ _ _ _ Ca Ce (cos_1 _) N). lra.
  - pose proof (mul_err _ _ _ _ _ _ Sa Ce (sin_1 _) N). lra.
  - lra.
Qed.
Lemma turn_near a b f (k : Z) : Rabs (a - (b + 2 * PI * IZR k)) <= f -> Rabs (cos a - cos b) <= f /\ Rabs (sin a - sin b) <= f.
Proof.
  intros H. rewrite <- (periodic_cos b k), <- (periodic_sin b k). split; (eapply Rle_trans; [|exact H]); [apply cos_lip|apply sin_lip].
Qed.
Lemma tri_near a b c f g : Rabs (a - b) <= f -> Rabs (b - c) <= g -> Rabs (a - c) <= f + g.
Proof. intros H K. replace (a - c) with ((a - b) + (b - c)) by ring. eapply Rle_trans; [apply Rabs_triang|]. lra. Qed.

Section Main.
Context (T : Trig NumB) (GL : good_libm T).

(** the angles computed from the vector *)
Definition angles (x y z r : R) : R * R := (if Req_bool r 0 then 0 else tatan2 T y x, tatan2 T z r).
Lemma angles_near x y z X Y W e : Rabs (x - X) <= e -> Rabs (y - Y) <= e -> Rabs (z - W) <= e -> X * X + Y * Y + W * W = 1 ->
  bpow radix2 (-43) <= e <= / 100000 -> let r := b64 (sqrt (b64 (b64 (x * x) + b64 (y * y)))) in
  Rabs (fst (angles x y z r)) <= 4 /\ Rabs (snd (angles x y z r)) <= 4 /\ Rabs (snd (angles x y z r)) <= PI / 2 + bpow radix2 (-50) /\
  exists h d, near (8 * e) (cos h * cos d, sin h * cos d, sin d) (X, Y, W) /\
    (exists k : Z, Rabs (fst (angles x y z r) - (h + 2 * PI * IZR k)) <= bpow radix2 (-50)) /\
    (exists k : Z, Rabs (snd (angles x y z r) - (d + 2 * PI * IZR k)) <= bpow radix2 (-50)).
Proof.
  intros Ex Ey Ez HN He r. destruct GL as (_ & _ & G & _).
  assert (BX : Rabs X <= 1) by (apply Rabs_le; nra). assert (BY : Rabs Y <= 1) by (apply Rabs_le; nra).
  assert (Hx : Rabs x <= 1 + / 1000) by (apply (near_1 x X e); [exact Ex|exact BX|lra]). assert (Hy : Rabs y <= 1 + / 1000) by (apply (near_1 y Y e); [exact Ey|exact BY|lra]).
  assert (Hs : x * x + y * y <= 1 + / 1000).
  { assert (Q : forall a A, Rabs (a - A) <= e -> Rabs A <= 1 -> Rabs a <= 1 + / 1000 -> a * a <= A * A + 3 * e).
    { intros a A Ha HA Ha1. pose proof (mul_err a a A A e e Ha Ha HA Ha1) as M. apply Rabs_le_inv in M. pose proof (Rabs_pos (a - A)). lra. }
    pose proof (Q x X Ex BX Hx). pose proof (Q y Y Ey BY Hy). assert (0 <= W * W) by apply Rle_0_sqr. lra. }
  destruct (hypot_err x y Hx Hy Hs) as [R0 Er]. fold r in R0, Er. unfold angles. cbn [fst snd].
  destruct (G y x) as [G1 (k1 & G2)]. destruct (G z r) as [G3 (k2 & G4)].
  split; [destruct (Req_bool r 0); [rewrite Rabs_R0; lra|exact G1]|]. split; [exact G3|]. split.
  { pose proof (atan2R_halfplane z r R0) as Hp. pose proof PI_lo. pose proof PI_hi. apply Rabs_le_inv in G3, G4. simpl bpow in *.
    assert (K : (k2 = 0)%Z).
    { assert (-1 < IZR k2 < 1) as [L U] by (split; nra). apply lt_IZR in L, U. lia. }
    rewrite K in G4. apply Rabs_le. lra. }
  exists (if Req_bool r 0 then 0 else atan2R y x), (atan2R z r). split; [|split].
  - pose proof (polar_err x y z X Y W r e Ex Ey Ez HN He R0 Er) as P. cbv zeta in P. exact P.
  - destruct (Req_bool r 0); [exists 0%Z; rewrite Rmult_0_r, Rplus_0_r, Rminus_0_r, Rabs_R0; apply bpow_ge_0|exists k1; exact G2].
  - exists k2. exact G4.
Qed.

Lemma deg_range v c : Rabs v <= 11 -> - c <= v <= c -> - (c * 180 / PI + bpow radix2 (-41)) <= deg NumB T v <= c * 180 / PI + bpow radix2 (-41).
Proof.
  intros Hv Hc. destruct (deg_err T GL v Hv) as [E _]. apply Rabs_le_inv in E. pose proof PI_lo.
  assert (I : 0 < 180 / PI) by (apply Rdiv_lt_0_compat; lra). assert (v * (180 / PI) <= c * (180 / PI)) by (apply Rmult_le_compat_r; lra). assert (- c * (180 / PI) <= v * (180 / PI)) by (apply Rmult_le_compat_r; lra).
  unfold Rdiv in *. lra.
Qed.

Lemma h2e_ieee a e p l : Rabs a <= 4000 -> Rabs e <= 4000 -> Rabs p <= 4000 -> Rabs l <= 4000 ->
  let q := horizontalToEquatorial NumB T a e p l in
  near (bpow radix2 (-37)) (vec (l - ra q) (dec q)) (rot p (vec a e)) /\
  - (1 / 10 ^ 8) <= ra q <= 360 + 1 / 10 ^ 8 /\ Rabs (dec q) <= 90 + bpow radix2 (-40).
Proof.
  intros Ha He Hp Hl. cbv zeta.
  pose proof (vec_norm a e) as N0. apply (rot_norm p) in N0.
  unfold horizontalToEquatorial. cbn [ra dec].
  assert (Z0 : forall d : R, Rabs (d - d) <= 0) by (intros; rewrite Rminus_eq_0, Rabs_R0; lra).
  assert (Z1 : 0 <= bpow radix2 (-40)) by apply bpow_ge_0.
  destruct (sincos_err T GL a a 0 (Z0 a) Z1 Ha) as [S1 C1]. destruct (sincos_err T GL e e 0 (Z0 e) Z1 He) as [S2 C2]. destruct (sincos_err T GL p p 0 (Z0 p) Z1 Hp) as [S3 C3].
  set (sa := tsin T (rad NumB T a)) in *. set (ca := tcos T (rad NumB T a)) in *. set (se := tsin T (rad NumB T e)) in *. set (ce := tcos T (rad NumB T e)) in *.
  set (sp := tsin T (rad NumB T p)) in *. set (cp := tcos T (rad NumB T p)) in *. clearbody sa ca se ce sp cp.
  assert (Q0 : bpow radix2 (-43) + 0 / 36 = bpow radix2 (-43)) by lra. rewrite Q0 in *. clear Q0.
  destruct (rot_err sa ca se ce sp cp _ _ _ _ _ _ (bpow radix2 (-43)) S1 C1 S2 C2 S3 C3 (sin_1 _) (cos_1 _) (sin_1 _) (cos_1 _) (sin_1 _) (cos_1 _) ltac:(simpl bpow; lra)) as (Ex & Ey & Ez).
  set (x := rot_x NumB _ _ _ _ _ _) in *. set (y := rot_y NumB _ _ _ _ _ _) in *. set (z := rot_z NumB _ _ _ _ _ _) in *. clearbody x y z.
  set (X := - cos (radians a) * cos (radians e) * sin (radians p) + sin (radians e) * cos (radians p)) in *.
  set (Y := - sin (radians a) * cos (radians e)) in *. set (W := cos (radians a) * cos (radians e) * cos (radians p) + sin (radians e) * sin (radians p)) in *.
  assert (ER : rot p (vec a e) = (X, Y, W)) by (unfold rot, vec, X, Y, W; apply triple; ring). rewrite ER in N0 |- *. unfold norm1 in N0. clearbody X Y W.
  cbn [fsqrt fadd fmul feq fZ NumB fsub].
  destruct (angles_near x y z X Y W (6 * bpow radix2 (-43)) Ex Ey Ez N0 ltac:(simpl bpow; lra)) as (B1 & B2 & B3 & h & d & Nr & (k1 & K1) & (k2 & K2)). cbv zeta in *.
  set (r := b64 (sqrt (b64 (b64 (x * x) + b64 (y * y))))) in *. unfold angles in *. cbn [fst snd] in *. rewrite (b64_of_int 0), (b64_of_int 360) by lia.
  set (ha := if Req_bool r 0 then 0 else tatan2 T y x) in *. set (de := tatan2 T z r) in *.
  change (near (bpow radix2 (-37)) (vec (l - f_mod NumB (b64 (l - deg NumB T ha)) 360) (deg NumB T de)) (X, Y, W) /\ - (1 / 10 ^ 8) <= f_mod NumB (b64 (l - deg NumB T ha)) 360 <= 360 + 1 / 10 ^ 8 /\ Rabs (deg NumB T de) <= 90 + bpow radix2 (-40)).
  clearbody ha de.
  destruct (deg_err T GL ha ltac:(lra)) as [D1 D1']. destruct (deg_err T GL de ltac:(lra)) as [D2 D2'].
  pose proof PI_lo as PL. pose proof PI_hi as PH.
  assert (Bd : Rabs (deg NumB T ha) <= 250).
  { apply Rabs_le. pose proof (deg_range ha 4 ltac:(lra) (Rabs_le_inv _ _ B1)) as G. simpl bpow in G.
    assert (4 * 180 / PI <= 4 * 180 / 3) by (unfold Rdiv; apply Rmult_le_compat_l; [lra|apply Rinv_le_contravar; lra]). lra. }
  set (g := deg NumB T ha) in *.
  pose proof (b64_error 13 (l - g) ltac:(lia)) as E5. assert (Bl : Rabs (l - g) <= 5000) by (unfold Rminus; eapply Rle_trans; [apply Rabs_triang|]; rewrite Rabs_Ropp; lra).
  specialize (E5 ltac:(simpl bpow; lra)). simpl bpow in E5. set (m := b64 (l - g)) in *.
  destruct (f_mod_B m) as (k & Hk & Hr). { replace m with ((m - (l - g)) + (l - g)) by ring. eapply Rle_trans; [apply Rabs_triang|]. lra. }
  split; [|split; [exact Hr|]].
  - set (RR := f_mod NumB m 360) in *. clearbody RR.
    assert (A1 : Rabs (radians (l - RR) - (h + 2 * PI * IZR (k1 + - k))) <= bpow radix2 (-42)).
    { rewrite plus_IZR, opp_IZR. apply Rabs_le_inv in Hk, E5, D1', K1. simpl bpow in *.
      assert (W1 : radians (l - RR) - 2 * PI * - IZR k = (l - (RR - 360 * IZR k)) * (PI / 180)) by (unfold radians; field).
      assert (V : radians g = g * (PI / 180)) by (unfold radians; change (F NumB) with R; field). 
      assert (U : Rabs ((l - (RR - 360 * IZR k) - g) * (PI / 180)) <= 2 / 10 ^ 12 * (4 / 180)) by (apply mul_le; apply Rabs_le; lra).
      apply Rabs_le_inv in U. apply Rabs_le. lra. }
    assert (A2 : Rabs (radians (deg NumB T de) - (d + 2 * PI * IZR k2)) <= bpow radix2 (-45)).
    { apply Rabs_le_inv in D2', K2. simpl bpow in *. apply Rabs_le. lra. }
    destruct (turn_near _ _ _ _ A1) as [T1 T2]. destruct (turn_near _ _ _ _ A2) as [T3 T4].
    pose proof (vec_near (l - RR) (deg NumB T de) h d _ _ T1 T2 T3 T4 ltac:(simpl bpow; lra)) as V.
    eapply near_le; [|eapply near_trans; [exact V|exact Nr]]. simpl bpow. lra.
  - assert (B3' : Rabs de <= PI / 2 + bpow radix2 (-50)) by exact B3. apply Rabs_le_inv in B3'. pose proof (deg_range de _ ltac:(lra) B3') as G.
    assert ((PI / 2 + bpow radix2 (-50)) * 180 / PI <= 90 + bpow radix2 (-50) * 60).
    { apply Rmult_le_reg_r with PI; [lra|]. unfold Rdiv. rewrite (Rmult_assoc _ (/ PI)), Rinv_l, Rmult_1_r by lra. assert (0 <= bpow radix2 (-50)) by apply bpow_ge_0. nra. }
    apply Rabs_le. simpl bpow in *. lra.
Qed.

Lemma e2h_ieee r d p l : Rabs r <= 1000 -> Rabs d <= 4000 -> Rabs p <= 4000 -> Rabs l <= 1000 ->
  let h := equatorialToHorizontal NumB T r d p l in
  near (bpow radix2 (-37)) (vec (az h) (alt h)) (rot p (vec (l - r) d)) /\
  - (1 / 10 ^ 8) <= az h <= 360 + 1 / 10 ^ 8 /\ Rabs (alt h) <= 90 + bpow radix2 (-40).
Proof.
  intros Hr0 Hd Hp Hl. cbv zeta.
  pose proof (vec_norm (l - r) d) as N0. apply (rot_norm p) in N0.
  unfold equatorialToHorizontal. cbn [az alt].
  assert (Z0 : forall d : R, Rabs (d - d) <= 0) by (intros; rewrite Rminus_eq_0, Rabs_R0; lra).
  assert (Z1 : 0 <= bpow radix2 (-40)) by apply bpow_ge_0.
  destruct (sincos_err T GL d d 0 (Z0 d) Z1 Hd) as [S2 C2]. destruct (sincos_err T GL p p 0 (Z0 p) Z1 Hp) as [S3 C3].
  (* the hour angle *)
  assert (Bh : Rabs (l - r) <= 2000) by (unfold Rminus; eapply Rle_trans; [apply Rabs_triang|]; rewrite Rabs_Ropp; lra).
  cbn [fle fsub fadd fZ NumB]. rewrite (b64_of_int 0), (b64_of_int 360), (b64_of_int 2) by lia.
  pose proof (b64_error 11 (l - r) ltac:(lia) ltac:(simpl bpow; lra)) as Eh. set (u := b64 (l - r)) in *. clearbody u.
  set (har := if Rle_bool 0 u then rad NumB T u else rad NumB T (b64 (u + 360))).
  assert (SC : Rabs (tsin T har - sin (radians (l - r))) <= (1 + / 6) * bpow radix2 (-43) /\ Rabs (tcos T har - cos (radians (l - r))) <= (1 + / 6) * bpow radix2 (-43)).
  { unfold har. destruct (Rle_bool 0 u).
    - destruct (sincos_err T GL u (l - r) (bpow radix2 (-42)) Eh ltac:(simpl bpow; lra) ltac:(lra)) as [A B]. simpl bpow in *. split; lra.
    - assert (T0 : same_turn (l - r + 360) (l - r)) by (exists 1%Z; lra). rewrite <- (cos_turn _ _ T0), <- (sin_turn _ _ T0).
      assert (E2 : Rabs (u + 360 - (l - r + 360)) <= bpow radix2 (-42)) by (replace (u + 360 - (l - r + 360)) with (u - (l - r)) by ring; exact Eh).
      assert (B2 : Rabs (l - r + 360) <= 2360) by (eapply Rle_trans; [apply Rabs_triang|]; rewrite (Rabs_right 360) by lra; lra).
      pose proof (rnd_err 12 _ _ _ ltac:(lia) E2) as E3. simpl bpow in E3. specialize (E3 ltac:(lra)).
      assert (E4 : Rabs (b64 (u + 360) - (l - r + 360)) <= bpow radix2 (-41) + bpow radix2 (-42)) by (simpl bpow; lra).
      destruct (sincos_err T GL (b64 (u + 360)) (l - r + 360) (bpow radix2 (-41) + bpow radix2 (-42)) E4 ltac:(simpl bpow; lra) ltac:(lra)) as [A B]. simpl bpow in *. split; lra. }
  destruct SC as [S1 C1]. set (e1 := (1 + / 6) * bpow radix2 (-43)) in *.
  assert (e1b : bpow radix2 (-43) <= e1 <= / 1000000) by (unfold e1; simpl bpow; lra).
  assert (Wk : forall a b, Rabs (a - b) <= bpow radix2 (-43) + 0 / 36 -> Rabs (a - b) <= e1) by (intros; lra).
  apply Wk in S2, C2, S3, C3. clear Wk.
  set (sa := tsin T har) in *. set (ca := tcos T har) in *. set (se := tsin T (rad NumB T d)) in *. set (ce := tcos T (rad NumB T d)) in *.
  set (sp := tsin T (rad NumB T p)) in *. set (cp := tcos T (rad NumB T p)) in *.
  destruct (rot_err sa ca se ce sp cp _ _ _ _ _ _ e1 S1 C1 S2 C2 S3 C3 (sin_1 _) (cos_1 _) (sin_1 _) (cos_1 _) (sin_1 _) (cos_1 _) e1b) as (Ex & Ey & Ez).
  set (a := l - r) in *. change (tsin T (if Rle_bool 0 u then rad NumB T u else rad NumB T (b64 (u + 360)))) with sa. change (tcos T (if Rle_bool 0 u then rad NumB T u else rad NumB T (b64 (u + 360)))) with ca.
  set (x := rot_x NumB sa ca se ce sp cp) in *. set (y := rot_y NumB sa ca se ce sp cp) in *. set (z := rot_z NumB sa ca se ce sp cp) in *.
  set (X := - cos (radians a) * cos (radians d) * sin (radians p) + sin (radians d) * cos (radians p)) in *.
  set (Y := - sin (radians a) * cos (radians d)) in *. set (W := cos (radians a) * cos (radians d) * cos (radians p) + sin (radians d) * sin (radians p)) in *.
  assert (ER : rot p (vec a d) = (X, Y, W)) by (unfold rot, vec, X, Y, W; apply triple; ring). rewrite ER in N0 |- *. unfold norm1 in N0. clearbody X Y W.
  clearbody x y z. clearbody sa ca se ce sp cp.
  cbn [fsqrt fadd fmul feq flt fZ NumB fsub].
  destruct (angles_near x y z X Y W (6 * e1) Ex Ey Ez N0 ltac:(unfold e1; simpl bpow; lra)) as (B1 & B2 & B3 & h & dd & Nr & (k1 & K1) & (k2 & K2)). cbv zeta in *.
  set (rr := b64 (sqrt (b64 (b64 (x * x) + b64 (y * y))))) in *. unfold angles in *. cbn [fst snd] in *.
  set (ha := if Req_bool rr 0 then 0 else tatan2 T y x) in *. set (de := tatan2 T z rr) in *.
  set (aa := if Rlt_bool ha 0 then b64 (ha + b64 (2 * tpi T)) else ha).
  change (near (bpow radix2 (-37)) (vec (deg NumB T aa) (deg NumB T de)) (X, Y, W) /\ - (1 / 10 ^ 8) <= deg NumB T aa <= 360 + 1 / 10 ^ 8 /\ Rabs (deg NumB T de) <= 90 + bpow radix2 (-40)).
  clearbody ha de. pose proof PI_lo as PL. pose proof PI_hi as PH. pose proof (tpi_b T GL) as TB.
  assert (Ba : (exists j : Z, Rabs (aa - (ha + 2 * PI * IZR j)) <= bpow radix2 (-47)) /\ 0 <= aa <= 2 * PI + bpow radix2 (-47)).
  { unfold aa. destruct (Rlt_bool_spec ha 0) as [L|L].
    - assert (E1 : Rabs (2 * tpi T - 2 * PI) <= bpow radix2 (-49)) by (apply Rabs_le; simpl bpow in *; lra).
      assert (E2 : Rabs (b64 (2 * tpi T) - 2 * PI) <= bpow radix2 (-49) + bpow radix2 (4 - 53)) by (apply rnd_err; [lia|exact E1|rewrite Rabs_right by lra; simpl bpow; lra]).
      assert (E3 : Rabs (ha + b64 (2 * tpi T) - (ha + 2 * PI)) <= bpow radix2 (-49) + bpow radix2 (4 - 53)) by (replace (ha + b64 (2 * tpi T) - (ha + 2 * PI)) with (b64 (2 * tpi T) - 2 * PI) by ring; exact E2).
      assert (E4 : Rabs (b64 (ha + b64 (2 * tpi T)) - (ha + 2 * PI)) <= bpow radix2 (-49) + bpow radix2 (4 - 53) + bpow radix2 (4 - 53)).
      { apply rnd_err; [lia|exact E3|]. apply Rabs_le_inv in B1. rewrite Rabs_right by lra. simpl bpow. lra. }
      split; [exists 1%Z; rewrite Rmult_1_r; eapply Rle_trans; [exact E4|simpl bpow; lra]|]. apply Rabs_le_inv in E4, B1. simpl bpow in *. lra.
    - split; [exists 0%Z; rewrite Rmult_0_r, Rplus_0_r, Rminus_eq_0, Rabs_R0; apply bpow_ge_0|]. apply Rabs_le_inv in B1. simpl bpow. lra. }
  destruct Ba as [(j & Ej) Ba]. clearbody aa.
  assert (Ba11 : Rabs aa <= 11) by (apply Rabs_le; simpl bpow in Ba; lra).
  destruct (deg_err T GL aa Ba11) as [D1 D1']. destruct (deg_err T GL de ltac:(lra)) as [D2 D2'].
  split; [|split].
  - assert (A1 : Rabs (radians (deg NumB T aa) - (h + 2 * PI * IZR (k1 + j))) <= bpow radix2 (-44)).
    { rewrite plus_IZR. apply Rabs_le_inv in Ej, D1', K1. simpl bpow in *. apply Rabs_le. lra. }
    assert (A2 : Rabs (radians (deg NumB T de) - (dd + 2 * PI * IZR k2)) <= bpow radix2 (-45)).
    { apply Rabs_le_inv in D2', K2. simpl bpow in *. apply Rabs_le. lra. }
    destruct (turn_near _ _ _ _ A1) as [T1 T2]. destruct (turn_near _ _ _ _ A2) as [T3 T4].
    pose proof (vec_near (deg NumB T aa) (deg NumB T de) h dd _ _ T1 T2 T3 T4 ltac:(simpl bpow; lra)) as V.
    eapply near_le; [|eapply near_trans; [exact V|exact Nr]]. unfold e1. simpl bpow. lra.
  - apply Rabs_le_inv in D1. assert (I : 0 < 180 / PI <= 60) by (split; [apply Rdiv_lt_0_compat; lra|apply Rmult_le_reg_r with PI; [lra|]; unfold Rdiv; rewrite Rmult_assoc, Rinv_l by lra; lra]).
    assert (U1 : aa * (180 / PI) <= (2 * PI + bpow radix2 (-47)) * (180 / PI)) by (apply Rmult_le_compat_r; lra). assert (U2 : 0 <= aa * (180 / PI)) by (apply Rmult_le_pos; lra).
    assert (U3 : (2 * PI + bpow radix2 (-47)) * (180 / PI) = 360 + bpow radix2 (-47) * (180 / PI)) by (field; lra).
    assert (U4 : bpow radix2 (-47) * (180 / PI) <= bpow radix2 (-47) * 60) by (apply Rmult_le_compat_l; [apply bpow_ge_0|lra]).
    replace (aa * 180 / PI) with (aa * (180 / PI)) in D1 by (field; lra). simpl bpow in *. lra.
  - assert (B3' : Rabs de <= PI / 2 + bpow radix2 (-50)) by exact B3. apply Rabs_le_inv in B3'. pose proof (deg_range de _ ltac:(lra) B3') as G.
    assert ((PI / 2 + bpow radix2 (-50)) * 180 / PI <= 90 + bpow radix2 (-50) * 60).
    { apply Rmult_le_reg_r with PI; [lra|]. unfold Rdiv. rewrite (Rmult_assoc _ (/ PI)), Rinv_l, Rmult_1_r by lra. assert (0 <= bpow radix2 (-50)) by apply bpow_ge_0. nra. }
    apply Rabs_le. simpl bpow in *. lra.
Qed.
End Main.
