(** The coordinate transforms in exact arithmetic. *)
From Verif Require Import Base Num M_Helper M_Linalg M_Alignment M_Telescope S_Sky P_AlignR P_AlignState2.
From Coq Require Import Reals Lra Psatz.
From Flocq Require Import Core.
Open Scope R_scope.

(** ** atan2 *)
Lemma atan_cos_sin t : cos (atan t) = / sqrt (1 + t * t) /\ sin (atan t) = t / sqrt (1 + t * t).
Proof.
  split; [rewrite cos_atan|rewrite sin_atan]; unfold Rsqr; unfold Rdiv; ring.
Qed.
Lemma sqrt_scale t x : 0 < x -> sqrt (x * x + (t * x) * (t * x)) = x * sqrt (1 + t * t).
Proof.
  intros H. replace (x * x + t * x * (t * x)) with ((x * x) * (1 + t * t)) by ring.
  rewrite sqrt_mult by nra. rewrite sqrt_square by lra. reflexivity.
Qed.
Lemma atan2R_spec y x : 
  - PI < atan2R y x <= PI /\
  (sqrt (x * x + y * y) * cos (atan2R y x) = x /\ sqrt (x * x + y * y) * sin (atan2R y x) = y).
Proof.
  unfold atan2R. pose proof PI_RGT_0 as HP.
  destruct (Rlt_dec 0 x) as [Hx|Hx].
  - pose proof (atan_bound (y / x)). split; [lra|].
    destruct (atan_cos_sin (y / x)) as [C S]. rewrite C, S.
    assert (E : sqrt (x * x + y * y) = x * sqrt (1 + y / x * (y / x))).
    { rewrite <- sqrt_scale by auto. f_equal. field. lra. }
    assert (0 < sqrt (1 + y / x * (y / x))) by (apply sqrt_lt_R0; nra).
    rewrite E. split; field; lra.
  - destruct (Rlt_dec x 0) as [Hx'|Hx'].
    + assert (E : sqrt (x * x + y * y) = - x * sqrt (1 + y / x * (y / x))).
      { rewrite <- sqrt_scale by lra. f_equal. field. lra. }
      assert (0 < sqrt (1 + y / x * (y / x))) by (apply sqrt_lt_R0; nra).
      destruct (atan_cos_sin (y / x)) as [C S].
      pose proof (atan_bound (y / x)) as B.
      destruct (Rle_dec 0 y) as [Hy|Hy].
      * assert (Q : y / x <= 0).
        { replace (y / x) with (- (y / - x)) by (field; lra). 
          assert (0 <= y / - x) by (apply Rmult_le_pos; [lra|apply Rlt_le, Rinv_0_lt_compat; lra]). lra. }
        assert (A : atan (y / x) <= 0).
        { destruct (Req_dec (y / x) 0) as [->|Hn]; [rewrite atan_0; lra|]. rewrite <- atan_0. left. apply atan_increasing. lra. }
        split; [lra|]. rewrite neg_cos, neg_sin, C, S, E. split; field; lra.
      * assert (Q : 0 < y / x).
        { replace (y / x) with (- y / - x) by (field; lra). apply Rmult_lt_0_compat; [lra|apply Rinv_0_lt_compat; lra]. }
        assert (A : 0 < atan (y / x)) by (rewrite <- atan_0; apply atan_increasing; auto).
        split; [lra|]. 
        replace (atan (y / x) - PI) with (- (PI - atan (y / x))) by ring. rewrite cos_neg, sin_neg, Rtrigo_facts.cos_pi_minus, Rtrigo_facts.sin_pi_minus, C, S, E.
        split; field; lra.
    + assert (x = 0) by lra. subst x. replace (0 * 0 + y * y) with (y * y) by ring.
      destruct (Rlt_dec 0 y) as [Hy|Hy].
      * rewrite cos_PI2, sin_PI2, sqrt_square by lra. split; lra.
      * destruct (Rlt_dec y 0) as [Hy'|Hy'].
        -- rewrite cos_neg, sin_neg, cos_PI2, sin_PI2. replace (y * y) with (- y * - y) by ring. rewrite sqrt_square by lra. split; lra.
        -- assert (y = 0) by lra. subst y. rewrite cos_0, sin_0. replace (0 * 0) with 0 by ring. rewrite sqrt_0. split; lra.
Qed.
Lemma atan2R_halfplane z r : 0 <= r -> - (PI / 2) <= atan2R z r <= PI / 2.
Proof.
  intros Hr. unfold atan2R. pose proof PI_RGT_0. destruct (Rlt_dec 0 r).
  - pose proof (atan_bound (z / r)). lra.
  - destruct (Rlt_dec r 0); [lra|]. destruct (Rlt_dec 0 z); [lra|]. destruct (Rlt_dec z 0); lra.
Qed.

(** polar form of a unit vector *)
Lemma polar x y z : x * x + y * y + z * z = 1 ->
  let r := sqrt (x * x + y * y) in
  let h := if Req_bool r 0 then 0 else atan2R y x in
  let d := atan2R z r in
  cos h * cos d = x /\ sin h * cos d = y /\ sin d = z /\ - (PI / 2) <= d <= PI / 2 /\ - PI < h <= PI.
Proof.
  intros U. cbv zeta. set (r := sqrt (x * x + y * y)).
  assert (Hr : 0 <= r) by apply sqrt_pos. assert (Er : r * r = x * x + y * y) by (apply sqrt_sqrt; nra).
  destruct (atan2R_spec z r) as [_ [C S]].
  replace (r * r + z * z) with 1 in C, S by lra. rewrite sqrt_1 in C, S.
  assert (Ed : cos (atan2R z r) = r) by lra. assert (Es : sin (atan2R z r) = z) by lra.
  rewrite Ed, Es. pose proof (atan2R_halfplane z r Hr) as Hd. pose proof PI_RGT_0.
  destruct (Req_bool_spec r 0) as [E0|E0].
  - assert (x = 0) by nra. assert (y = 0) by nra. subst x y. rewrite E0 in Hd |- *. repeat split; lra.
  - destruct (atan2R_spec y x) as [B [C' S']]. fold r in C', S'. repeat split; try lra.
Qed.

(** two unit vectors of normalised angles *)
Lemma sin_inj_half e e' : - (PI / 2) <= e <= PI / 2 -> - (PI / 2) <= e' <= PI / 2 -> sin e = sin e' -> e = e'.
Proof. intros H H' E. rewrite <- (asin_sin e) by lra. rewrite <- (asin_sin e') by lra. congruence. Qed.
Lemma cos_zero_half e : - (PI / 2) <= e <= PI / 2 -> cos e = 0 -> e = PI / 2 \/ e = - (PI / 2).
Proof.
  intros H E. destruct (Rle_lt_or_eq_dec e (PI / 2) ltac:(lra)) as [L|L]; [|auto].
  destruct (Rle_lt_or_eq_dec (- (PI / 2)) e ltac:(lra)) as [L'|L']; [|auto].
  exfalso. assert (0 < cos e) by (apply cos_gt_0; lra). lra.
Qed.
Lemma angle_unique a b : cos a = cos b -> sin a = sin b -> exists k : Z, a = b + 2 * PI * IZR k.
Proof.
  intros C S. 
  assert (S0 : sin (a - b) = 0) by (rewrite sin_minus, C, S; ring).
  assert (C0 : cos (a - b) = 1) by (rewrite cos_minus, C, S; pose proof (sin2_cos2 b) as H; unfold Rsqr in H; lra).
  destruct (sin_eq_0_0 _ S0) as [k Hk].
  destruct (Zeven_odd_dec k) as [He|Ho].
  - apply Zeven.Zeven_ex in He. destruct He as [m ->]. exists m. rewrite mult_IZR in Hk. lra.
  - exfalso. apply Zeven.Zodd_ex in Ho. destruct Ho as [m ->]. rewrite Hk in C0.
    rewrite plus_IZR, mult_IZR in C0. replace ((2 * IZR m + 1) * PI) with (2 * (IZR m * PI) + PI) in C0 by ring.
    rewrite neg_cos, cos_2a_sin in C0. 
    assert (E : sin (IZR m * PI) = 0) by (apply sin_eq_0_1; exists m; reflexivity). rewrite E in C0. lra.
Qed.

(** ** the code *)
Lemma rad_R d : rad NumR TrigR d = radians d. Proof. reflexivity. Qed.
Lemma radians_deg a : radians (deg NumR TrigR a) = a.
Proof. unfold deg, radians. cbn [fmul fdiv fZ NumR tpi TrigR]. field. apply PI_neq0. Qed.
Lemma deg_radians a : deg NumR TrigR (radians a) = a.
Proof. unfold deg, radians. cbn [fmul fdiv fZ NumR tpi TrigR]. match goal with |- ?a = ?b => change ((a : R) = b) end. field. apply PI_neq0. Qed.
Lemma radians_plus a b : radians (a + b) = radians a + radians b. Proof. unfold radians. field. Qed.
Lemma radians_minus a b : radians (a - b) = radians a - radians b. Proof. unfold radians. field. Qed.
Lemma radians_360 k : radians (360 * IZR k) = 2 * PI * IZR k. Proof. unfold radians. field. Qed.
Lemma periodic_cos a k : cos (a + 2 * PI * IZR k) = cos a.
Proof.
  assert (S0 : sin (PI * IZR k) = 0) by (apply sin_eq_0_1; exists k; ring).
  rewrite cos_plus. replace (2 * PI * IZR k) with (2 * (PI * IZR k)) by ring.
  rewrite cos_2a_sin, sin_2a, S0. ring.
Qed.
Lemma periodic_sin a k : sin (a + 2 * PI * IZR k) = sin a.
Proof.
  assert (S0 : sin (PI * IZR k) = 0) by (apply sin_eq_0_1; exists k; ring).
  rewrite sin_plus. replace (2 * PI * IZR k) with (2 * (PI * IZR k)) by ring.
  rewrite cos_2a_sin, sin_2a, S0. ring.
Qed.
Lemma cos_turn a b : same_turn a b -> cos (radians a) = cos (radians b).
Proof. intros [k ->]. rewrite radians_plus, radians_360. apply periodic_cos. Qed.
Lemma sin_turn a b : same_turn a b -> sin (radians a) = sin (radians b).
Proof. intros [k ->]. rewrite radians_plus, radians_360. apply periodic_sin. Qed.
Lemma same_turn_refl a : same_turn a a. Proof. exists 0%Z. lra. Qed.
Lemma same_turn_sym a b : same_turn a b -> same_turn b a.
Proof. intros [k ->]. exists (- k)%Z. rewrite opp_IZR. lra. Qed.
Lemma same_turn_trans a b c : same_turn a b -> same_turn b c -> same_turn a c.
Proof. intros [k ->] [l ->]. exists (k + l)%Z. rewrite plus_IZR. lra. Qed.
Lemma same_turn_norm a b : same_turn a b -> 0 <= a < 360 -> 0 <= b < 360 -> a = b.
Proof.
  intros [k E] Ha Hb. assert (-1 < IZR k < 1) by lra. assert (k = 0)%Z by (destruct H as [H1 H2]; apply lt_IZR in H1; apply lt_IZR in H2; lia).
  subst k. lra.
Qed.
Lemma f_mod_turn a : same_turn (f_mod NumR a 360) a /\ 0 <= f_mod NumR a 360 < 360.
Proof. destruct (f_mod_R a 360 ltac:(lra)) as (B & k & E). split; [exists k; exact E|exact B]. Qed.

(** the rotation: rows of the matrix applied to (X,Y,Z) *)
Definition rot (p : R) (v : R * R * R) : R * R * R :=
  let '(X, Y, Z) := v in
  (cos (radians p) * Z - sin (radians p) * X, - Y, sin (radians p) * Z + cos (radians p) * X).
Definition norm1 (v : R * R * R) : Prop := let '(X, Y, Z) := v in X * X + Y * Y + Z * Z = 1.
Lemma sc2 a : sin a * sin a + cos a * cos a = 1.
Proof. pose proof (sin2_cos2 a) as H. exact H. Qed.
Lemma vec_norm a e : norm1 (vec a e).
Proof.
  unfold norm1, vec. pose proof (sc2 (radians a)). pose proof (sc2 (radians e)).
  set (c := cos (radians a)) in *. set (s := sin (radians a)) in *. set (C := cos (radians e)) in *. set (S := sin (radians e)) in *.
  replace (c * C * (c * C) + s * C * (s * C) + S * S) with ((s * s + c * c) * (C * C) + S * S) by ring. rewrite H. lra.
Qed.
Lemma rot_norm p v : norm1 v -> norm1 (rot p v).
Proof.
  destruct v as [[X Y] Z]. unfold norm1, rot. intros H. pose proof (sc2 (radians p)) as H0.
  set (c := cos (radians p)) in *. set (s := sin (radians p)) in *.
  replace ((c * Z - s * X) * (c * Z - s * X) + - Y * - Y + (s * Z + c * X) * (s * Z + c * X)) with ((s * s + c * c) * (X * X + Z * Z) + Y * Y) by ring.
  rewrite H0. lra.
Qed.
Lemma rot_rot p v : rot p (rot p v) = v.
Proof.
  destruct v as [[X Y] Z]. unfold rot. pose proof (sc2 (radians p)) as H0.
  set (c := cos (radians p)) in *. set (s := sin (radians p)) in *.
  f_equal; [f_equal|]; [|ring|].
  - replace (c * (s * Z + c * X) - s * (c * Z - s * X)) with ((s * s + c * c) * X) by ring. rewrite H0; ring.
  - replace (s * (s * Z + c * X) + c * (c * Z - s * X)) with ((s * s + c * c) * Z) by ring. rewrite H0; ring.
Qed.
Lemma rot_vec h d p : rot p (vec h d) = horizon_vec h d p.
Proof. unfold rot, vec, horizon_vec. f_equal; [f_equal|]; ring. Qed.

Definition h2e (a e p l : R) := horizontalToEquatorial NumR TrigR a e p l.
Definition e2h (r d p l : R) := equatorialToHorizontal NumR TrigR r d p l.
Definition RA (q : equatorial NumR) : R := ra q.
Definition DEC (q : equatorial NumR) : R := dec q.
Definition AZ (q : horizontal NumR) : R := az q.
Definition ALT (q : horizontal NumR) : R := alt q.

Lemma triple (x y z x' y' z' : R) : x = x' -> y = y' -> z = z' -> (x, y, z) = (x', y', z').
Proof. congruence. Qed.
Lemma h2e_spec a e p l :
  vec (l - RA (h2e a e p l)) (DEC (h2e a e p l)) = rot p (vec a e) /\
  0 <= RA (h2e a e p l) < 360 /\ -90 <= DEC (h2e a e p l) <= 90.
Proof.
  pose proof (vec_norm a e) as N0. apply (rot_norm p) in N0.
  unfold h2e, horizontalToEquatorial, RA, DEC. cbn [ra dec]. change (rad NumR TrigR) with radians.
  set (x := rot_x NumR _ _ _ _ _ _). set (y := rot_y NumR _ _ _ _ _ _). set (z := rot_z NumR _ _ _ _ _ _).
  assert (E : rot p (vec a e) = (x, y, z)).
  { unfold rot, vec, x, y, z, rot_x, rot_y, rot_z. cbn [fneg fmul fadd NumR tsin tcos TrigR].
    apply triple; match goal with |- ?a = ?b => change ((a : R) = b) end; ring. }
  rewrite E in N0 |- *. unfold norm1 in N0.
  clearbody x y z. cbn [fsqrt fadd fmul feq fZ NumR tatan2 TrigR fsub].
  destruct (polar x y z N0) as (P1 & P2 & P3 & P4 & P5). cbv zeta in *.
  set (h := if Req_bool _ _ then _ else _) in *. set (d := atan2R z _) in *.
  destruct (f_mod_turn (l - deg NumR TrigR h)) as [T B].
  split; [|split; [exact B|]].
  - assert (T' : same_turn (l - f_mod NumR (l - deg NumR TrigR h) 360) (deg NumR TrigR h)).
    { destruct T as [k ->]. exists (- k)%Z. rewrite opp_IZR. lra. }
    unfold vec. rewrite (cos_turn _ _ T'), (sin_turn _ _ T'), !radians_deg, P1, P2, P3. reflexivity.
  - unfold deg. cbn [fmul fdiv fZ NumR tpi TrigR]. pose proof PI_RGT_0.
    split; apply Rmult_le_reg_r with PI; auto; unfold Rdiv; rewrite Rmult_assoc, Rinv_l by lra; lra.
Qed.

Definition e2h_of (sh ch sd cd sp cp : R) : horizontal NumR :=
  let x := rot_x NumR sh ch sd cd sp cp in
  let y := rot_y NumR sh ch sd cd sp cp in
  let z := rot_z NumR sh ch sd cd sp cp in
  let r := sqrt (x * x + y * y) in
  let a := if Req_bool r 0 then 0 else atan2R y x in
  let az := if Rlt_bool a 0 then a + 2 * PI else a in
  Hor (deg NumR TrigR az) (deg NumR TrigR (atan2R z r)).
Lemma e2h_eq r d p l : e2h r d p l =
  e2h_of (sin (radians (l - r))) (cos (radians (l - r))) (sin (radians d)) (cos (radians d)) (sin (radians p)) (cos (radians p)).
Proof.
  assert (T : same_turn (l - r + 360) (l - r)) by (exists 1%Z; lra).
  unfold e2h, equatorialToHorizontal. change (rad NumR TrigR) with radians.
  cbn [fle fZ NumR fsub fadd]. destruct (Rle_bool 0 (l - r)); cbn [tsin tcos TrigR].
  - reflexivity.
  - rewrite (cos_turn _ _ T), (sin_turn _ _ T). reflexivity.
Qed.
Lemma e2h_spec r d p l :
  vec (AZ (e2h r d p l)) (ALT (e2h r d p l)) = rot p (vec (l - r) d) /\
  0 <= AZ (e2h r d p l) < 360 /\ -90 <= ALT (e2h r d p l) <= 90.
Proof.
  pose proof (vec_norm (l - r) d) as N0. apply (rot_norm p) in N0.
  rewrite e2h_eq. unfold e2h_of, AZ, ALT. cbn [az alt].
  set (x := rot_x NumR _ _ _ _ _ _). set (y := rot_y NumR _ _ _ _ _ _). set (z := rot_z NumR _ _ _ _ _ _).
  assert (E : rot p (vec (l - r) d) = (x, y, z)).
  { unfold rot, vec, x, y, z, rot_x, rot_y, rot_z. cbn [fneg fmul fadd NumR].
    apply triple; match goal with |- ?a = ?b => change ((a : R) = b) end; ring. }
  rewrite E in N0 |- *. unfold norm1 in N0. clearbody x y z.
  destruct (polar x y z N0) as (P1 & P2 & P3 & P4 & P5). cbv zeta in *.
  set (h := if Req_bool _ _ then _ else _) in *. set (el := atan2R z _) in *.
  pose proof PI_RGT_0 as HP.
  set (a := if Rlt_bool h 0 then h + 2 * PI else h).
  assert (Ha : 0 <= a < 2 * PI) by (unfold a; destruct (Rlt_bool_spec h 0); lra).
  assert (Ca : cos a = cos h) by (unfold a; destruct (Rlt_bool h 0); [rewrite <- (periodic_cos h 1); f_equal; ring|reflexivity]).
  assert (Sa : sin a = sin h) by (unfold a; destruct (Rlt_bool h 0); [rewrite <- (periodic_sin h 1); f_equal; ring|reflexivity]).
  split; [|split].
  - unfold vec. rewrite !radians_deg, Ca, Sa, P1, P2, P3. reflexivity.
  - unfold deg. cbn [fmul fdiv fZ NumR tpi TrigR]. split.
    + apply Rmult_le_reg_r with PI; auto. unfold Rdiv. rewrite Rmult_assoc, Rinv_l by lra. lra.
    + apply Rmult_lt_reg_r with PI; auto. unfold Rdiv. rewrite Rmult_assoc, Rinv_l by lra. lra.
  - unfold deg. cbn [fmul fdiv fZ NumR tpi TrigR].
    split; apply Rmult_le_reg_r with PI; auto; unfold Rdiv; rewrite Rmult_assoc, Rinv_l by lra; lra.
Qed.

(** ** consequences *)
Lemma vec_inj a e a' e' : vec a e = vec a' e' -> -90 <= e <= 90 -> -90 <= e' <= 90 ->
  e = e' /\ (-90 < e < 90 -> same_turn a a').
Proof.
  unfold vec. intros E He He'. injection E as E1 E2 E3. pose proof PI_RGT_0 as HP.
  assert (B : forall u, -90 <= u <= 90 -> - (PI / 2) <= radians u <= PI / 2) by (intros u Hu; unfold radians; split; nra).
  assert (Er : radians e = radians e') by (apply sin_inj_half; auto).
  assert (Ee : e = e') by (rewrite <- (deg_radians e), <- (deg_radians e'), Er; reflexivity).
  split; [exact Ee|]. intros Hs. subst e'.
  assert (Hc : 0 < cos (radians e)) by (apply cos_gt_0; unfold radians; nra).
  assert (C : cos (radians a) = cos (radians a')) by (apply Rmult_eq_reg_r with (cos (radians e)); lra).
  assert (S : sin (radians a) = sin (radians a')) by (apply Rmult_eq_reg_r with (cos (radians e)); lra).
  destruct (angle_unique _ _ C S) as [k Hk]. exists k.
  rewrite <- (deg_radians a), Hk. unfold deg, radians. cbn [fmul fdiv fZ NumR tpi TrigR].
  match goal with |- ?a = ?b => change ((a : R) = b) end. field. lra.
Qed.
Lemma dot_vec a e a' e' : let '(x, y, z) := vec a e in let '(x', y', z') := vec a' e' in
  x * x' + y * y' + z * z' = cos_sep a e a' e'.
Proof. unfold vec, cos_sep. rewrite radians_minus, cos_minus. ring. Qed.
Lemma rot_dot p v w : let '(x, y, z) := rot p v in let '(x', y', z') := rot p w in
  let '(X, Y, Z) := v in let '(X', Y', Z') := w in x * x' + y * y' + z * z' = X * X' + Y * Y' + Z * Z'.
Proof.
  destruct v as [[X Y] Z], w as [[X' Y'] Z']. unfold rot. pose proof (sc2 (radians p)) as H0.
  set (c := cos (radians p)) in *. set (s := sin (radians p)) in *.
  replace ((c * Z - s * X) * (c * Z' - s * X') + - Y * - Y' + (s * Z + c * X) * (s * Z' + c * X')) with
    ((s * s + c * c) * (X * X' + Z * Z') + Y * Y') by ring. rewrite H0. ring.
Qed.
Lemma sep_from_vec a e a' e' b f b' f' p : vec b f = rot p (vec a e) -> vec b' f' = rot p (vec a' e') ->
  cos_sep b f b' f' = cos_sep a e a' e'.
Proof.
  intros E E'. pose proof (dot_vec b f b' f') as D1. rewrite E, E' in D1. pose proof (dot_vec a e a' e') as D2.
  pose proof (rot_dot p (vec a e) (vec a' e')) as D3.
  destruct (rot p (vec a e)) as [[x y] z], (rot p (vec a' e')) as [[x' y'] z'], (vec a e) as [[u v] w], (vec a' e') as [[u' v'] w'].
  lra.
Qed.
