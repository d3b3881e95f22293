(** C26-C28, C75, C76: calendar, sidereal time, f_mod. *)
From Verif Require Import Base Num M_Helper S_Helper P_Round P_Helper P_Helper2 P_AlignR.
From Coq Require Import Reals Lra Psatz Floats.SpecFloat.
From Flocq Require Import Core.
Open Scope Z_scope.

Definition at_time (d : date) (h m s : Z) : tm := Tm s m h (d_day d) (d_month d) (d_year d).

Lemma month_length_bounds y m : 28 <= month_length y m <= 31.
Proof. unfold month_length. destruct (m =? 2), (leap y), ((m =? 4) || (m =? 6) || (m =? 9) || (m =? 11)); lia. Qed.
Lemma next_valid d : valid_date d -> valid_date (next_day d).
Proof.
  intros [Hm Hd]. unfold next_day, valid_date in *. pose proof (month_length_bounds (d_year d) (d_month d + 1)).
  pose proof (month_length_bounds (d_year d + 1) 1).
  destruct (Z.ltb_spec (d_day d) (month_length (d_year d) (d_month d))); [cbn; lia|].
  destruct (Z.ltb_spec (d_month d) 12); cbn [d_month d_day d_year]; lia.
Qed.
Lemma day_number_jdn d n : day_number d n -> valid_date d /\ jdn (d_year d) (d_month d) (d_day d) = 2451545 + n.
Proof.
  induction 1 as [|d n H [V E]|d n V H [V' E]].
  - split; [|reflexivity]. unfold valid_date. cbn. lia.
  - split; [apply next_valid; auto|]. rewrite jdn_next by auto. lia.
  - split; [auto|]. rewrite jdn_next in E by auto. lia.
Qed.

(** ** C26: by counting days from 2000-01-01 (JD 2451544.5), in float arithmetic for the years 1..6767
    and in exact arithmetic for all years; the time of day is ignored *)
Theorem C26_julian_day_ieee : forall d n h m s, day_number d n -> 1 <= d_year d <= 6767 ->
  julianDay NumB (at_time d h m s) = (2451544.5 + IZR n)%R.
Proof.
  intros d n h m s H Hy. destruct (day_number_jdn d n H) as [[V1 V2] E].
  pose proof (month_length_bounds (d_year d) (d_month d)).
  rewrite julianDay_B; cbn [at_time tm_year tm_mon tm_mday]; try lia.
  rewrite E, plus_IZR. lra.
Qed.
Print Assumptions C26_julian_day_ieee.
Theorem C26_julian_day_exact : forall d n h m s, day_number d n ->
  julianDay NumR (at_time d h m s) = (2451544.5 + IZR n)%R.
Proof.
  intros d n h m s H. destruct (day_number_jdn d n H) as [[V1 V2] E].
  rewrite julianDay_R; cbn [at_time tm_year tm_mon tm_mday]; try lia.
  rewrite E, plus_IZR. lra.
Qed.
Print Assumptions C26_julian_day_exact.
(** consecutive days, for every valid date, without counting *)
Theorem C26_next_day_is_one_more : forall d h m s h' m' s', valid_date d -> 1 <= d_year d <= 6766 ->
  julianDay NumB (at_time (next_day d) h m s) = (julianDay NumB (at_time d h' m' s') + 1)%R.
Proof.
  intros d h m s h' m' s' V Hy. pose proof (next_valid d V) as [W1 W2]. destruct V as [V1 V2].
  pose proof (month_length_bounds (d_year d) (d_month d)). pose proof (month_length_bounds (d_year (next_day d)) (d_month (next_day d))).
  assert (Hy' : d_year d <= d_year (next_day d) <= d_year d + 1).
  { unfold next_day. destruct (_ <? _); [cbn; lia|]. destruct (_ <? _); cbn; lia. }
  rewrite !julianDay_B; cbn [at_time tm_year tm_mon tm_mday]; try lia.
  rewrite jdn_next by (split; auto). rewrite plus_IZR. lra.
Qed.
Print Assumptions C26_next_day_is_one_more.
(** the hypotheses are met: by any date reached from 2000-01-01, e.g. across the leap day *)
Example C26_nonvacuous : day_number (Date 2000 1 3) 2 /\ day_number (Date 1999 12 31) (-1) /\
  next_day (Date 2000 2 28) = Date 2000 2 29 /\ next_day (Date 2100 2 28) = Date 2100 3 1 /\
  valid_date (Date 2023 12 31) /\ next_day (Date 2023 12 31) = Date 2024 1 1.
Proof.
  split; [apply (dn_next (Date 2000 1 2) 1), (dn_next (Date 2000 1 1) 0), dn_epoch|].
  split; [apply (dn_prev (Date 1999 12 31) 0); [unfold valid_date; cbn; lia|exact dn_epoch]|].
  repeat split; cbn; lia.
Qed.

(** ** C76: from 6771-03-01 on the float product is rounded up and a day is skipped *)
Definition whole2 (x : F NumSF) : option Z := ftrunc NumSF (fadd NumSF x x).   (* 2x as an integer *)
Theorem C76_year_6771_skips_a_day_refuted :
  valid_date (Date 6771 2 28) /\ next_day (Date 6771 2 28) = Date 6771 3 1 /\
  exists j, whole2 (julianDay NumSF (at_time (Date 6771 2 28) 0 0 0)) = Some j /\
            whole2 (julianDay NumSF (at_time (Date 6771 3 1) 0 0 0)) = Some (j + 4).
Proof.
  split; [unfold valid_date; cbn; lia|]. split; [reflexivity|].
  eexists. split; vm_compute; reflexivity.
Qed.
Print Assumptions C76_year_6771_skips_a_day_refuted.

(** ** C27 *)
Theorem C27_sidereal_time_exact : forall d n h m s lon, day_number d n ->
  let lst := getLocalSiderealTimeDegrees NumR (at_time d h m s) lon in
  (0 <= lst < 360)%R /\ exists k : Z, lst = (sidereal_formula (days_since_J2000 n h m s) lon + 360 * IZR k)%R.
Proof.
  intros d n h m s lon H. destruct (day_number_jdn d n H) as [[V1 V2] E]. cbv zeta.
  rewrite lst_R by (cbn; lia). cbn [at_time tm_hour tm_min tm_sec].
  replace (days_since_2000 (at_time d h m s)) with n by (unfold days_since_2000; cbn [at_time tm_year tm_mon tm_mday]; lia).
  apply f_mod_R. lra.
Qed.
Print Assumptions C27_sidereal_time_exact.
Theorem C27_longitude_shifts_degree_for_degree : forall t lon delta, 1 <= tm_mon t <= 12 ->
  exists k : Z, getLocalSiderealTimeDegrees NumR t (lon + delta)%R =
    (getLocalSiderealTimeDegrees NumR t lon + delta + 360 * IZR k)%R.
Proof.
  intros t lon delta H. rewrite !lst_R by auto.
  destruct (f_mod_R (sidereal_formula (days_since_J2000 (days_since_2000 t) (tm_hour t) (tm_min t) (tm_sec t)) (lon + delta)) 360 ltac:(lra)) as (_ & k1 & E1).
  destruct (f_mod_R (sidereal_formula (days_since_J2000 (days_since_2000 t) (tm_hour t) (tm_min t) (tm_sec t)) lon) 360 ltac:(lra)) as (_ & k2 & E2).
  exists (k1 - k2)%Z. rewrite E1, E2. unfold sidereal_formula. rewrite minus_IZR.
  match goal with |- ?a = ?b => change ((a : R) = b) end. ring.
Qed.
Print Assumptions C27_longitude_shifts_degree_for_degree.
(** on the device, for the whole GNSS century: within 10^-7 degree (0.00036 arc seconds) of the formula *)
Theorem C27_sidereal_time_ieee : forall d n h m s lon, day_number d n -> 2000 <= d_year d <= 2099 ->
  0 <= h <= 23 -> 0 <= m <= 59 -> 0 <= s <= 60 -> (Rabs lon <= 360)%R ->
  let lst := getLocalSiderealTimeDegrees NumB (at_time d h m s) lon in
  (- (1 / 10 ^ 8) <= lst <= 360 + 1 / 10 ^ 8)%R /\
  exists k : Z, (Rabs (lst - (sidereal_formula (days_since_J2000 n h m s) lon + 360 * IZR k)) <= 1 / 10 ^ 7)%R.
Proof.
  intros d n h m s lon H Hy Hh Hm Hs Hl. destruct (day_number_jdn d n H) as [[V1 V2] E]. cbv zeta.
  pose proof (month_length_bounds (d_year d) (d_month d)).
  assert (En : days_since_2000 (at_time d h m s) = n) by (unfold days_since_2000; cbn [at_time tm_year tm_mon tm_mday]; lia).
  assert (Hn : -36600 <= n <= 36600).
  { unfold jdn in E. destruct (Z.leb_spec (d_month d) 2).
    - Z.div_mod_to_equations. lia.
    - Z.div_mod_to_equations. lia. }
  destruct (lst_B (at_time d h m s) lon) as (k & Hk & Hr); try rewrite En; cbn [at_time tm_mon tm_mday tm_year tm_hour tm_min tm_sec]; try lia; auto.
  - rewrite En in Hk. cbn [at_time tm_hour tm_min tm_sec] in Hk. split; [exact Hr|]. exists k. exact Hk.
Qed.
Print Assumptions C27_sidereal_time_ieee.
Example C27_nonvacuous : day_number (Date 2000 1 2) 1 /\ (Rabs 11 <= 360)%R /\
  days_since_J2000 1 12 0 0 = 1%R /\ sidereal_formula 1 0 = (28046061837 / 100000000 + 36098564736629 / 100000000000 + 388 / 1000000 / 36525 / 36525)%R.
Proof.
  split; [apply (dn_next (Date 2000 1 1) 0), dn_epoch|]. split; [rewrite Rabs_pos_eq; lra|].
  unfold days_since_J2000, sidereal_formula. split; lra.
Qed.

(** ** C28 (exact arithmetic) and C75 (IEEE double) *)
Theorem C28_f_mod_normalises : forall a n : R, (0 < n)%R ->
  (0 <= f_mod NumR a n < n)%R /\ exists k : Z, f_mod NumR a n = (a + n * IZR k)%R.
Proof. exact f_mod_R. Qed.
Print Assumptions C28_f_mod_normalises.
Theorem C28_f_mod_fixes_normalised : forall a n : R, (0 <= a < n)%R -> f_mod NumR a n = a.
Proof.
  intros a n H. destruct (f_mod_R a n ltac:(lra)) as (B & k & E).
  assert (k = 0).
  { assert (A1 : (n * IZR k < n)%R) by lra. assert (A2 : (- n < n * IZR k)%R) by lra.
    assert (IZR k < 1)%R by (apply Rmult_lt_reg_l with n; lra). assert (-1 < IZR k)%R by (apply Rmult_lt_reg_l with n; lra).
    apply lt_IZR in H0. apply lt_IZR in H1. lia. }
  subst k. rewrite E. match goal with |- ?a = ?b => change ((a : R) = b) end. ring.
Qed.
Print Assumptions C28_f_mod_fixes_normalised.
Example C28_nonvacuous : (0 < 360)%R /\ (0 <= 359 < 360)%R. Proof. lra. Qed.

Theorem C75_f_mod_nearly_normalises_partial : forall a : R, (Rabs a <= 14000000)%R ->
  exists k : Z, (Rabs (f_mod NumB a 360 - (a + 360 * IZR k)) <= 1 / 10 ^ 12)%R /\
    (- (1 / 10 ^ 8) <= f_mod NumB a 360 <= 360 + 1 / 10 ^ 8)%R.
Proof. exact f_mod_B. Qed.
Print Assumptions C75_f_mod_nearly_normalises_partial.
Theorem C75_f_mod_below_n_refuted : f_mod NumSF (fq NumSF (-1) (10 ^ 20)) (fZ NumSF 360) = fZ NumSF 360.
Proof. vm_compute. reflexivity. Qed.
Print Assumptions C75_f_mod_below_n_refuted.
