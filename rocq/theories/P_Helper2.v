(** Sidereal time: exact, and with double rounding. *)
From Verif Require Import Base Num M_Helper S_Helper P_Round P_Helper P_AlignR.
From Coq Require Import Reals Lra Psatz Floats.SpecFloat.
From Flocq Require Import Core.
Open Scope R_scope.

(** whole days since 2000-01-01 *)
Definition days_since_2000 (t : tm) : Z := (jdn (tm_year t) (tm_mon t) (tm_mday t) - 2451545)%Z.

Lemma deltaJulian_R t : (1 <= tm_mon t <= 12)%Z ->
  deltaJulian NumR t = days_since_J2000 (days_since_2000 t) (tm_hour t) (tm_min t) (tm_sec t).
Proof.
  intros H. unfold deltaJulian. rewrite julianDay_R by auto. unfold days_since_J2000, days_since_2000.
  cbn [fadd fsub fdiv fZ NumR]. rewrite minus_IZR.
  match goal with |- ?a = ?b => change ((a : R) = b) end. field.
Qed.

Lemma lst_R t lon : (1 <= tm_mon t <= 12)%Z ->
  getLocalSiderealTimeDegrees NumR t lon =
  f_mod NumR (sidereal_formula (days_since_J2000 (days_since_2000 t) (tm_hour t) (tm_min t) (tm_sec t)) lon) 360.
Proof.
  intros H. unfold getLocalSiderealTimeDegrees, sidereal_formula. rewrite deltaJulian_R by auto.
  cbn [fadd fsub fdiv fmul fZ fq NumR]. reflexivity.
Qed.

(** one rounding step: replace [b64 e] by a variable within 2^(k-54) of [e] *)
Lemma rnd64 (k : Z) x : (-1000 <= k)%Z -> - bpow radix2 k < x < bpow radix2 k ->
  exists y, b64 x = y /\ x - bpow radix2 (k - 54) <= y <= x + bpow radix2 (k - 54).
Proof.
  intros Hk Hx. exists (b64 x). split; [reflexivity|].
  assert (E : Rabs (b64 x - x) <= bpow radix2 (k - 54)) by (apply b64_error_lt; [auto|apply Rabs_lt; auto]).
  apply Rabs_le_inv in E. lra.
Qed.
Ltac step k x H := 
  let E := fresh "E" in let y := fresh "y" in
  destruct (rnd64 k x ltac:(lia)) as (y & E & H); [simpl bpow; try lra | rewrite E; clear E; simpl bpow in H].

Lemma f_mod_B a : Rabs a <= 14000000 ->
  exists k : Z, Rabs (f_mod NumB a 360 - (a + 360 * IZR k)) <= 1 / 10 ^ 12 /\
    - (1 / 10 ^ 8) <= f_mod NumB a 360 <= 360 + 1 / 10 ^ 8.
Proof.
  intros Ha. apply Rabs_le_inv in Ha. unfold f_mod. cbn [fsub fmul fdiv ffloor NumB].
  assert (Q : - 40000 <= a / 360 <= 40000) by lra.
  step 16%Z (a / 360) Hq. 
  set (z := Zfloor y). assert (Hz1 : IZR z <= y) by apply Zfloor_lb. assert (Hz2 : y < IZR z + 1) by apply Zfloor_ub.
  assert (Hz : (- 40002 <= z <= 40002)%Z) by (split; apply le_IZR; lra).
  replace (360 * IZR z) with (IZR (360 * z)) by (rewrite mult_IZR; reflexivity).
  rewrite (b64_of_int (360 * z)) by lia. rewrite mult_IZR.
  exists (- z)%Z. rewrite opp_IZR.
  step 9%Z (a - 360 * IZR z) Hr. split; [apply Rabs_le|]; lra.
Qed.

Lemma lst_B t lon : (1 <= tm_mon t <= 12)%Z -> (0 <= tm_mday t <= 31)%Z -> (1 <= tm_year t <= 6767)%Z ->
  (-36600 <= days_since_2000 t <= 36600)%Z ->
  (0 <= tm_hour t <= 23)%Z -> (0 <= tm_min t <= 59)%Z -> (0 <= tm_sec t <= 60)%Z -> Rabs lon <= 360 ->
  let D := days_since_J2000 (days_since_2000 t) (tm_hour t) (tm_min t) (tm_sec t) in
  exists k : Z, Rabs (getLocalSiderealTimeDegrees NumB t lon - (sidereal_formula D lon + 360 * IZR k)) <= 1 / 10 ^ 7 /\
    - (1 / 10 ^ 8) <= getLocalSiderealTimeDegrees NumB t lon <= 360 + 1 / 10 ^ 8.
Proof.
  intros Hmon Hd Hy HD Hh Hm Hs Hl. cbv zeta. apply Rabs_le_inv in Hl.
  unfold getLocalSiderealTimeDegrees, deltaJulian. rewrite julianDay_B by auto.
  set (n := days_since_2000 t) in *. set (h := tm_hour t) in *. set (m := tm_min t) in *. set (s := tm_sec t) in *.
  cbn [fadd fsub fmul fdiv fZ fq NumB].
  rewrite (b64_of_int 2451545), (b64_of_int 24), (b64_of_int 60), (b64_of_int 3600), (b64_of_int 36525), (b64_of_int 360),
    (b64_of_int h), (b64_of_int m), (b64_of_int s) by lia.
  assert (RH : 0 <= IZR h <= 23) by (split; apply IZR_le; lia).
  assert (RM : 0 <= IZR m <= 59) by (split; apply IZR_le; lia).
  assert (RS : 0 <= IZR s <= 60) by (split; apply IZR_le; lia).
  assert (RN : -36600 <= IZR n <= 36600) by (split; apply IZR_le; lia).
  assert (E0 : b64 (IZR (jdn (tm_year t) (tm_mon t) (tm_mday t)) - 1 / 2 - 2451545) = IZR n - 1 / 2).
  { replace (IZR (jdn (tm_year t) (tm_mon t) (tm_mday t)) - 1 / 2 - 2451545) with (IZR (2 * n - 1) * bpow radix2 (-1)).
    - rewrite b64_id by (apply is_b64_dyadic; lia). rewrite minus_IZR, mult_IZR. simpl bpow. lra.
    - unfold n, days_since_2000. rewrite !minus_IZR, mult_IZR, minus_IZR. simpl bpow. lra. }
  rewrite E0. clear E0.
  set (D := days_since_J2000 n h m s).
  assert (ED : D = IZR n - 1 / 2 + (IZR h + (IZR m + IZR s / 60) / 60) / 24) by reflexivity. clearbody D.
  clearbody n h m s. clear t Hmon Hd Hy HD Hh Hm Hs.
  step 0%Z (IZR h / 24) H1. 
  step 0%Z (IZR m / 60) H2. step 0%Z (y0 / 24) H3.
  step 0%Z (IZR s / 3600) H4. step 0%Z (y2 / 24) H5.
  step 16%Z (IZR n - 1 / 2 + y) H6. step 16%Z (y4 + y1) H7. step 16%Z (y5 + y3) H8.
  assert (HD : D - 2 / 10 ^ 11 <= y6 <= D + 2 / 10 ^ 11) by lra.
  assert (HDb : -36601 <= D <= 36602) by lra.
  clear H1 H2 H3 H4 H5 H6 H7 H8. clear dependent y. clear dependent y0. clear dependent y1. clear dependent y2. clear dependent y3. clear dependent y4. clear dependent y5.
  rename y6 into d.
  step 9%Z (28046061837 / 100000000) H1. step 9%Z (36098564736629 / 100000000000) H2.
  assert (P : Rabs ((y0 - 36098564736629 / 100000000000) * d) <= bpow radix2 (-29)).
  { rewrite Rabs_mult. replace (bpow radix2 (-29)) with (bpow radix2 (-45) * bpow radix2 16) by (rewrite <- bpow_plus; reflexivity).
    apply Rmult_le_compat; try apply Rabs_pos; apply Rabs_le; simpl bpow; lra. }
  apply Rabs_le_inv in P.
  assert (P0 : y0 * d = (y0 - 36098564736629 / 100000000000) * d + 36098564736629 / 100000000000 * d) by ring.
  set (e0 := (y0 - 36098564736629 / 100000000000) * d) in *. clearbody e0. simpl bpow in P.
  step 24%Z (y0 * d) H3.
  step 1%Z (d / 36525) H4. step (-11)%Z (388 / 1000000) H5.
  assert (T1 : Rabs (y3 * y2 - 388 / 1000000 * (D / 36525)) <= 1 / 10 ^ 13).
  { replace (y3 * y2 - 388 / 1000000 * (D / 36525)) with ((y3 - 388 / 1000000) * y2 + 388 / 1000000 * (y2 - D / 36525)) by ring.
    eapply Rle_trans; [apply Rabs_triang|]. rewrite !Rabs_mult.
    assert (Rabs (y3 - 388 / 1000000) * Rabs y2 <= 1 / 10 ^ 16 * 2) by (apply Rmult_le_compat; try apply Rabs_pos; apply Rabs_le; lra).
    assert (Rabs (388 / 1000000) * Rabs (y2 - D / 36525) <= 388 / 1000000 * (1 / 10 ^ 14)) by (apply Rmult_le_compat; try apply Rabs_pos; apply Rabs_le; lra).
    lra. }
  apply Rabs_le_inv in T1.
  step (-11)%Z (y3 * y2) H6.
  assert (T2 : Rabs (y4 * y2 - 388 / 1000000 * (D / 36525) * (D / 36525)) <= 1 / 10 ^ 11).
  { replace (y4 * y2 - 388 / 1000000 * (D / 36525) * (D / 36525)) with ((y4 - 388 / 1000000 * (D / 36525)) * y2 + 388 / 1000000 * (D / 36525) * (y2 - D / 36525)) by ring.
    eapply Rle_trans; [apply Rabs_triang|]. rewrite (Rabs_mult (y4 - 388 / 1000000 * (D / 36525)) y2), (Rabs_mult (388 / 1000000 * (D / 36525)) (y2 - D / 36525)).
    assert (Rabs (y4 - 388 / 1000000 * (D / 36525)) * Rabs y2 <= 2 / 10 ^ 13 * 2) by (apply Rmult_le_compat; try apply Rabs_pos; apply Rabs_le; lra).
    assert (Rabs (388 / 1000000 * (D / 36525)) * Rabs (y2 - D / 36525) <= 1 / 1000 * (1 / 10 ^ 14)) by (apply Rmult_le_compat; try apply Rabs_pos; apply Rabs_le; lra).
    lra. }
  apply Rabs_le_inv in T2.
  assert (T3 : Rabs (388 / 1000000 * (D / 36525) * (D / 36525)) <= 1 / 1000).
  { rewrite Rabs_mult. replace (1 / 1000) with (5 / 10000 * 2) by lra. apply Rmult_le_compat; try apply Rabs_pos; apply Rabs_le; lra. }
  apply Rabs_le_inv in T3.
  unfold sidereal_formula. set (q := 388 / 1000000 * (D / 36525) * (D / 36525)) in *. clearbody q.
  set (r := y4 * y2) in *. clearbody r. clear H4 H5 T1 H6. clear y4. clear y2 y3.
  step 0%Z r H4. step 24%Z (y + y1) H5. step 24%Z (y3 + y2) H6. step 24%Z (y4 + lon) H7.
  destruct (f_mod_B y5) as (k & Hk & Hr). { apply Rabs_le. lra. }
  exists k. split; [|exact Hr]. apply Rabs_le_inv in Hk. apply Rabs_le. lra.
Qed.
