(** C29-C33: coordinate transforms, exact arithmetic with the mathematical sin, cos and atan2. *)
From Verif Require Import Base Num M_Helper M_Linalg M_Alignment M_Telescope S_Sky P_AlignR P_Sky.
From Coq Require Import Reals Lra Psatz.
From Flocq Require Import Core.
Open Scope R_scope.

(** ** C29 *)
Theorem C29_normalised : forall a b lat lst : R,
  let q := horizontalToEquatorial NumR TrigR a b lat lst in
  let h := equatorialToHorizontal NumR TrigR a b lat lst in
  (0 <= RA q < 360 /\ -90 <= DEC q <= 90) /\ (0 <= AZ h < 360 /\ -90 <= ALT h <= 90).
Proof.
  intros. destruct (h2e_spec a b lat lst) as (_ & H1 & H2). destruct (e2h_spec a b lat lst) as (_ & H3 & H4). auto.
Qed.
Print Assumptions C29_normalised.
(** hours of right ascension: a time of day, 15 degrees to the hour *)
Theorem C29_hours : forall d : R, let h := degToHours NumR d in 0 <= h < 24 /\ same_turn (15 * h) d.
Proof.
  intros d. unfold degToHours. cbn [fmul fdiv fZ NumR]. destruct (f_mod_R (d / 360 * 24) 24 ltac:(lra)) as (B & k & E).
  cbv zeta. split; [exact B|]. exists k. rewrite E. change (F NumR) with R. field.
Qed.
Print Assumptions C29_hours.

(** ** C30 *)
(** azimuth/altitude is where a star of that hour angle and declination stands (components towards
    north, east, zenith), in both directions *)
Theorem C30_horizontal_is_where_the_star_stands : forall ra dec lat lst : R,
  let h := equatorialToHorizontal NumR TrigR ra dec lat lst in vec (AZ h) (ALT h) = horizon_vec (lst - ra) dec lat.
Proof. intros. destruct (e2h_spec ra dec lat lst) as (E & _). rewrite <- rot_vec. exact E. Qed.
Print Assumptions C30_horizontal_is_where_the_star_stands.
Theorem C30_equatorial_is_the_star_seen_there : forall az alt lat lst : R,
  let q := horizontalToEquatorial NumR TrigR az alt lat lst in horizon_vec (lst - RA q) (DEC q) lat = vec az alt.
Proof. intros. destruct (h2e_spec az alt lat lst) as (E & _). rewrite <- rot_vec. unfold q. fold (h2e az alt lat lst). rewrite E. apply rot_rot. Qed.
Print Assumptions C30_equatorial_is_the_star_seen_there.

Theorem C30_roundtrip_horizontal : forall az alt lat lst : R,
  let q := horizontalToEquatorial NumR TrigR az alt lat lst in
  let h := equatorialToHorizontal NumR TrigR (RA q) (DEC q) lat lst in
  vec (AZ h) (ALT h) = vec az alt /\
  (-90 <= alt <= 90 -> ALT h = alt) /\
  (-90 < alt < 90 -> same_turn (AZ h) az) /\ (-90 < alt < 90 -> 0 <= az < 360 -> AZ h = az).
Proof.
  intros. destruct (h2e_spec az alt lat lst) as (E & _). destruct (e2h_spec (RA q) (DEC q) lat lst) as (E2 & B1 & B2).
  fold (h2e az alt lat lst) in q. fold (e2h (RA q) (DEC q) lat lst) in h.
  assert (V : vec (AZ h) (ALT h) = vec az alt) by (unfold h; rewrite E2; unfold q; rewrite E; apply rot_rot).
  change (0 <= AZ h < 360) in B1. change (-90 <= ALT h <= 90) in B2. clear E2 E. clearbody h. clear q.
  split; [exact V|]. split; [|split].
  - intros Ha. apply (vec_inj _ _ _ _ V B2 Ha).
  - intros Ha. destruct (vec_inj _ _ _ _ V B2 ltac:(lra)) as [Ee T]. apply T. lra.
  - intros Ha Hz. destruct (vec_inj _ _ _ _ V B2 ltac:(lra)) as [Ee T]. apply same_turn_norm; auto. apply T. lra.
Qed.
Print Assumptions C30_roundtrip_horizontal.

Theorem C30_roundtrip_equatorial : forall ra dec lat lst : R,
  let h := equatorialToHorizontal NumR TrigR ra dec lat lst in
  let q := horizontalToEquatorial NumR TrigR (AZ h) (ALT h) lat lst in
  vec (RA q) (DEC q) = vec ra dec /\
  (-90 <= dec <= 90 -> DEC q = dec) /\
  (-90 < dec < 90 -> same_turn (RA q) ra) /\ (-90 < dec < 90 -> 0 <= ra < 360 -> RA q = ra).
Proof.
  intros. destruct (e2h_spec ra dec lat lst) as (E & _). destruct (h2e_spec (AZ h) (ALT h) lat lst) as (E2 & B1 & B2).
  fold (e2h ra dec lat lst) in h. fold (h2e (AZ h) (ALT h) lat lst) in q.
  assert (V : vec (lst - RA q) (DEC q) = vec (lst - ra) dec) by (unfold q; rewrite E2; unfold h; rewrite E; apply rot_rot).
  change (0 <= RA q < 360) in B1. change (-90 <= DEC q <= 90) in B2. clear E2 E. clearbody q. clear h.
  assert (V2 : vec (RA q) (DEC q) = vec ra dec).
  { unfold vec in V |- *. injection V as V1 V2 V3.
    (* rotate about the pole by lst: components of (ra, dec) from those of (lst - ra, dec) *)
    assert (R1 : forall u d, cos (radians u) * cos (radians d) = cos (radians lst) * (cos (radians (lst - u)) * cos (radians d)) + sin (radians lst) * (sin (radians (lst - u)) * cos (radians d))).
    { intros u d. replace (radians u) with (radians lst - radians (lst - u)) by (rewrite radians_minus; ring). rewrite cos_minus. ring. }
    assert (R2 : forall u d, sin (radians u) * cos (radians d) = sin (radians lst) * (cos (radians (lst - u)) * cos (radians d)) - cos (radians lst) * (sin (radians (lst - u)) * cos (radians d))).
    { intros u d. replace (radians u) with (radians lst - radians (lst - u)) by (rewrite radians_minus; ring). rewrite sin_minus. ring. }
    apply triple; [rewrite (R1 (RA q) (DEC q)), (R1 ra dec), V1, V2; reflexivity|rewrite (R2 (RA q) (DEC q)), (R2 ra dec), V1, V2; reflexivity|exact V3]. }
  split; [exact V2|]. split; [|split].
  - intros Ha. apply (vec_inj _ _ _ _ V2 B2 Ha).
  - intros Ha. destruct (vec_inj _ _ _ _ V2 B2 ltac:(lra)) as [Ee T]. apply T. lra.
  - intros Ha Hz. destruct (vec_inj _ _ _ _ V2 B2 ltac:(lra)) as [Ee T]. apply same_turn_norm; auto. apply T. lra.
Qed.
Print Assumptions C30_roundtrip_equatorial.
Example C30_nonvacuous : -90 < 41 < 90 /\ 0 <= 123 < 360. Proof. lra. Qed.

(** ** C31 *)
Theorem C31_separation_preserved : forall a e a' e' lat lst : R,
  (let q := horizontalToEquatorial NumR TrigR a e lat lst in let q' := horizontalToEquatorial NumR TrigR a' e' lat lst in
   cos_sep (RA q) (DEC q) (RA q') (DEC q') = cos_sep a e a' e') /\
  (let h := equatorialToHorizontal NumR TrigR a e lat lst in let h' := equatorialToHorizontal NumR TrigR a' e' lat lst in
   cos_sep (AZ h) (ALT h) (AZ h') (ALT h') = cos_sep a e a' e').
Proof.
  intros.
  assert (M : forall u d u' d', cos_sep (lst - u) d (lst - u') d' = cos_sep u d u' d').
  { intros. unfold cos_sep. do 2 f_equal. replace (lst - u - (lst - u')) with (- (u - u')) by ring.
    replace (radians (- (u - u'))) with (- radians (u - u')) by (unfold radians; field). apply cos_neg. }
  split; cbv zeta.
  - rewrite <- M. eapply sep_from_vec; apply h2e_spec.
  - rewrite <- (M a e). eapply sep_from_vec; apply e2h_spec.
Qed.
Print Assumptions C31_separation_preserved.

(** ** C32 *)
Theorem C32_sky_turns : forall az alt lat lst d : R,
  let q := horizontalToEquatorial NumR TrigR az alt lat lst in
  let q' := horizontalToEquatorial NumR TrigR az alt lat (lst + d) in
  same_turn (RA q') (RA q + d) /\ DEC q' = DEC q.
Proof.
  intros. split; [|reflexivity]. unfold q, q', RA, horizontalToEquatorial. cbn [ra fsub fZ NumR].
  match goal with |- same_turn (f_mod NumR (_ - ?x) _) _ => set (y := x) end.
  destruct (f_mod_turn (lst + d - y)) as [(k & ->) _]. destruct (f_mod_turn (lst - y)) as [(k' & ->) _].
  exists (k - k')%Z. rewrite minus_IZR. lra.
Qed.
Print Assumptions C32_sky_turns.
Theorem C32_shift_together : forall ra dec lat lst d : R,
  equatorialToHorizontal NumR TrigR (ra + d) dec lat (lst + d) = equatorialToHorizontal NumR TrigR ra dec lat lst.
Proof.
  intros. change (e2h (ra + d) dec lat (lst + d) = e2h ra dec lat lst). rewrite !e2h_eq.
  replace (lst + d - (ra + d)) with (lst - ra) by ring. reflexivity.
Qed.
Print Assumptions C32_shift_together.
(** whole turns of any input angle do not matter *)
Theorem C32_turns_do_not_matter : forall ra dec lat lst ra' lst' : R, same_turn ra ra' -> same_turn lst lst' ->
  equatorialToHorizontal NumR TrigR ra' dec lat lst' = equatorialToHorizontal NumR TrigR ra dec lat lst.
Proof.
  intros r d p l r' l' [k Er] [k' El]. change (e2h r' d p l' = e2h r d p l). rewrite !e2h_eq.
  assert (T : same_turn (l' - r') (l - r)) by (exists (k - k')%Z; rewrite minus_IZR; lra).
  rewrite (cos_turn _ _ T), (sin_turn _ _ T). reflexivity.
Qed.
Print Assumptions C32_turns_do_not_matter.
Example C32_nonvacuous : same_turn 370 10. Proof. exists 1%Z. lra. Qed.

(** ** C33 *)
Lemma vec90 u : vec u 90 = (0, 0, 1).
Proof.
  unfold vec. replace (radians 90) with (PI / 2) by (unfold radians; field). rewrite cos_PI2, sin_PI2. apply triple; ring.
Qed.
Lemma rot_zenith p : rot p (0, 0, 1) = vec 0 p.
Proof. unfold rot, vec. replace (radians 0) with 0 by (unfold radians; field). rewrite cos_0, sin_0. apply triple; ring. Qed.
Theorem C33_zenith : forall az lat lst : R, -90 <= lat <= 90 ->
  let q := horizontalToEquatorial NumR TrigR az 90 lat lst in
  DEC q = lat /\ (-90 < lat < 90 -> same_turn (RA q) lst).
Proof.
  intros az lat lst Hl. cbv zeta. destruct (h2e_spec az 90 lat lst) as (E & B1 & B2). rewrite vec90, rot_zenith in E.
  destruct (vec_inj _ _ _ _ E B2 Hl) as [Ed T]. split; [exact Ed|].
  intros H. assert (T' : same_turn (lst - RA (h2e az 90 lat lst)) 0) by (apply T; lra).
  destruct T' as [k Hk]. exists (- k)%Z. unfold h2e in Hk. rewrite opp_IZR. lra.
Qed.
Print Assumptions C33_zenith.
Theorem C33_pole : forall ra lat lst : R, -90 <= lat <= 90 ->
  let h := equatorialToHorizontal NumR TrigR ra 90 lat lst in
  ALT h = lat /\ (-90 < lat < 90 -> AZ h = 0).
Proof.
  intros r lat lst Hl. cbv zeta. destruct (e2h_spec r 90 lat lst) as (E & B1 & B2). rewrite vec90, rot_zenith in E.
  destruct (vec_inj _ _ _ _ E B2 Hl) as [Ed T]. split; [exact Ed|].
  intros H. apply same_turn_norm; [apply T; lra|exact B1|lra].
Qed.
Print Assumptions C33_pole.
Example C33_nonvacuous : -90 < 48 < 90. Proof. lra. Qed.
