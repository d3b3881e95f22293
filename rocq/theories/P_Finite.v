(** The coordinate conversions on actual doubles compute what they compute on rounded reals *)
From Verif Require Import Base Num M_Helper M_Telescope S_SkyIEEE P_SkyIEEE P_Round P_Helper2 P_NumCorr S_Libm P_Libm Properties_SkyIEEE.
From Coq Require Import Reals Lra Lia Floats.SpecFloat.
From Flocq Require Import Core IEEE754.BinarySingleNaN.
Open Scope R_scope.

(** ** The sign of the radius *)
Definition plus_sign (s : spec_float) : Prop := exists f : binary_float 53 1024, BinarySingleNaN.B2SF f = s /\ is_finite f = true /\ Bsign f = false.
Lemma plus_square a x : means a x -> Rabs (b64 (x * x)) < bpow radix2 1024 -> plus_sign (SFmul 53 1024 a a).
Proof.
  intros (f & <- & Ff & <-) H. rewrite mul_equiv. exists (@Bmult 53 1024 Hprec Hmax mode_NE f f). split; [reflexivity|].
  pose proof (Bmult_correct 53 1024 Hprec Hmax mode_NE f f) as C. rewrite Rlt_bool_true in C by exact H. destruct C as (C & D & E). rewrite Ff in D. split; [exact D|].
  rewrite E by (destruct (@Bmult 53 1024 Hprec Hmax mode_NE f f); try discriminate; reflexivity). apply Bool.xorb_nilpotent.
Qed.
Lemma plus_add a b x y : means a x -> means b y -> plus_sign a -> plus_sign b -> Rabs (b64 (x + y)) < bpow radix2 1024 -> plus_sign (SFadd 53 1024 a b).
Proof.
  intros (f & <- & Ff & <-) (g & <- & Fg & <-) (f' & Ef & _ & Sf) (g' & Eg & _ & Sg) H. apply B2SF_inj in Ef, Eg. subst f' g'.
  rewrite add_equiv. exists (@Bplus 53 1024 Hprec Hmax mode_NE f g). split; [reflexivity|].
  pose proof (Bplus_correct 53 1024 Hprec Hmax mode_NE f g Ff Fg) as C. rewrite Rlt_bool_true in C by exact H. destruct C as (C & D & E). split; [exact D|]. rewrite E, Sf, Sg.
  assert (P : forall h : binary_float 53 1024, Bsign h = false -> 0 <= BinarySingleNaN.B2R h).
  { intros h Hh. destruct h as [s|s| |s m e Hb]; cbn; try lra. cbn in Hh. subst s. apply F2R_ge_0. cbn. lia. }
  pose proof (P f Sf). pose proof (P g Sg). destruct (Rcompare_spec (BinarySingleNaN.B2R f + BinarySingleNaN.B2R g) 0); [lra|reflexivity|reflexivity].
Qed.
Lemma plus_sqrt a x : means a x -> 0 <= x -> plus_sign a -> plus_sign (SFsqrt 53 1024 a).
Proof.
  intros M Hx (f & <- & Ff & Sf). destruct (means_sqrt _ _ M Hx) as (g & Eg & Fg & _). rewrite sqrt_equiv in *. apply B2SF_inj in Eg. subst g.
  eexists. split; [reflexivity|]. split; [exact Fg|]. rewrite (proj2 (proj2 (Bsqrt_correct 53 1024 Hprec Hmax mode_NE f))); [exact Sf|].
  destruct (@Bsqrt 53 1024 Hprec Hmax mode_NE f); try discriminate; reflexivity.
Qed.
Lemma plus_zero a : means a 0 -> plus_sign a -> a = S754_zero false.
Proof. intros M (f & <- & _ & S). destruct (means_zero _ M) as (s & E). rewrite E. destruct f; try discriminate. cbn in E, S. congruence. Qed.

Lemma mbZ n z : (Z.abs z <= 2 ^ 53)%Z -> Rabs (IZR z) <= bpow radix2 n -> mb n (fZ NumSF z) (fZ NumB z).
Proof. intros H B. cbn [fZ NumSF NumB]. rewrite P_NumCorr.b64_id by (apply int_b64; exact H). split; [apply means_int; exact H|exact B]. Qed.
Lemma meansZ z : (Z.abs z <= 2 ^ 53)%Z -> means (fZ NumSF z) (fZ NumB z).
Proof. intros H. cbn [fZ NumSF NumB]. rewrite P_NumCorr.b64_id by (apply int_b64; exact H). apply means_int; exact H. Qed.
Lemma fZB z : (Z.abs z <= 2 ^ 53)%Z -> fZ NumB z = IZR z.
Proof. intros H. cbn [fZ NumB]. apply P_NumCorr.b64_id, int_b64, H. Qed.

(** f_mod by 360 *)
Lemma mb_f_mod n a x : (10 <= n <= 800)%Z -> mb n a x -> means (f_mod NumSF a (fZ NumSF 360)) (f_mod NumB x (fZ NumB 360)).
Proof.
  intros Hn M. unfold f_mod. cbn [fsub fmul fdiv ffloor NumSF NumB].
  assert (D : mb (n - 8) (SFdiv 53 1024 a (fZ NumSF 360)) (b64 (x / fZ NumB 360))).
  { apply (mb_div n 8); [lia|exact M|apply meansZ; lia|]. rewrite fZB by lia. rewrite Rabs_pos_eq by lra. simpl bpow. lra. }
  apply (mb_floor (n - 8)) in D; [|lia].
  assert (Q : mb (9 + (n - 8)) (SFmul 53 1024 (fZ NumSF 360) (sf_floor (SFdiv 53 1024 a (fZ NumSF 360)))) (b64 (fZ NumB 360 * IZR (Zfloor (b64 (x / fZ NumB 360)))))).
  { apply mb_mul; [lia| |exact D]. apply mbZ; [lia|]. rewrite Rabs_pos_eq by lra. simpl bpow. lra. }
  apply (mb_sub (n + 1)); [lia|eapply mb_weaken; [|exact M]; lia|eapply mb_weaken; [|exact Q]; lia].
Qed.

Section Conv.
Context (T : Trig NumSF) (HT : c_libm T).
Notation LB := (libB T).

Lemma mb_rad b s x : means s x -> Rabs x <= 4000 -> mb 8 (rad NumSF T s) (rad NumB (LB b) x) /\ Rabs (rad NumB (LB b) x) <= 100.
Proof.
  intros M B. split.
  - unfold rad. cbn [fmul fdiv NumSF NumB]. apply (mb_div 15 7); [lia| |apply meansZ; lia|rewrite fZB by lia; rewrite Rabs_pos_eq by lra; simpl bpow; lra].
    apply (mb_mul 12 3); [lia|split; [exact M|simpl bpow; lra]|]. split; [apply pi_agrees; exact HT|]. pose proof (pi_close T HT b). change (F NumB) with R in *. simpl bpow. apply Rabs_le. lra.
  - pose proof (rad_err (LB b) (libB_good T HT b) x x 0 ltac:(rewrite Rminus_diag_eq, Rabs_R0 by reflexivity; lra) ltac:(simpl bpow; lra) B) as E.
    pose proof (radians_b x B) as R. simpl bpow in E. apply Rabs_le_inv in E, R. apply Rabs_le. change (F NumB) with R in *. lra.
Qed.
Lemma mb_deg b n s x : (0 <= n <= 100)%Z -> mb n s x -> mb (n + 7) (deg NumSF T s) (deg NumB (LB b) x).
Proof.
  intros Hn M. unfold deg. cbn [fmul fdiv NumSF NumB]. replace (n + 7)%Z with (n + 8 - 1)%Z by lia. apply (mb_div (n + 8) 1); [lia| |apply pi_agrees; exact HT|].
  - apply mb_mul; [lia|exact M|]. apply mbZ; [lia|]. rewrite Rabs_pos_eq by lra. simpl bpow. lra.
  - pose proof (pi_close T HT b). change (F NumB) with R in *. simpl bpow. rewrite Rabs_pos_eq; lra.
Qed.

(** the radius, and the two angles *)
Lemma core sh ch sd cd sp cp (sh' ch' sd' cd' sp' cp' : R) : mb 1 sh sh' -> mb 1 ch ch' -> mb 1 sd sd' -> mb 1 cd cd' -> mb 1 sp sp' -> mb 1 cp cp' ->
  exists b, let x := rot_x NumSF sh ch sd cd sp cp in let y := rot_y NumSF sh ch sd cd sp cp in let z := rot_z NumSF sh ch sd cd sp cp in
  let x' := rot_x NumB sh' ch' sd' cd' sp' cp' in let y' := rot_y NumB sh' ch' sd' cd' sp' cp' in let z' := rot_z NumB sh' ch' sd' cd' sp' cp' in
  let r := fsqrt NumSF (fadd NumSF (fmul NumSF x x) (fmul NumSF y y)) in let r' := fsqrt NumB (fadd NumB (fmul NumB x' x') (fmul NumB y' y')) in
  mb 2 (if feq NumSF r (fZ NumSF 0) then fZ NumSF 0 else tatan2 T y x) (if feq NumB r' (fZ NumB 0) then fZ NumB 0 else tatan2 (LB b) y' x') /\
  mb 2 (tatan2 T z r) (tatan2 (LB b) z' r').
Proof.
  intros M1 M2 M3 M4 M5 M6.
  exists (match rot_y NumSF sh ch sd cd sp cp with S754_zero s => s | _ => false end). cbv zeta.
  assert (MX : mb 4 (rot_x NumSF sh ch sd cd sp cp) (rot_x NumB sh' ch' sd' cd' sp' cp')).
  { unfold rot_x. cbn [fneg fmul fadd NumSF NumB]. apply (mb_add 3); [lia| |].
    - apply (mb_mul 2 1); [lia| |exact M5]. apply (mb_mul 1 1); [lia|apply mb_neg; exact M2|exact M4].
    - eapply (mb_weaken 2); [lia|]. apply (mb_mul 1 1); [lia|exact M3|exact M6]. }
  assert (MY : mb 2 (rot_y NumSF sh ch sd cd sp cp) (rot_y NumB sh' ch' sd' cd' sp' cp')).
  { unfold rot_y. cbn [fneg fmul fadd NumSF NumB]. apply (mb_mul 1 1); [lia|apply mb_neg; exact M1|exact M4]. }
  assert (MZ : mb 4 (rot_z NumSF sh ch sd cd sp cp) (rot_z NumB sh' ch' sd' cd' sp' cp')).
  { unfold rot_z. cbn [fneg fmul fadd NumSF NumB]. apply (mb_add 3); [lia| |].
    - apply (mb_mul 2 1); [lia| |exact M6]. apply (mb_mul 1 1); [lia|exact M2|exact M4].
    - eapply (mb_weaken 2); [lia|]. apply (mb_mul 1 1); [lia|exact M3|exact M5]. }
  generalize dependent (rot_x NumSF sh ch sd cd sp cp). generalize dependent (rot_y NumSF sh ch sd cd sp cp). generalize dependent (rot_z NumSF sh ch sd cd sp cp).
  generalize (rot_x NumB sh' ch' sd' cd' sp' cp'). generalize (rot_y NumB sh' ch' sd' cd' sp' cp'). generalize (rot_z NumB sh' ch' sd' cd' sp' cp').
  clear M1 M2 M3 M4 M5 M6. cbn [F NumSF NumB fadd fmul fsqrt]. intros z' y' x' z MZ y MY x MX.
  set (b := match y with S754_zero s => s | _ => false end).
  assert (XX : mb 8 (SFmul 53 1024 x x) (b64 (x' * x'))) by (apply (mb_mul 4 4); [lia|assumption..]).
  assert (YY : mb 8 (SFmul 53 1024 y y) (b64 (y' * y'))) by (eapply (mb_weaken 4); [lia|]; apply (mb_mul 2 2); [lia|assumption..]).
  assert (PX : 0 <= b64 (x' * x')) by (rewrite <- (P_NumCorr.b64_id 0) by apply generic_format_0; apply round_le; [apply FLT_exp_valid; reflexivity|apply valid_rnd_N|]; rewrite <- (Rmult_0_l 0) at 1; pose proof (Rle_0_sqr x'); unfold Rsqr in *; lra).
  assert (PY : 0 <= b64 (y' * y')) by (rewrite <- (P_NumCorr.b64_id 0) by apply generic_format_0; apply round_le; [apply FLT_exp_valid; reflexivity|apply valid_rnd_N|]; rewrite <- (Rmult_0_l 0) at 1; pose proof (Rle_0_sqr y'); unfold Rsqr in *; lra).
  assert (SS : mb 9 (SFadd 53 1024 (SFmul 53 1024 x x) (SFmul 53 1024 y y)) (b64 (b64 (x' * x') + b64 (y' * y')))) by (apply (mb_add 8); [lia|assumption..]).
  assert (PS : 0 <= b64 (b64 (x' * x') + b64 (y' * y'))) by (rewrite <- (P_NumCorr.b64_id 0) by apply generic_format_0; apply round_le; [apply FLT_exp_valid; reflexivity|apply valid_rnd_N|lra]).
  assert (RR : mb 9 (SFsqrt 53 1024 (SFadd 53 1024 (SFmul 53 1024 x x) (SFmul 53 1024 y y))) (b64 (sqrt (b64 (b64 (x' * x') + b64 (y' * y')))))) by (apply mb_sqrt; [lia|assumption..]).
  assert (PR : 0 <= b64 (sqrt (b64 (b64 (x' * x') + b64 (y' * y'))))) by (rewrite <- (P_NumCorr.b64_id 0) by apply generic_format_0; apply round_le; [apply FLT_exp_valid; reflexivity|apply valid_rnd_N|apply sqrt_pos]).
  assert (SR : plus_sign (SFsqrt 53 1024 (SFadd 53 1024 (SFmul 53 1024 x x) (SFmul 53 1024 y y)))).
  { eapply plus_sqrt; [apply SS|exact PS|]. eapply plus_add; [apply XX|apply YY| | |eapply small_lt; [|apply SS]; lia].
    - eapply plus_square; [apply MX|]. eapply small_lt; [|apply XX]; lia.
    - eapply plus_square; [apply MY|]. eapply small_lt; [|apply YY]; lia. }
  assert (R0 : x' = 0 -> y' = 0 -> b64 (sqrt (b64 (b64 (x' * x') + b64 (y' * y')))) = 0).
  { intros -> ->. rewrite !Rmult_0_l. unfold b64. rewrite !round_0, Rplus_0_r, round_0, sqrt_0, round_0 by apply valid_rnd_N. reflexivity. }
  set (r := SFsqrt 53 1024 _) in *. set (r' := b64 (sqrt _)) in *. clearbody r r'. clear XX YY PX PY SS PS.
  split.
  - cbn [feq NumSF NumB]. rewrite (means_eq r (fZ NumSF 0) r' (fZ NumB 0)); [|apply RR|apply meansZ; lia]. rewrite fZB by lia.
    destruct (Req_bool_spec r' 0) as [E|E].
    + split; [apply (means_int 0); lia|]. rewrite Rabs_R0. apply bpow_ge_0.
    + apply atan2_agrees; [exact HT|apply MY|apply MX|]. destruct (Req_dec y' 0) as [Hy|Hy]; [|left; exact Hy]. right. left. split.
      * intros Hx. apply E. apply R0; assumption.
      * destruct MY as [MY _]. rewrite Hy in MY. destruct (means_zero _ MY) as (s & Es). unfold b. rewrite Es. reflexivity.
  - apply atan2_agrees; [exact HT|apply MZ|apply RR|]. right. right. destruct (Req_dec r' 0) as [E|E]; [right|left; lra].
    apply plus_zero; [|exact SR]. rewrite <- E. apply RR.
Qed.

Lemma e2h_agrees r d p l (r' d' p' l' : R) : means r r' -> means d d' -> means p p' -> means l l' ->
  Rabs r' <= 1000 -> Rabs d' <= 4000 -> Rabs p' <= 4000 -> Rabs l' <= 1000 ->
  exists b, means (az (equatorialToHorizontal NumSF T r d p l)) (az (equatorialToHorizontal NumB (LB b) r' d' p' l')) /\
    means (alt (equatorialToHorizontal NumSF T r d p l)) (alt (equatorialToHorizontal NumB (LB b) r' d' p' l')).
Proof.
  intros Mr Md Mp Ml Br Bd Bp Bl.
  assert (H : forall b, exists h h', (if fle NumSF (fZ NumSF 0) (fsub NumSF l r) then rad NumSF T (fsub NumSF l r) else rad NumSF T (fadd NumSF (fsub NumSF l r) (fZ NumSF 360))) = h /\
    (if fle NumB (fZ NumB 0) (fsub NumB l' r') then rad NumB (LB b) (fsub NumB l' r') else rad NumB (LB b) (fadd NumB (fsub NumB l' r') (fZ NumB 360))) = h' /\ means h h' /\ Rabs h' <= 100).
  { intros b. do 2 eexists. split; [reflexivity|]. split; [reflexivity|]. cbn [fle fsub fadd NumSF NumB].
    assert (S1 : mb 11 (SFsub 53 1024 l r) (b64 (l' - r'))) by (apply (mb_sub 10); [lia|split; [assumption|simpl bpow; lra]..]).
    rewrite (means_le (fZ NumSF 0) (SFsub 53 1024 l r) (fZ NumB 0) (b64 (l' - r'))); [|apply meansZ; lia|apply S1]. rewrite fZB by lia.
    assert (S1' : Rabs (b64 (l' - r')) <= 2048) by (destruct S1 as [_ S1]; simpl bpow in S1; lra).
    destruct (Rle_bool_spec 0 (b64 (l' - r'))).
    - destruct (mb_rad b (SFsub 53 1024 l r) (b64 (l' - r'))) as [K1 K2]; [apply S1|change (F NumB) with R in *; lra|]. split; [apply K1|exact K2].
    - assert (S2 : mb 12 (SFadd 53 1024 (SFsub 53 1024 l r) (fZ NumSF 360)) (b64 (b64 (l' - r') + fZ NumB 360))).
      { apply (mb_add 11); [lia|exact S1|]. apply mbZ; [lia|]. rewrite Rabs_pos_eq by lra. simpl bpow. lra. }
      assert (S3 : Rabs (b64 (b64 (l' - r') + fZ NumB 360)) <= 2048).
      { apply (round_bound 11); [lia|]. rewrite fZB by lia. change (F NumB) with R in *. simpl bpow. apply Rabs_le_inv in S1'. apply Rabs_le. lra. }
      destruct (mb_rad b _ _ (proj1 S2) ltac:(change (F NumB) with R in *; lra)) as [K1 K2]. split; [apply K1|exact K2]. }
  (* sin and cos of libB do not depend on the sign of zero *)
  assert (I1 : forall b x, tsin (LB b) x = tsin (LB false) x) by reflexivity. assert (I2 : forall b x, tcos (LB b) x = tcos (LB false) x) by reflexivity.
  assert (I3 : forall b x, rad NumB (LB b) x = rad NumB (LB false) x) by reflexivity.
  destruct (H false) as (h & h' & Eh & Eh' & Mh & Bh).
  destruct (mb_rad false d d' Md Bd) as [Md1 Bd1]. destruct (mb_rad false p p' Mp Bp) as [Mp1 Bp1].
  destruct (core (tsin T h) (tcos T h) (tsin T (rad NumSF T d)) (tcos T (rad NumSF T d)) (tsin T (rad NumSF T p)) (tcos T (rad NumSF T p))
    (tsin (LB false) h') (tcos (LB false) h') (tsin (LB false) (rad NumB (LB false) d')) (tcos (LB false) (rad NumB (LB false) d')) (tsin (LB false) (rad NumB (LB false) p')) (tcos (LB false) (rad NumB (LB false) p'))) as (b & C1 & C2);
    [apply sin_agrees; [exact HT|assumption|assumption]|apply cos_agrees; [exact HT|assumption|assumption]|apply sin_agrees; [exact HT|apply Md1|assumption]|apply cos_agrees; [exact HT|apply Md1|assumption]
    |apply sin_agrees; [exact HT|apply Mp1|assumption]|apply cos_agrees; [exact HT|apply Mp1|assumption]|].
  exists b. unfold equatorialToHorizontal. cbv zeta. cbn [az alt].
  change (if fle NumB (fZ NumB 0) (fsub NumB l' r') then rad NumB (LB b) (fsub NumB l' r') else rad NumB (LB b) (fadd NumB (fsub NumB l' r') (fZ NumB 360)))
    with (if fle NumB (fZ NumB 0) (fsub NumB l' r') then rad NumB (LB false) (fsub NumB l' r') else rad NumB (LB false) (fadd NumB (fsub NumB l' r') (fZ NumB 360))).
  rewrite Eh, Eh'. rewrite !I3, !I1, !I2.
  cbv zeta in C1, C2. split; [|apply (mb_deg b 2); [lia|exact C2]].
  set (a := if feq NumSF _ _ then _ else _) in C1 |- *. set (a' := if feq NumB _ _ then _ else _) in C1 |- *.
  apply (mb_deg b 5); [lia|]. cbn [flt fadd fmul NumSF NumB]. rewrite (means_lt a (fZ NumSF 0) a' (fZ NumB 0)); [|apply C1|apply meansZ; lia].
  destruct (Rlt_bool a' (fZ NumB 0)); [|eapply (mb_weaken 2); [lia|exact C1]].
  apply (mb_add 4); [lia|eapply (mb_weaken 2); [lia|exact C1]|]. apply (mb_mul 1 3); [lia| |].
  - apply mbZ; [lia|]. rewrite Rabs_pos_eq by lra. simpl bpow. lra.
  - split; [apply pi_agrees; exact HT|]. pose proof (pi_close T HT b). change (F NumB) with R in *. simpl bpow. apply Rabs_le. lra.
Qed.

Lemma h2e_agrees a e p l (a' e' p' l' : R) : means a a' -> means e e' -> means p p' -> means l l' ->
  Rabs a' <= 4000 -> Rabs e' <= 4000 -> Rabs p' <= 4000 -> Rabs l' <= 4000 ->
  exists b, means (ra (horizontalToEquatorial NumSF T a e p l)) (ra (horizontalToEquatorial NumB (LB b) a' e' p' l')) /\
    means (dec (horizontalToEquatorial NumSF T a e p l)) (dec (horizontalToEquatorial NumB (LB b) a' e' p' l')).
Proof.
  intros Ma Me Mp Ml Ba Be Bp Bl.
  assert (I1 : forall b x, tsin (LB b) x = tsin (LB false) x) by reflexivity. assert (I2 : forall b x, tcos (LB b) x = tcos (LB false) x) by reflexivity.
  assert (I3 : forall b x, rad NumB (LB b) x = rad NumB (LB false) x) by reflexivity.
  destruct (mb_rad false a a' Ma Ba) as [Ma1 Ba1]. destruct (mb_rad false e e' Me Be) as [Md1 Bd1]. destruct (mb_rad false p p' Mp Bp) as [Mp1 Bp1].
  destruct (core (tsin T (rad NumSF T a)) (tcos T (rad NumSF T a)) (tsin T (rad NumSF T e)) (tcos T (rad NumSF T e)) (tsin T (rad NumSF T p)) (tcos T (rad NumSF T p))
    (tsin (LB false) (rad NumB (LB false) a')) (tcos (LB false) (rad NumB (LB false) a')) (tsin (LB false) (rad NumB (LB false) e')) (tcos (LB false) (rad NumB (LB false) e')) (tsin (LB false) (rad NumB (LB false) p')) (tcos (LB false) (rad NumB (LB false) p'))) as (b & C1 & C2);
    [apply sin_agrees; [exact HT|apply Ma1|assumption]|apply cos_agrees; [exact HT|apply Ma1|assumption]|apply sin_agrees; [exact HT|apply Md1|assumption]|apply cos_agrees; [exact HT|apply Md1|assumption]
    |apply sin_agrees; [exact HT|apply Mp1|assumption]|apply cos_agrees; [exact HT|apply Mp1|assumption]|].
  exists b. unfold horizontalToEquatorial. cbv zeta. cbn [ra dec]. rewrite !I3, !I1, !I2. cbv zeta in C1, C2. split; [|apply (mb_deg b 2); [lia|exact C2]].
  apply (mb_f_mod 13); [lia|]. cbn [fsub NumSF NumB]. apply (mb_sub 12); [lia|split; [exact Ml|simpl bpow; lra]|]. eapply (mb_weaken 9); [lia|]. apply (mb_deg b 2); [lia|exact C1].
Qed.
End Conv.
