(** C141: the pitch (main.cpp:442-452, 468-471, lsm6wrapper.cpp:31-125). *)
From Verif Require Import Base Num M_Libc M_Checkbits M_Linalg M_Helper M_Alignment M_Telescope M_Stellarium M_Gnss M_NexStar M_Led M_Imu P_Imu M_Main P_Sched P_Main P_Main2 P_Round S_Sky P_Sky Properties_Imu.
From Coq Require Import Strings.String Reals Lra.
Open Scope Z_scope.
Notation length := List.length.

Section Device.
Context (N : Num) (T : Trig N) (pf : platform) (oor : conv_policy) (lc : libc N).
Context (qsort : list (vpair N) -> list (vpair N)) (m9 : res (F N)) (junk : option (F N * F N)).
Context (ftext : nat -> F N -> list Z) (left_first : bool) (cfg : config).
Notation dev := (dev N). Notation env := (env N). Notation event := (event N).
Notation loop := (loop N T pf oor lc qsort m9 junk ftext left_first cfg).
Notation step := (step N T pf oor lc qsort m9 junk ftext left_first cfg).
Notation history := (history N T pf oor lc qsort m9 junk ftext left_first cfg).
Notation boot := (boot N).

(** the accelerometer samples read in a history, one by each run of the filter task *)
Fixpoint samples (d : dev) (evs : list event) : list (F N * F N * F N) :=
  match evs with
  | [] => []
  | ev :: evs =>
      (match ev with Pass e => match the_task N d e with Filter => [e_acc e] | _ => [] end | Bluetooth _ => [] end) ++
      match step d ev with Ok (d', _) => samples d' evs | UB _ => [] end
  end.
Lemma feed_app s a b : feed N s (a ++ b) = do s <- feed N s a; feed N s b.
Proof. revert s. induction a as [|[[x y] z] a IH]; intros s; cbn [app feed bind]; [reflexivity|]. destruct (accSample N s x y z); cbn [bind]; [apply IH|reflexivity]. Qed.
Lemma step_imu d ev d' o : step d ev = Ok (d', o) -> sized N d -> c_sensor cfg = true ->
  feed N (d_imu d) (match ev with Pass e => match the_task N d e with Filter => [e_acc e] | _ => [] end | Bluetooth _ => [] end) = Ok (d_imu d').
Proof.
  intros E S Hc. destruct ev as [e|req]; cbn [M_Main.step] in E.
  - destruct (task_eq_dec (the_task N d e) Filter) as [Et|Et].
    + rewrite Et. rewrite loop_run, Et in E. cbn [M_Main.run_task] in E. unfold task_filter in E. rewrite Hc in E. destruct (e_acc e) as [[x y] z]. cbn [feed].
      change (d_imu (set_timers N d (snd (select (d_timers d) (e_now e))))) with (d_imu d) in E.
      destruct (accSample N (d_imu d) x y z) as [i|]; [|discriminate]. cbn [bind] in *. apply Ok2 in E. destruct E as [<- _]. reflexivity.
    + apply loop_summary in E; [|exact S]. destruct E as (_ & _ & _ & _ & _ & E). rewrite (E Et). destruct (the_task N d e); try reflexivity. congruence.
  - apply bluetooth_frame in E; [|exact S]. destruct E as (n & tx & tel & _ & _ & _ & -> & _). destruct (0 <? n); reflexivity.
Qed.
Lemma history_imu evs : forall d d' o, history d evs = Ok (d', o) -> sized N d -> c_sensor cfg = true -> feed N (d_imu d) (samples d evs) = Ok (d_imu d').
Proof.
  induction evs as [|ev evs IH]; intros d d' o E S Hc; cbn [M_Main.history] in E.
  - apply Ok2 in E. destruct E as [<- _]. reflexivity.
  - destruct (step d ev) as [[d1 o1]|] eqn:E1; [|discriminate]. cbn [bind] in E. destruct (history d1 evs) as [[d2 o2]|] eqn:E2; [|discriminate]. cbn [bind] in E.
    apply Ok2 in E. destruct E as [<- _]. cbn [samples]. rewrite E1, feed_app, (step_imu _ _ _ _ E1 S Hc). cbn [bind]. apply step_summary in E1 as S1; [|exact S]. exact (IH _ _ _ E2 (proj1 S1) Hc).
Qed.
Lemma pass_pitch d e d' o : step d (Pass e) = Ok (d', o) -> sized N d -> the_task N d e = Task100ms -> measure_pitch N T d = Ok (d_pitch d') /\ t_orient (d_tel d') = Pt (f32 N (fadd N (d_heading d') (fZ N 0))) (d_pitch d').
Proof.
  intros E S Et. cbn [M_Main.step] in E. rewrite loop_run, Et in E. cbn [M_Main.run_task] in E. apply task_100_frame in E; [|exact S].
  destruct E as (p & tx & rx & tel & nx & oa & ob & _ & _ & Em & E). cbv zeta in E. destruct E as (-> & _ & _ & _ & O & _). split; [exact Em|exact O].
Qed.
End Device.

(** ** Exact arithmetic *)
Open Scope R_scope.
Lemma angle_unique t t' : - PI < t <= PI -> - PI < t' <= PI -> cos t = cos t' -> sin t = sin t' -> t = t'.
Proof.
  intros B B' C S. pose proof PI_RGT_0 as HP.
  assert (E : cos (t - t') = 1) by (rewrite cos_minus, <- C, <- S; pose proof (sin2_cos2 t) as H; unfold Rsqr in H; lra).
  assert (K : forall u, 0 < u < 2 * PI -> cos u < 1).
  { intros u Hu. pose proof (COS_bound u) as [_ Hc]. destruct (Rle_lt_or_eq_dec _ _ Hc) as [|Ec]; [assumption|exfalso].
    replace u with (2 * (u / 2)) in Ec by field. rewrite cos_2a_sin in Ec. assert (0 < sin (u / 2)) by (apply sin_gt_0; lra). nra. }
  destruct (Rtotal_order t t') as [H|[H|H]]; [|exact H|].
  - specialize (K (t' - t) ltac:(lra)). replace (t - t') with (- (t' - t)) in E by ring. rewrite cos_neg in E. lra.
  - specialize (K (t - t') ltac:(lra)). lra.
Qed.
Lemma atan2R_polar r t : 0 < r -> - PI < t <= PI -> atan2R (r * sin t) (r * cos t) = t.
Proof.
  intros Hr Ht. destruct (atan2R_spec (r * sin t) (r * cos t)) as [B [C S]].
  replace (r * cos t * (r * cos t) + r * sin t * (r * sin t)) with (r * r) in C, S by (pose proof (sin2_cos2 t) as H; unfold Rsqr in H; replace (r * cos t * (r * cos t) + r * sin t * (r * sin t)) with (r * r * (sin t * sin t + cos t * cos t)) by ring; rewrite H; ring).
  rewrite sqrt_square in C, S by lra. apply Rmult_eq_reg_l in C; [|lra]. apply Rmult_eq_reg_l in S; [|lra]. apply angle_unique; auto.
Qed.

Section Exact.
Context (pf : platform) (oor : conv_policy) (lc : libc NumR).
Context (qsort : list (vpair NumR) -> list (vpair NumR)) (m9 : res (F NumR)) (junk : option (F NumR * F NumR)).
Context (ftext : nat -> F NumR -> list Z) (left_first : bool) (cfg : config).
Notation step := (step NumR TrigR pf oor lc qsort m9 junk ftext left_first cfg).
Notation history := (history NumR TrigR pf oor lc qsort m9 junk ftext left_first cfg).
Notation samples := (samples NumR TrigR pf oor lc qsort m9 junk ftext left_first cfg).

(** The mean [(x, y, _)] of the last 50 samples is gravity [g] seen by a sensor tilted by [tilt] degrees whose
    zero points are 0 and 0.19 m/s^2. *)
Definition tilted (h : list (R * R * R)) (g tilt : R) : Prop :=
  mean_of (axis 0 h) = g * sin (radians tilt) /\ mean_of (axis 1 h) = g * cos (radians tilt) + 19 / 100.
Theorem C141_pitch_is_tilt : forall evs d o0 e d' o g tilt, history (boot NumR) evs = Ok (d, o0) -> step d (Pass e) = Ok (d', o) ->
  the_task NumR d e = Task100ms -> c_sensor cfg = true -> (50 <= length (samples (boot NumR) evs))%nat ->
  tilted (last50 NumR (samples (boot NumR) evs)) g tilt -> 0 < g -> -180 < tilt <= 180 ->
  d_pitch d' = tilt /\ py (t_orient (d_tel d')) = tilt.
Proof.
  intros evs d o0 e d' o g tilt H E Et Hc Hl [Hx Hy] Hg Ht.
  assert (S : sized NumR d) by (eapply history_summary; [exact H|split; reflexivity]).
  destruct (pass_pitch _ _ _ _ _ _ _ _ _ _ _ _ _ _ _ E S Et) as [Em Eo]. rewrite Eo. cbn [py].
  pose proof (history_imu NumR TrigR pf oor lc qsort m9 junk ftext left_first cfg evs _ _ _ H (boot_sized NumR) Hc) as Hf.
  destruct (C53_mean_of_last_50 _ Hl) as (s & Ef & Eg). change (d_imu (boot NumR)) with (imu_init NumR) in Hf. rewrite Ef in Hf. apply Ok1 in Hf. subst s.
  unfold measure_pitch in Em. rewrite Eg in Em. cbn [bind calibrate_acc] in Em. apply Ok1 in Em.
  assert (Ep : d_pitch d' = tilt); [|split; exact Ep]. rewrite <- Em. clear Em Eo Ef Eg.
  cbn [f32 NumR]. match goal with |- ?l = _ => change ((atan2R (mean_of (axis 0 (last50 NumR (samples (boot NumR) evs))) - 0 / 1) (mean_of (axis 1 (last50 NumR (samples (boot NumR) evs))) - 19 / 100) * 180 / PI)%R = tilt) end.
  assert (K0 : forall m0 : R, m0 = g * sin (radians tilt) -> m0 - 0 / 1 = g * sin (radians tilt)) by (intros; lra).
  assert (K1 : forall m1 : R, m1 = g * cos (radians tilt) + 19 / 100 -> m1 - 19 / 100 = g * cos (radians tilt)) by (intros; lra).
  etransitivity; [exact (f_equal2 (fun a b : R => atan2R a b * 180 / PI) (K0 _ Hx) (K1 _ Hy))|]. cbv beta.
  pose proof PI_RGT_0 as HP. rewrite atan2R_polar; [unfold radians; field; lra|exact Hg|].
  unfold radians. split; [|]; nra.
Qed.
End Exact.
Print Assumptions C141_pitch_is_tilt.

(** ** IEEE arithmetic *)
From Flocq Require Import Core.
Lemma atan_le w : 0 <= w -> 0 <= atan w <= w.
Proof.
  intros H. destruct (Req_dec w 0) as [->|Hn]; [rewrite atan_0; lra|].
  destruct (MVT_cor2 atan (fun c => / (1 + c ^ 2)) 0 w ltac:(lra)) as (c & E & _); [intros c _; apply derivable_pt_lim_atan|].
  rewrite atan_0 in E. assert (P : 0 < / (1 + c ^ 2) <= 1).
  { split; [apply Rinv_0_lt_compat; nra|]. rewrite <- Rinv_1. apply Rinv_le_contravar; nra. }
  replace (w - 0) with w in E by ring. replace (atan w - 0) with (atan w) in E by ring. rewrite E. split; nra.
Qed.
Lemma atan_abs w : Rabs (atan w) <= Rabs w.
Proof.
  destruct (Rle_dec 0 w) as [H|H]; [pose proof (atan_le w H); rewrite !Rabs_right by lra; lra|].
  pose proof (atan_le (- w) ltac:(lra)) as K. rewrite atan_opp in K. rewrite !Rabs_left1 by lra. lra.
Qed.
(** a small error of the measured vector is a small error of the angle *)
Lemma small_angle u k : - PI / 2 < u < PI / 2 -> Rabs (sin u) <= k * cos u -> Rabs u <= k.
Proof.
  intros B H. assert (C : 0 < cos u) by (apply cos_gt_0; lra). rewrite <- (atan_tan u) by lra.
  eapply Rle_trans; [apply atan_abs|]. unfold tan, Rdiv. rewrite Rabs_mult, (Rabs_right (/ cos u)) by (left; apply Rinv_0_lt_compat, C).
  apply Rmult_le_reg_r with (cos u); [exact C|]. rewrite Rmult_assoc, Rinv_l, Rmult_1_r by lra. exact H.
Qed.
Lemma atan2R_near g t ex ey : 9 <= g -> Rabs ex <= / 4096 -> Rabs ey <= / 4096 -> Rabs t <= 17 / 18 * PI ->
  Rabs (atan2R (g * sin t + ex) (g * cos t + ey) - t) <= / 16384.
Proof.
  intros Hg Hx Hy Ht. destruct (atan2R_spec (g * sin t + ex) (g * cos t + ey)) as [B [C S]].
  set (a := atan2R _ _) in *. set (r := sqrt _) in *. assert (Hr : 0 <= r) by apply sqrt_pos. clearbody a r.
  pose proof PI_RGT_0 as HP. pose proof PI2_3_2 as HP3. apply Rabs_le_inv in Hx, Hy, Ht.
  assert (E1 : r * sin (a - t) = ex * cos t - ey * sin t) by (rewrite sin_minus; replace (r * (sin a * cos t - cos a * sin t)) with (r * sin a * cos t - r * cos a * sin t) by ring; rewrite C, S; ring).
  assert (E2 : r * cos (a - t) = g + ey * cos t + ex * sin t).
  { rewrite cos_minus. replace (r * (cos a * cos t + sin a * sin t)) with (r * cos a * cos t + r * sin a * sin t) by ring. rewrite C, S.
    pose proof (sin2_cos2 t) as H. unfold Rsqr in H. replace ((g * cos t + ey) * cos t + (g * sin t + ex) * sin t) with (g * (sin t * sin t + cos t * cos t) + ey * cos t + ex * sin t) by ring. rewrite H. ring. }
  pose proof (COS_bound t) as Bc. pose proof (SIN_bound t) as Bs.
  assert (P : forall p q, - / 4096 <= p <= / 4096 -> -1 <= q <= 1 -> - / 4096 <= p * q <= / 4096) by (intros; split; nra).
  pose proof (P _ _ Hx Bc) as P1. pose proof (P _ _ Hy Bs) as P2. pose proof (P _ _ Hy Bc) as P3. pose proof (P _ _ Hx Bs) as P4. clear P.
  assert (Q1 : r * cos (a - t) >= 8) by lra. assert (Q2 : Rabs (r * sin (a - t)) <= / 2048) by (apply Rabs_le; lra).
  assert (Hr0 : 0 < r) by (destruct (Req_dec r 0) as [->|]; lra).
  assert (K : Rabs (sin (a - t)) <= / 16384 * cos (a - t)).
  { apply Rmult_le_reg_l with r; [exact Hr0|]. rewrite <- (Rabs_right r) at 1 by lra. rewrite <- Rabs_mult. lra. }
  assert (C0 : 0 < cos (a - t)) by (apply Rmult_lt_reg_l with r; [exact Hr0|]; lra).
  assert (D : - (35 / 18 * PI) < a - t <= 35 / 18 * PI) by lra. clear E1 E2 P1 P2 P3 P4 C S Q1 Q2. set (u := a - t) in *. clearbody u.
  destruct (Rlt_dec u (- (PI / 2))) as [H1|H1].
  { exfalso. destruct (Rle_dec u (- (3 * (PI / 2)))) as [H2|H2].
    - assert (X : Rabs (u + 2 * PI) <= / 16384).
      { apply small_angle; [split; [|]|rewrite cos_plus, sin_plus, cos_2PI, sin_2PI; replace (sin u * 1 + cos u * 0) with (sin u) by ring; replace (cos u * 1 - sin u * 0) with (cos u) by ring; exact K]; try lra.
        destruct (Rle_lt_or_eq_dec _ _ H2) as [|Eq]; [lra|]. exfalso. rewrite Eq, cos_neg, cos_3PI2 in C0. lra. }
      apply Rabs_le_inv in X. lra.
    - assert (cos u <= 0); [|lra]. rewrite <- cos_neg. apply cos_le_0; lra. }
  destruct (Rlt_dec (PI / 2) u) as [H2|H2].
  { exfalso. destruct (Rle_dec (3 * (PI / 2)) u) as [H3|H3].
    - assert (X : Rabs (u - 2 * PI) <= / 16384).
      { apply small_angle; [split; [|]|rewrite cos_minus, sin_minus, cos_2PI, sin_2PI; replace (sin u * 1 - cos u * 0) with (sin u) by ring; replace (cos u * 1 + sin u * 0) with (cos u) by ring; exact K]; try lra.
        destruct (Rle_lt_or_eq_dec _ _ H3) as [|Eq]; [lra|]. exfalso. rewrite <- Eq, cos_3PI2 in C0. lra. }
      apply Rabs_le_inv in X. lra.
    - assert (cos u <= 0); [|lra]. apply cos_le_0; lra. }
  apply small_angle; [|exact K]. split.
  - destruct (Req_dec u (- (PI / 2))) as [Eq|]; [|lra]. exfalso. rewrite Eq, cos_neg, cos_PI2 in C0. lra.
  - destruct (Req_dec u (PI / 2)) as [Eq|]; [|lra]. exfalso. rewrite Eq, cos_PI2 in C0. lra.
Qed.

Lemma ieee_core (at2 : R -> R -> R) (pi x y mx my g tilt : R) :
  (forall y x, Rabs (at2 y x - atan2R y x) <= bpow radix2 (-20)) -> Rabs (pi - PI) <= bpow radix2 (-30) ->
  Rabs (x - mx) <= bpow radix2 (-13) -> Rabs (y - my) <= bpow radix2 (-13) ->
  mx = g * sin (radians tilt) -> my = g * cos (radians tilt) + 19 / 100 -> 9 <= g <= 11 -> -170 <= tilt <= 170 ->
  Rabs (b32 (b64 (b32 (b64 (b32 (at2 (b32 (b64 (x - b32 (b64 (0 / 1))))) (b32 (b64 (y - b32 (b64 (19 / 100)))))) * b64 180)) / pi)) - tilt) <= 1 / 100.
Proof.
  intros Ha Hpi Hx Hy Emx Emy Hg Ht. pose proof PI_RGT_0 as HP. pose proof PI2_3_2 as HP3. pose proof PI_4 as HP4.
  change (bpow radix2 (-13)) with (/ 8192) in Hx, Hy. change (bpow radix2 (-30)) with (/ 1073741824) in Hpi. apply Rabs_le_inv in Hx, Hy, Hpi.
  pose proof (COS_bound (radians tilt)) as Bc. pose proof (SIN_bound (radians tilt)) as Bs.
  assert (Bx : -12 <= x <= 12) by (split; nra). assert (By : -12 <= y <= 12) by (split; nra).
  (* the two measured components *)
  assert (R64 : forall v, Rabs v <= 16 -> Rabs (b64 v - v) <= / 562949953421312).
  { intros v Hv. pose proof (b64_error 4 v ltac:(lia)) as H. change (bpow radix2 4) with 16 in H. change (bpow radix2 (4 - 53)) with (/ 562949953421312) in H. auto. }
  assert (R32 : forall v, Rabs v <= 16 -> Rabs (b32 v - v) <= / 1048576).
  { intros v Hv. pose proof (b32_error 4 v ltac:(lia)) as H. change (bpow radix2 4) with 16 in H. change (bpow radix2 (4 - 24)) with (/ 1048576) in H. auto. }
  replace (0 / 1) with 0 by field. assert (Z0 : b32 (b64 0) = 0) by (rewrite (b64_of_int 0) by reflexivity; apply (b32_of_int 0); reflexivity). rewrite Z0.
  replace (x - 0) with x by ring.
  assert (X : Rabs (b32 (b64 x) - mx) <= / 4096).
  { pose proof (R64 x ltac:(apply Rabs_le; lra)) as K1. apply Rabs_le_inv in K1. pose proof (R32 (b64 x) ltac:(apply Rabs_le; lra)) as K2. apply Rabs_le_inv in K2. apply Rabs_le. lra. }
  assert (Y : Rabs (b32 (b64 (y - b32 (b64 (19 / 100)))) - (my - 19 / 100)) <= / 4096).
  { pose proof (R64 (19 / 100) ltac:(apply Rabs_le; lra)) as K1. apply Rabs_le_inv in K1. pose proof (R32 (b64 (19 / 100)) ltac:(apply Rabs_le; lra)) as K2. apply Rabs_le_inv in K2.
    set (c := b32 (b64 (19 / 100))) in *. pose proof (R64 (y - c) ltac:(apply Rabs_le; lra)) as K3. apply Rabs_le_inv in K3. pose proof (R32 (b64 (y - c)) ltac:(apply Rabs_le; lra)) as K4. apply Rabs_le_inv in K4. apply Rabs_le. lra. }
  set (xh := b32 (b64 x)) in *. set (yh := b32 (b64 (y - _))) in *. clearbody xh yh. clear Z0.
  (* the angle *)
  assert (Tr : Rabs (radians tilt) <= 17 / 18 * PI) by (unfold radians; apply Rabs_le; split; nra).
  pose proof (atan2R_near g (radians tilt) (xh - mx) (yh - (my - 19 / 100)) ltac:(lra) X Y Tr) as A.
  replace (g * sin (radians tilt) + (xh - mx)) with xh in A by (rewrite Emx; ring).
  replace (g * cos (radians tilt) + (yh - (my - 19 / 100))) with yh in A by (rewrite Emy; ring).
  specialize (Ha xh yh). change (bpow radix2 (-20)) with (/ 1048576) in Ha. set (v := at2 xh yh) in *. clearbody v. set (a := atan2R xh yh) in *. clearbody a.
  apply Rabs_le_inv in A, Ha, Tr. set (t := radians tilt) in *.
  assert (Et : tilt = 180 * t / PI) by (unfold t, radians; field; lra). clearbody t. clear X Y Bx By Hx Hy Emx Emy Bc Bs.
  assert (Bv : -4 <= v <= 4) by lra.
  pose proof (R32 v ltac:(apply Rabs_le; lra)) as K1. apply Rabs_le_inv in K1. set (v1 := b32 v) in *. clearbody v1.
  rewrite (b64_of_int 180) by reflexivity.
  assert (K2 : Rabs (b64 (v1 * 180) - v1 * 180) <= / 8796093022208).
  { pose proof (b64_error 10 (v1 * 180) ltac:(lia)) as H. change (bpow radix2 10) with 1024 in H. change (bpow radix2 (10 - 53)) with (/ 8796093022208) in H. apply H. apply Rabs_le. lra. }
  apply Rabs_le_inv in K2. set (v2 := b64 (v1 * 180)) in *. clearbody v2.
  assert (K3 : Rabs (b32 v2 - v2) <= / 16384).
  { pose proof (b32_error 10 v2 ltac:(lia)) as H. change (bpow radix2 10) with 1024 in H. change (bpow radix2 (10 - 24)) with (/ 16384) in H. apply H. apply Rabs_le. lra. }
  apply Rabs_le_inv in K3. set (v3 := b32 v2) in *. clearbody v3.
  assert (Hp3 : 2.9 <= pi <= 4.1) by lra.
  (* the quotient *)
  assert (Q : Rabs (v3 / pi - tilt) <= / 200).
  { assert (V : Rabs (v3 - 180 * t) <= 0.012) by (apply Rabs_le; lra). apply Rabs_le_inv in V.
    assert (W : v3 / pi - tilt = (v3 - 180 * t) / pi + tilt * (PI - pi) / pi) by (rewrite Et; field; lra). rewrite W. clear W.
    assert (I : 0 < / pi <= 0.345) by (split; [apply Rinv_0_lt_compat; lra|apply Rmult_le_reg_r with pi; [lra|rewrite Rinv_l by lra; lra]]).
    assert (W1 : Rabs ((v3 - 180 * t) / pi) <= 0.0042).
    { unfold Rdiv. rewrite Rabs_mult, (Rabs_right (/ pi)) by lra. assert (Rabs (v3 - 180 * t) <= 0.012) by (apply Rabs_le; lra). pose proof (Rabs_pos (v3 - 180 * t)). nra. }
    assert (W2 : Rabs (tilt * (PI - pi) / pi) <= 0.0001).
    { unfold Rdiv. rewrite !Rabs_mult, (Rabs_right (/ pi)) by lra. assert (Rabs tilt <= 170) by (apply Rabs_le; lra). assert (Rabs (PI - pi) <= / 1073741824) by (apply Rabs_le; lra).
      pose proof (Rabs_pos tilt). pose proof (Rabs_pos (PI - pi)). assert (Rabs tilt * Rabs (PI - pi) <= 170 * / 1073741824) by (apply Rmult_le_compat; lra). nra. }
    apply Rabs_le_inv in W1, W2. apply Rabs_le. lra. }
  apply Rabs_le_inv in Q. set (q := v3 / pi) in *. clearbody q.
  assert (K4 : Rabs (b64 q - q) <= / 35184372088832).
  { pose proof (b64_error 8 q ltac:(lia)) as H. change (bpow radix2 8) with 256 in H. change (bpow radix2 (8 - 53)) with (/ 35184372088832) in H. apply H. apply Rabs_le. lra. }
  apply Rabs_le_inv in K4. set (q1 := b64 q) in *. clearbody q1.
  assert (K5 : Rabs (b32 q1 - q1) <= / 65536).
  { pose proof (b32_error 8 q1 ltac:(lia)) as H. change (bpow radix2 8) with 256 in H. change (bpow radix2 (8 - 24)) with (/ 65536) in H. apply H. apply Rabs_le. lra. }
  apply Rabs_le_inv in K5. apply Rabs_le. lra.
Qed.

Section Ieee.
Context (T : Trig NumB) (pf : platform) (oor : conv_policy) (lc : libc NumB).
Context (qsort : list (vpair NumB) -> list (vpair NumB)) (m9 : res (F NumB)) (junk : option (F NumB * F NumB)).
Context (ftext : nat -> F NumB -> list Z) (left_first : bool) (cfg : config).
Notation step := (step NumB T pf oor lc qsort m9 junk ftext left_first cfg).
Notation history := (history NumB T pf oor lc qsort m9 junk ftext left_first cfg).
Notation samples := (samples NumB T pf oor lc qsort m9 junk ftext left_first cfg).
(** what is asked of the library: atan2 within 2^-20, PI within 2^-30 *)
Definition good_atan2 : Prop := (forall y x : R, Rabs (tatan2 T y x - atan2R y x) <= bpow radix2 (-20)) /\ Rabs (tpi T - PI) <= bpow radix2 (-30).
Theorem C141_pitch_ieee : good_atan2 -> forall evs d o0 e d' o g tilt, history (boot NumB) evs = Ok (d, o0) -> step d (Pass e) = Ok (d', o) ->
  the_task NumB d e = Task100ms -> c_sensor cfg = true -> (50 <= length (samples (boot NumB) evs))%nat ->
  (forall t, In t (samples (boot NumB) evs) -> let '(x, y, z) := t in Rabs x <= 20 /\ Rabs y <= 20 /\ Rabs z <= 20) ->
  tilted (last50 NumB (samples (boot NumB) evs)) g tilt -> 9 <= g <= 11 -> -170 <= tilt <= 170 ->
  Rabs (d_pitch d' - tilt) <= 1 / 100.
Proof.
  intros [Ha Hpi] evs d o0 e d' o g tilt H E Et Hc Hl Hb [Hx Hy] Hg Ht.
  assert (S : sized NumB d) by (eapply history_summary; [exact H|split; reflexivity]).
  destruct (pass_pitch _ _ _ _ _ _ _ _ _ _ _ _ _ _ _ E S Et) as [Em _].
  pose proof (history_imu NumB T pf oor lc qsort m9 junk ftext left_first cfg evs _ _ _ H (boot_sized NumB) Hc) as Hf.
  destruct (C53_rounding _ Hl Hb) as (s & x & y & z & Ef & Eg & Bx & By & _). change (d_imu (boot NumB)) with (imu_init NumB) in Hf. rewrite Ef in Hf. apply Ok1 in Hf. subst s.
  unfold measure_pitch in Em. rewrite Eg in Em. cbn [bind calibrate_acc] in Em. apply Ok1 in Em. rewrite <- Em. clear Em Ef Eg Hl Hb E H.
  exact (ieee_core (tatan2 T) (tpi T) x y _ _ g tilt Ha Hpi Bx By Hx Hy Hg Ht).
Qed.
End Ieee.
Print Assumptions C141_pitch_ieee.

(** ** Non-vacuity: 50 samples in a second and a half, then the 100 ms task; the tube is tilted by 30 degrees *)
Section Example.
Context (N : Num) (T : Trig N) (pf : platform) (oor : conv_policy) (lc : libc N).
Context (qsort : list (vpair N) -> list (vpair N)) (m9 : res (F N)) (junk : option (F N * F N)).
Context (ftext : nat -> F N -> list Z) (left_first : bool) (sample : F N * F N * F N).
Open Scope Z_scope.
Definition a_pass (now : Z) : event N := Pass (Env N now sample (0, 0) false false false None [] [] [] true (fZ N 20)).
Definition with_sensor : config := Config true false false false.
Definition warm_up : list (event N) := map (fun k => a_pass (30000 * (1 + Z.of_nat k))) (seq 0 50) ++ [a_pass 1500100].
(** the 100 ms task always comes to its end when there is nothing else to do in it *)
Lemma quiet_runs evs ts now n : (0 < n)%nat -> evs = map a_pass ts -> (n <= 50)%nat ->
  (exists d o k, history N T pf oor lc qsort m9 junk ftext left_first with_sensor (boot N) evs = Ok (d, o) /\ samples N T pf oor lc qsort m9 junk ftext left_first with_sensor (boot N) evs = repeat sample n /\ select (d_timers d) now = (Task100ms, k)) ->
  exists d o d' o', history N T pf oor lc qsort m9 junk ftext left_first with_sensor (boot N) evs = Ok (d, o) /\
  step N T pf oor lc qsort m9 junk ftext left_first with_sensor d (a_pass now) = Ok (d', o') /\
  (exists e, a_pass now = Pass e /\ the_task N d e = Task100ms) /\
  samples N T pf oor lc qsort m9 junk ftext left_first with_sensor (boot N) evs = repeat sample n.
Proof.
  intros Hn Ee Hn50 (d & o & k & H & Hs & Et).
  pose proof (history_imu N T pf oor lc qsort m9 junk ftext left_first with_sensor evs _ _ _ H (boot_sized N) eq_refl) as Hf. rewrite Hs in Hf.
  destruct (feed_ring N (repeat sample n) (imu_init N) (repeat (zero3 N) 50)) as (s & F1 & R1); [cbn; lia|exact (ring_init N)|].
  change (d_imu (boot N)) with (imu_init N) in Hf. rewrite F1 in Hf. apply Ok1 in Hf. subst s.
  destruct (mean_spec N _ _ R1) as (A & B & _ & M).
  assert (P : exists p, measure_pitch N T (set_timers N d k) = Ok p).
  { unfold measure_pitch. change (d_imu (set_timers N d k)) with (d_imu d). rewrite M. cbn [bind calibrate_acc]. eauto. }
  destruct P as [p P]. exists d, o. do 2 eexists. split; [exact H|]. split.
  - unfold a_pass. cbn [M_Main.step]. unfold loop. cbn [e_now]. rewrite Et. cbn [M_Main.run_task]. unfold task_100ms. rewrite P. cbn [bind e_up_read]. rewrite andb_false_r. cbn [bind with_sensor c_mqtt c_wifi]. reflexivity.
  - split; [|exact Hs]. eexists. split; [reflexivity|]. unfold the_task. cbn [e_now]. rewrite Et. reflexivity.
Qed.
Lemma warm_up_runs : exists d o d' o', history N T pf oor lc qsort m9 junk ftext left_first with_sensor (boot N) warm_up = Ok (d, o) /\
  step N T pf oor lc qsort m9 junk ftext left_first with_sensor d (a_pass 1500200) = Ok (d', o') /\
  (exists e, a_pass 1500200 = Pass e /\ the_task N d e = Task100ms) /\
  samples N T pf oor lc qsort m9 junk ftext left_first with_sensor (boot N) warm_up = repeat sample 50.
Proof.
  apply (quiet_runs warm_up (map (fun k => 30000 * (1 + Z.of_nat k)) (seq 0 50) ++ [1500100]) 1500200 50); [lia|unfold warm_up; rewrite map_app, map_map; reflexivity|lia|].
  unfold warm_up, a_pass. destruct sample as [[x y] z]. do 3 eexists. split; [vm_compute; reflexivity|]. split; vm_compute; reflexivity.
Qed.
End Example.
Lemma mean_repeat k v : (0 < k)%nat -> mean_of (repeat v k) = v.
Proof.
  intros H. unfold mean_of. rewrite repeat_length. assert (E : sumR (repeat v k) = IZR (Z.of_nat k) * v).
  { clear H. induction k as [|k IH]; [cbn; ring|]. cbn [repeat]. unfold sumR in *. cbn [fold_right]. rewrite IH, Nat2Z.inj_succ, succ_IZR. ring. }
  rewrite E. field. apply not_0_IZR. lia.
Qed.
Example C141_nonvacuous : forall pf oor lc qsort m9 junk ftext left_first,
  exists evs d o0 e d' o, history NumR TrigR pf oor lc qsort m9 junk ftext left_first with_sensor (boot NumR) evs = Ok (d, o0) /\
    step NumR TrigR pf oor lc qsort m9 junk ftext left_first with_sensor d (Pass e) = Ok (d', o) /\ the_task NumR d e = Task100ms /\
    tilted (last50 NumR (samples NumR TrigR pf oor lc qsort m9 junk ftext left_first with_sensor (boot NumR) evs)) 9.81 30 /\ d_pitch d' = 30.
Proof.
  intros. set (s := (9.81 * sin (radians 30), 9.81 * cos (radians 30) + 19 / 100, 0.3) : F NumR * F NumR * F NumR).
  destruct (warm_up_runs NumR TrigR pf oor lc qsort m9 junk ftext left_first s) as (d & o & d' & o' & H1 & H2 & (e & Ee & H3) & H4). rewrite Ee in H2.
  assert (Ht : tilted (last50 NumR (samples NumR TrigR pf oor lc qsort m9 junk ftext left_first with_sensor (boot NumR) (warm_up NumR s))) 9.81 30).
  { rewrite H4. unfold last50. rewrite repeat_length. cbn [Nat.sub]. replace (skipn 0 (repeat s 50)) with (repeat s 50) by reflexivity.
    split; unfold axis; [transitivity (mean_of (repeat (9.81 * sin (radians 30)) 50))|transitivity (mean_of (repeat (9.81 * cos (radians 30) + 19 / 100) 50))]; try (apply mean_repeat; lia); reflexivity. }
  exists (warm_up NumR s), d, o, e, d', o'. split; [exact H1|]. split; [exact H2|]. split; [exact H3|]. split; [exact Ht|].
  refine (proj1 (C141_pitch_is_tilt pf oor lc qsort m9 junk ftext left_first with_sensor _ _ _ _ _ _ 9.81 30 H1 H2 H3 eq_refl _ Ht _ _)); [rewrite H4; cbn; lia|lra|lra].
Qed.

(** the calibration takes the zero points of the three axes off the measured acceleration *)
Theorem C141_zero_points : forall gx gy gz : R, calibrate_acc NumR (gx, gy + 19 / 100, gz - 18 / 100) = (gx, gy, gz).
Proof. intros. unfold calibrate_acc. cbn [f32 fsub fq NumR]. apply f_equal2; [apply f_equal2|]; change (F NumR) with R; lra. Qed.
Print Assumptions C141_zero_points.

(** ** C142: the pitch while the first second lasts.  The missing samples count as zero but the zero point is taken off
    in full, so the pitch is that of [n]/50 of gravity at a wrong zero point. *)
Section Start.
Context (pf : platform) (oor : conv_policy) (lc : libc NumR).
Context (qsort : list (vpair NumR) -> list (vpair NumR)) (m9 : res (F NumR)) (junk : option (F NumR * F NumR)).
Context (ftext : nat -> F NumR -> list Z) (left_first : bool) (cfg : config).
Notation step := (step NumR TrigR pf oor lc qsort m9 junk ftext left_first cfg).
Notation history := (history NumR TrigR pf oor lc qsort m9 junk ftext left_first cfg).
Notation samples := (samples NumR TrigR pf oor lc qsort m9 junk ftext left_first cfg).
Lemma sum_mean l : sumR l = IZR (Z.of_nat (length l)) * mean_of l.
Proof. unfold mean_of. destruct l as [|x l]; [cbn; ring|]. field. apply not_0_IZR. cbn [length]. lia. Qed.
Theorem C142_start_up_pitch_partial : forall evs d o0 e d' o g tilt, history (boot NumR) evs = Ok (d, o0) -> step d (Pass e) = Ok (d', o) ->
  the_task NumR d e = Task100ms -> c_sensor cfg = true -> (length (samples (boot NumR) evs) < 50)%nat ->
  (samples (boot NumR) evs <> [] -> tilted (samples (boot NumR) evs) g tilt) ->
  let part := IZR (Z.of_nat (length (samples (boot NumR) evs))) / 50 in
  d_pitch d' = atan2R (part * (g * sin (radians tilt))) (part * (g * cos (radians tilt)) - (1 - part) * (19 / 100)) * 180 / PI.
Proof.
  intros evs d o0 e d' o g tilt H E Et Hc Hl Ht. cbv zeta.
  assert (S : sized NumR d) by (eapply history_summary; [exact H|split; reflexivity]).
  destruct (pass_pitch _ _ _ _ _ _ _ _ _ _ _ _ _ _ _ E S Et) as [Em _].
  pose proof (history_imu NumR TrigR pf oor lc qsort m9 junk ftext left_first cfg evs _ _ _ H (boot_sized NumR) Hc) as Hf.
  destruct (C82_start_up_mean_partial _ Hl) as (s & Ef & Eg). change (d_imu (boot NumR)) with (imu_init NumR) in Hf. rewrite Ef in Hf. apply Ok1 in Hf. subst s.
  unfold measure_pitch in Em. rewrite Eg in Em. cbn [bind calibrate_acc] in Em. apply Ok1 in Em. rewrite <- Em. clear Em Ef Eg H E S Et.
  revert Ht Hl. generalize (samples (boot NumR) evs). intros l Ht Hl. cbn [f32 NumR].
  assert (K : sumR (axis 0 l) / 50 - 0 / 1 = IZR (Z.of_nat (length l)) / 50 * (g * sin (radians tilt)) /\
              sumR (axis 1 l) / 50 - 19 / 100 = IZR (Z.of_nat (length l)) / 50 * (g * cos (radians tilt)) - (1 - IZR (Z.of_nat (length l)) / 50) * (19 / 100)).
  { destruct l as [|t l]; [unfold axis, sumR; cbn [map fold_right length Z.of_nat]; change (fZ NumR 0) with 0; change (F NumR) with R; split; lra|].
    rewrite !sum_mean. assert (L : forall k, length (axis k (t :: l)) = length (t :: l)) by (intros k; unfold axis; apply map_length). rewrite !L.
    destruct (Ht ltac:(discriminate)) as [Hx Hy].
    assert (K0 : forall n m v : R, m = v -> n * m / 50 - 0 / 1 = n / 50 * v) by (intros n m v ->; field).
    assert (K1 : forall n m v : R, m = v + 19 / 100 -> n * m / 50 - 19 / 100 = n / 50 * v - (1 - n / 50) * (19 / 100)) by (intros n m v ->; field).
    split; [exact (K0 _ _ _ Hx)|exact (K1 _ _ _ Hy)]. }
  destruct K as [K0 K1]. exact (f_equal2 (fun a b : R => atan2R a b * 180 / PI) K0 K1).
Qed.
End Start.
Lemma first_passes : forall (N : Num) (T : Trig N) pf oor (lc : libc N) qsort m9 junk ftext left_first (sample : F N * F N * F N), exists d o d' o',
  history N T pf oor lc qsort m9 junk ftext left_first with_sensor (boot N) [a_pass N sample 2000000; a_pass N sample 2000100] = Ok (d, o) /\
  step N T pf oor lc qsort m9 junk ftext left_first with_sensor d (a_pass N sample 2000200) = Ok (d', o') /\
  (exists e, a_pass N sample 2000200 = Pass e /\ the_task N d e = Task100ms) /\
  samples N T pf oor lc qsort m9 junk ftext left_first with_sensor (boot N) [a_pass N sample 2000000; a_pass N sample 2000100] = [sample].
Proof.
  intros. apply (quiet_runs N T pf oor lc qsort m9 junk ftext left_first sample _ [2000000; 2000100]%Z 2000200 1); [lia|reflexivity|lia|].
  unfold a_pass. destruct sample as [[x y] z]. do 3 eexists. split; [vm_compute; reflexivity|]. split; vm_compute; reflexivity.
Qed.
(** the first three passes after a start of two seconds, the tube at rest at 30 degrees: the pitch is more than 90 degrees *)
Theorem C142_start_up_pitch_refuted : forall pf oor lc qsort m9 junk ftext left_first,
  exists evs d o0 e d' o, history NumR TrigR pf oor lc qsort m9 junk ftext left_first with_sensor (boot NumR) evs = Ok (d, o0) /\
    step NumR TrigR pf oor lc qsort m9 junk ftext left_first with_sensor d (Pass e) = Ok (d', o) /\ the_task NumR d e = Task100ms /\
    samples NumR TrigR pf oor lc qsort m9 junk ftext left_first with_sensor (boot NumR) evs <> [] /\
    (forall t, In t (samples NumR TrigR pf oor lc qsort m9 junk ftext left_first with_sensor (boot NumR) evs) -> tilted [t] 9.81 30) /\ d_pitch d' > 90.
Proof.
  intros. set (s := (9.81 * sin (radians 30), 9.81 * cos (radians 30) + 19 / 100, 0) : F NumR * F NumR * F NumR).
  destruct (first_passes NumR TrigR pf oor lc qsort m9 junk ftext left_first s) as (d & o & d' & o' & H1 & H2 & (e & Ee & H3) & H4). rewrite Ee in H2.
  assert (Hs : tilted [s] 9.81 30) by (split; unfold s, axis, mean_of, sumR; cbn [map fold_right length Z.of_nat Pos.of_succ_nat]; field).
  eexists. exists d, o, e, d', o'. split; [exact H1|]. split; [exact H2|]. split; [exact H3|]. split.
  - rewrite H4. discriminate.
  - split. { intros t Ht. rewrite H4 in Ht. destruct Ht as [<-|[]]. exact Hs. }
    pose proof (C142_start_up_pitch_partial pf oor lc qsort m9 junk ftext left_first with_sensor _ _ _ _ _ _ 9.81 30 H1 H2 H3 eq_refl) as P.
    rewrite H4 in P. specialize (P ltac:(cbn; lia) (fun _ => Hs)). cbv zeta in P. cbn [length Z.of_nat Pos.of_succ_nat] in P. rewrite P. clear.
    set (y := 1 / 50 * (9.81 * sin (radians 30))). set (x := 1 / 50 * (9.81 * cos (radians 30)) - (1 - 1 / 50) * (19 / 100)).
    assert (R30 : radians 30 = PI / 6) by (unfold radians; field). unfold y, x. rewrite R30, sin_PI6, cos_PI6. clear x y.
    set (y := 1 / 50 * (9.81 * (1 / 2))). set (x := 1 / 50 * (9.81 * (sqrt 3 / 2)) - (1 - 1 / 50) * (19 / 100)).
    assert (Q : sqrt 3 < 1.8). { apply Rsqr_incrst_0; [|apply sqrt_pos|lra]. rewrite Rsqr_sqrt by lra. unfold Rsqr. lra. }
    assert (Hx : x < 0) by (unfold x; lra). assert (Hy : 0 < y) by (unfold y; lra).
    destruct (atan2R_spec y x) as [B [C S]]. set (t := atan2R y x) in *. assert (Hr : 0 <= sqrt (x * x + y * y)) by apply sqrt_pos.
    pose proof PI_RGT_0 as HP. assert (Ht : PI / 2 < t).
    { apply Rnot_le_lt. intros Hle. destruct (Rlt_le_dec t (- (PI / 2))) as [Hn|Hn].
      - assert (sin t < 0) by (apply sin_lt_0_var; lra). nra.
      - assert (0 <= cos t) by (apply cos_ge_0; lra). nra. }
    apply Rlt_gt. apply (Rmult_lt_reg_r PI); [lra|]. unfold Rdiv. rewrite Rmult_assoc, Rinv_l by lra. lra.
Qed.
Print Assumptions C142_start_up_pitch_partial. Print Assumptions C142_start_up_pitch_refuted.
