(** server.ts:101-139 fromHorizontalPosition with every operation rounded (NumB) and on actual doubles (NumSF), compared with
    telescope.cpp:73-94 horizontalToEquatorial. *)
From Verif Require Import Base Num M_Helper M_Telescope M_Node S_Sky S_SkyIEEE P_Sky P_SkyIEEE P_SkyIEEE2 P_Round P_Helper2 P_NumCorr S_Libm P_Libm P_Finite P_LstFinite.
From Coq Require Import Reals Lra Lia Floats.SpecFloat.
From Flocq Require Import Core.
Open Scope R_scope.

Section Libm.
Context (T : Trig NumB) (GL : good_libm T).
Lemma js_deg_err v : Rabs v <= 4 -> Rabs (js_deg NumB T v - v * 180 / PI) <= bpow radix2 (-41).
Proof.
  intros Hv. unfold js_deg. cbn [fmul fdiv fZ NumB]. rewrite (b64_of_int 180) by lia. pose proof (tpi_b T GL) as [P1 P2]. pose proof PI_lo. pose proof PI_hi.
  set (p := tpi T) in *. clearbody p. simpl bpow in P1, P2.
  assert (Ip : 0 < / p <= 4 / 11) by (split; [apply Rinv_0_lt_compat; lra|replace (4 / 11) with (/ (11 / 4)) by field; apply Rinv_le_contravar; lra]).
  assert (IP : 0 < / PI <= / 3) by (split; [apply Rinv_0_lt_compat; lra|apply Rinv_le_contravar; lra]).
  assert (E1 : Rabs (v / p - v / PI) <= 4 * (/ 1125899906842624 * (4 / 11 * / 3))).
  { replace (v / p - v / PI) with (v * ((PI - p) * (/ p * / PI))) by (field; lra). rewrite Rabs_mult, (Rabs_mult (PI - p)).
    assert (I2 : Rabs (/ p * / PI) <= 4 / 11 * / 3) by (rewrite Rabs_mult, (Rabs_pos_eq (/ p)), (Rabs_pos_eq (/ PI)) by lra; apply Rmult_le_compat; lra).
    apply Rmult_le_compat; [apply Rabs_pos|apply Rmult_le_pos; apply Rabs_pos|exact Hv|]. apply Rmult_le_compat; [apply Rabs_pos|apply Rabs_pos|apply Rabs_le; lra|exact I2]. }
  assert (B1 : Rabs (v / PI) <= 4 / 3).
  { unfold Rdiv. rewrite Rabs_mult, (Rabs_pos_eq (/ PI)) by lra. apply Rmult_le_compat; try apply Rabs_pos; lra. }
  pose proof (rnd_err 1 _ _ _ ltac:(lia) E1) as Q. simpl bpow in Q. specialize (Q ltac:(lra)).
  set (w := b64 (v / p)) in *. clearbody w.
  assert (E2 : Rabs (w * 180 - v * 180 / PI) <= 180 * (/ 1125899906842624)).
  { replace (w * 180 - v * 180 / PI) with ((w - v / PI) * 180) by (field; lra). rewrite Rabs_mult, (Rabs_pos_eq 180) by lra. lra. }
  assert (B2 : Rabs (v * 180 / PI) <= 240).
  { replace (v * 180 / PI) with (v / PI * 180) by (field; lra). rewrite Rabs_mult, (Rabs_pos_eq 180) by lra. lra. }
  pose proof (rnd_err 8 _ _ _ ltac:(lia) E2) as Q2. simpl bpow in Q2. eapply Rle_trans; [apply Q2; lra|]. simpl bpow. lra.
Qed.

(** the same library: the position of the Node server, in degrees, and that of the firmware *)
Lemma node_close t (a e p l : R) : Rabs l <= 4000 ->
  let q := position NumB (fromHorizontalPosition NumB T t a e p l) in let f := horizontalToEquatorial NumB T a e p l in
  Rabs (dec q - dec f) <= bpow radix2 (-40) /\ (exists k : Z, Rabs (15 * ra q - (ra f + 360 * IZR k)) <= 5 / 10 ^ 12) /\
  (0 <= l < 360 -> 0 <= ra q <= 41).
Proof.
  intros Hl. cbv zeta. unfold fromHorizontalPosition, horizontalToEquatorial. cbv zeta. cbn [position ra dec].
  change (js_rad NumB T) with (rad NumB T).
  destruct GL as (_ & _ & G & _).
  unfold rot_x, rot_y, rot_z.
  set (x := fadd NumB _ (fmul NumB (tsin T (rad NumB T e)) (tcos T (rad NumB T p)))). set (y := fmul NumB (fneg NumB (tsin T _)) _). set (z := fadd NumB _ (fmul NumB (tsin T (rad NumB T e)) (tsin T (rad NumB T p)))).
  set (r := fsqrt NumB _). set (ha := if feq NumB r (fZ NumB 0) then fZ NumB 0 else tatan2 T y x). set (de := tatan2 T z r).
  assert (B1 : Rabs ha <= 4). { unfold ha. destruct (feq NumB r (fZ NumB 0)); [|apply G]. cbn [fZ NumB]. rewrite (b64_of_int 0) by lia. rewrite Rabs_R0. lra. }
  assert (B2 : Rabs de <= 4) by apply G. clearbody ha de. clear x y z r.
  pose proof PI_lo as PL. pose proof PI_hi as PH.
  destruct (deg_err T GL ha ltac:(lra)) as [D1 _]. destruct (deg_err T GL de ltac:(lra)) as [D2 _].
  pose proof (js_deg_err ha B1) as J1. pose proof (js_deg_err de B2) as J2.
  set (g := deg NumB T ha) in *. set (s := js_deg NumB T ha) in *. set (h := ha * 180 / PI) in *.
  assert (Bh : Rabs h <= 240).
  { unfold h. replace (ha * 180 / PI) with (ha * (180 / PI)) by (field; lra). replace 240 with (4 * 60) by lra. rewrite Rabs_mult. apply Rmult_le_compat; try apply Rabs_pos; [exact B1|].
    rewrite Rabs_pos_eq by (apply Rlt_le, Rdiv_lt_0_compat; lra). apply Rmult_le_reg_r with PI; [lra|]. field_simplify; lra. }
  split.
  { replace (js_deg NumB T de - deg NumB T de) with ((js_deg NumB T de - de * 180 / PI) - (deg NumB T de - de * 180 / PI)) by (change (F NumB) with R; ring).
    eapply Rle_trans; [apply Rabs_triang|]. rewrite Rabs_Ropp. simpl bpow in *. lra. }
  clearbody g s h. clear D2 J2 B2 de. 
  cbn [fsub fmul fdiv fadd flt fZ NumB]. unfold js_degToHours. cbn [fsub fmul fdiv fZ NumB]. rewrite ?(b64_of_int 360), ?(b64_of_int 24), ?(b64_of_int 0) by lia.
  simpl bpow in *. apply Rabs_le_inv in D1, J1, Bh, Hl.
  change (F NumB) with R in *.
  (* the firmware *)
  assert (E0 : exists m, b64 (l - g) = m /\ l - h - 1 / 10 ^ 12 <= m <= l - h + 1 / 10 ^ 12).
  { step 13%Z (l - g) H1. exists y. split; [reflexivity|]. lra. }
  destruct E0 as (m & -> & Hm). destruct (f_mod_B m) as (k & Hk & _). { apply Rabs_le. lra. }
  apply Rabs_le_inv in Hk. set (RR := f_mod NumB m 360) in *. clearbody RR.
  (* the server *)
  step 13%Z (l - s) H1. step 4%Z (y / 360) H2. step 9%Z (y0 * 24) H3.
  assert (K1 : l - h - 2 / 10 ^ 12 <= 15 * y1 <= l - h + 2 / 10 ^ 12) by lra.
  destruct (Rlt_bool_spec y1 0) as [L|L].
  - step 9%Z (y1 + 24) H4. split.
    + exists (1 - k)%Z. rewrite minus_IZR. apply Rabs_le. lra.
    + intros H0. lra.
  - split.
    + exists (- k)%Z. rewrite opp_IZR. apply Rabs_le. lra.
    + intros H0. lra.
Qed.
End Libm.

Section Doubles.
Context (T : Trig NumSF) (HT : c_libm T).
Notation LB := (libB T).
Lemma mb_js_deg b n s x : (0 <= n <= 100)%Z -> mb n s x -> mb (n + 7) (js_deg NumSF T s) (js_deg NumB (LB b) x).
Proof.
  intros Hn M. unfold js_deg. cbn [fmul fdiv NumSF NumB]. replace (n + 7)%Z with ((n - 1) + 8)%Z by lia. apply mb_mul; [lia| |].
  - apply (mb_div n 1); [lia|exact M|apply pi_agrees; exact HT|]. pose proof (pi_close T HT b). change (F NumB) with R in *. simpl bpow. rewrite Rabs_pos_eq; lra.
  - apply mbZ; [lia|]. rewrite Rabs_pos_eq by lra. simpl bpow. lra.
Qed.
Lemma node_agrees (t : ntele NumSF) (t' : ntele NumB) a e p l (a' e' p' l' : R) : means a a' -> means e e' -> means p p' -> means l l' ->
  Rabs a' <= 4000 -> Rabs e' <= 4000 -> Rabs p' <= 4000 -> Rabs l' <= 4000 ->
  exists b, means (ra (position NumSF (fromHorizontalPosition NumSF T t a e p l))) (ra (position NumB (fromHorizontalPosition NumB (LB b) t' a' e' p' l'))) /\
    means (dec (position NumSF (fromHorizontalPosition NumSF T t a e p l))) (dec (position NumB (fromHorizontalPosition NumB (LB b) t' a' e' p' l'))).
Proof.
  intros Ma Me Mp Ml Ba Be Bp Bl.
  assert (I1 : forall b x, tsin (LB b) x = tsin (LB false) x) by reflexivity. assert (I2 : forall b x, tcos (LB b) x = tcos (LB false) x) by reflexivity.
  assert (I3 : forall b x, rad NumB (LB b) x = rad NumB (LB false) x) by reflexivity.
  destruct (mb_rad T HT false a a' Ma Ba) as [Ma1 Ba1]. destruct (mb_rad T HT false e e' Me Be) as [Md1 Bd1]. destruct (mb_rad T HT false p p' Mp Bp) as [Mp1 Bp1].
  destruct (core T HT (tsin T (rad NumSF T a)) (tcos T (rad NumSF T a)) (tsin T (rad NumSF T e)) (tcos T (rad NumSF T e)) (tsin T (rad NumSF T p)) (tcos T (rad NumSF T p))
    (tsin (LB false) (rad NumB (LB false) a')) (tcos (LB false) (rad NumB (LB false) a')) (tsin (LB false) (rad NumB (LB false) e')) (tcos (LB false) (rad NumB (LB false) e')) (tsin (LB false) (rad NumB (LB false) p')) (tcos (LB false) (rad NumB (LB false) p'))) as (b & C1 & C2);
    [apply sin_agrees; [exact HT|apply Ma1|assumption]|apply cos_agrees; [exact HT|apply Ma1|assumption]|apply sin_agrees; [exact HT|apply Md1|assumption]|apply cos_agrees; [exact HT|apply Md1|assumption]
    |apply sin_agrees; [exact HT|apply Mp1|assumption]|apply cos_agrees; [exact HT|apply Mp1|assumption]|].
  exists b. unfold fromHorizontalPosition. cbv zeta. cbn [position ra dec]. change (js_rad NumSF T) with (rad NumSF T). change (js_rad NumB (LB b)) with (rad NumB (LB b)).
  rewrite !I3, !I1, !I2. cbv zeta in C1, C2. unfold rot_x, rot_y, rot_z in C1, C2.
  split; [|apply (mb_js_deg b 2); [lia|exact C2]].
  set (ha := if feq NumSF _ _ then _ else _) in C1 |- *. set (ha' := if feq NumB _ _ then _ else _) in C1 |- *.
  assert (K : mb 18 (js_degToHours NumSF (fsub NumSF l (js_deg NumSF T ha))) (js_degToHours NumB (fsub NumB l' (js_deg NumB (LB b) ha')))).
  { unfold js_degToHours. apply (mb_mul 13 5); [lia| |].
    - apply mb_divZ; [lia| |lia]. cbn [fsub NumSF NumB]. apply (mb_sub 12); [lia|split; [exact Ml|simpl bpow; lra]|]. eapply (mb_weaken 9); [lia|]. apply (mb_js_deg b 2); [lia|exact C1].
    - apply mbZ; [lia|]. rewrite Rabs_pos_eq by lra. simpl bpow. lra. }
  revert K. generalize (js_degToHours NumSF (fsub NumSF l (js_deg NumSF T ha))), (js_degToHours NumB (fsub NumB l' (js_deg NumB (LB b) ha'))). intros h h' K.
  cbn [flt fadd NumSF NumB]. rewrite (means_lt h (fZ NumSF 0) h' (fZ NumB 0)); [|apply K|apply meansZ; lia].
  destruct (Rlt_bool h' (fZ NumB 0)); [|apply K].
  apply (mb_add 18); [lia|exact K|]. apply mbZ; [lia|]. rewrite Rabs_pos_eq by lra. simpl bpow. lra.
Qed.
End Doubles.
