(** Julian day and sidereal time. *)
From Verif Require Import Base Num M_Helper S_Helper P_Round.
From Coq Require Import Reals Lra Psatz Floats.SpecFloat.
From Flocq Require Import Core.
Open Scope Z_scope.

(** the closed form the code computes *)
Definition jdn (y m d : Z) : Z :=
  let '(y, m) := if m <=? 2 then (y - 1, m + 12) else (y, m) in
  1461 * (y + 4716) / 4 + 306001 * (m + 1) / 10000 + d + (2 - y / 100 + y / 100 / 4) - 1524.

Lemma jdn_epoch : jdn 2000 1 1 = 2451545. Proof. reflexivity. Qed.

Ltac Zmod2div := repeat match goal with
  | |- context [?a mod ?b] => rewrite (Zmod_eq_full a b) by lia
  end.

Lemma jdn_next d : valid_date d ->
  jdn (d_year (next_day d)) (d_month (next_day d)) (d_day (next_day d)) = jdn (d_year d) (d_month d) (d_day d) + 1.
Proof.
  destruct d as [y m d]. intros [Hm Hd]. cbn [d_year d_month d_day] in *. unfold next_day. cbn [d_year d_month d_day].
  destruct (Z.ltb_spec d (month_length y m)) as [H|H].
  - cbn [d_year d_month d_day]. unfold jdn. destruct (m <=? 2); lia.
  - assert (d = month_length y m) by lia. subst d. clear Hd H.
    destruct (Z.ltb_spec m 12) as [H|H]; cbn [d_year d_month d_day].
    + assert (E : m = 1 \/ m = 2 \/ m = 3 \/ m = 4 \/ m = 5 \/ m = 6 \/ m = 7 \/ m = 8 \/ m = 9 \/ m = 10 \/ m = 11) by lia.
      destruct E as [ -> |[ -> |[ -> |[ -> |[ -> |[ -> |[ -> |[ -> |[ -> |[ -> | -> ]]]]]]]]]]; try (unfold jdn, month_length; simpl Z.leb; cbn -[Z.div Z.mul Z.add Z.sub];
        repeat match goal with |- context [306001 * ?e / 10000] => let v := eval vm_compute in (306001 * e / 10000) in change (306001 * e / 10000) with v end; lia).
      unfold jdn, month_length, leap. change (2 =? 2) with true. change (2 <=? 2) with true. change (2 + 1 <=? 2) with false. cbv iota.
      change (306001 * (2 + 1 + 1) / 10000) with 122. change (306001 * (2 + 12 + 1) / 10000) with 459.
      assert (E4 := Z.div_mod y 4 ltac:(lia)). assert (B4 := Z.mod_pos_bound y 4 ltac:(lia)).
      rewrite !Z.div_div by lia. change (100 * 4) with 400.
      assert (E100 := Z.div_mod y 100 ltac:(lia)). assert (B100 := Z.mod_pos_bound y 100 ltac:(lia)).
      assert (E400 := Z.div_mod y 400 ltac:(lia)). assert (B400 := Z.mod_pos_bound y 400 ltac:(lia)).
      set (q4 := y / 4) in *. set (r4 := y mod 4) in *. set (q100 := y / 100) in *. set (r100 := y mod 100) in *.
      set (q400 := y / 400) in *. set (r400 := y mod 400) in *.
      assert (D1 : 1461 * (y + 4716) / 4 = 365 * y + q4 + 1461 * 1179).
      { symmetry. apply Z.div_unique with r4; lia. }
      assert (D2 : 1461 * (y - 1 + 4716) / 4 = 365 * y + 1461 * 1179 - 365 + (if r4 =? 0 then q4 - 1 else q4)).
      { destruct (Z.eqb_spec r4 0); symmetry; [apply Z.div_unique with 3|apply Z.div_unique with (r4 - 1)]; lia. }
      assert (D3 : (y - 1) / 100 = if r100 =? 0 then q100 - 1 else q100).
      { destruct (Z.eqb_spec r100 0); symmetry; [apply Z.div_unique with 99|apply Z.div_unique with (r100 - 1)]; lia. }
      assert (D4 : (y - 1) / 400 = if r400 =? 0 then q400 - 1 else q400).
      { destruct (Z.eqb_spec r400 0); symmetry; [apply Z.div_unique with 399|apply Z.div_unique with (r400 - 1)]; lia. }
      rewrite D1, D2, D3, D4. clear D1 D2 D3 D4.
      assert (K1 : r400 = 0 -> r100 = 0) by lia. assert (K2 : r100 = 0 -> r4 = 0) by lia.
      destruct (Z.eqb_spec r4 0), (Z.eqb_spec r100 0), (Z.eqb_spec r400 0); cbn [negb andb orb]; try lia; exfalso; auto.
    + assert (m = 12) by lia. subst m. unfold jdn, month_length. cbn -[Z.div Z.mul Z.add Z.sub].
      change (12 =? 2) with false. 
      change (306001 * (1 + 12 + 1) / 10000) with 428. change (306001 * (12 + 1) / 10000) with 397.
      replace (y + 1 - 1) with y by lia. lia.
Qed.

Open Scope R_scope.
(** floors of small quotients in float arithmetic *)
Lemma floor_div_B (a b : Z) : (0 <= a < 2 ^ 14)%Z -> (0 < b <= 128)%Z -> Zfloor (b32 (b64 (IZR a / IZR b))) = (a / b)%Z.
Proof.
  intros Ha Hb.
  assert (E := Z.div_mod a b ltac:(lia)). assert (M := Z.mod_pos_bound a b ltac:(lia)).
  set (q := (a / b)%Z) in *. assert (Hq : (0 <= q < 2 ^ 14)%Z) by (split; [apply Z.div_pos; lia|apply Z.div_lt_upper_bound; nia]).
  assert (RB : 1 <= IZR b <= 128) by (split; apply IZR_le; lia).
  assert (RA : IZR a = IZR b * IZR q + IZR (a mod b)) by (rewrite <- mult_IZR, <- plus_IZR; f_equal; lia).
  assert (RM : 0 <= IZR (a mod b) <= IZR b - 1) by (split; [apply IZR_le; lia|rewrite <- minus_IZR; apply IZR_le; lia]).
  assert (RQ : 0 <= IZR q <= 16384) by (split; apply IZR_le; lia).
  assert (X : IZR a / IZR b = IZR q + IZR (a mod b) / IZR b) by (rewrite RA; field; lra).
  assert (F0 : 0 <= IZR (a mod b) / IZR b) by (apply Rmult_le_pos; [lra|apply Rlt_le, Rinv_0_lt_compat; lra]).
  assert (F1 : IZR (a mod b) / IZR b <= 127 / 128).
  { apply Rmult_le_reg_r with (IZR b); [lra|]. unfold Rdiv. rewrite Rmult_assoc, Rinv_l by lra. lra. }
  apply Zfloor_imp. rewrite plus_IZR. split.
  - apply b32_floor_ge; [lia|]. apply b64_floor_ge; [lia|]. lra.
  - assert (b64 (IZR a / IZR b) <= IZR q + 127 / 128).
    { replace (IZR q + 127 / 128) with (b64 (IZR (128 * q + 127) * bpow radix2 (-7))).
      - apply b64_mono. rewrite plus_IZR, mult_IZR. simpl bpow. lra.
      - rewrite b64_id by (apply is_b64_dyadic; lia). rewrite plus_IZR, mult_IZR. simpl bpow. lra. }
    assert (b32 (b64 (IZR a / IZR b)) <= IZR q + 127 / 128); [|lra].
    { replace (IZR q + 127 / 128) with (b32 (IZR (128 * q + 127) * bpow radix2 (-7))).
      - apply b32_mono. rewrite plus_IZR, mult_IZR. simpl bpow. lra.
      - rewrite b32_id by (apply is_b32_dyadic; lia). rewrite plus_IZR, mult_IZR. simpl bpow. lra. }
Qed.

Lemma months_B (k : Z) : (4 <= k <= 15)%Z -> Zfloor (b64 (b64 (306001 / 10000) * IZR k)) = (306001 * k / 10000)%Z.
Proof.
  intros Hk.
  assert (E1 : Rabs (b64 (306001 / 10000) - 306001 / 10000) <= bpow radix2 (5 - 54)) by (apply b64_error_lt; [lia|rewrite Rabs_pos_eq by lra; simpl; lra]).
  apply Rabs_le_inv in E1. set (c := b64 (306001 / 10000)) in *. clearbody c.
  assert (RK : 4 <= IZR k <= 15) by (split; apply IZR_le; lia).
  assert (P : 0 <= c * IZR k <= 500) by (simpl bpow in E1; nra).
  assert (E2 : Rabs (b64 (c * IZR k) - c * IZR k) <= bpow radix2 (9 - 54)) by (apply b64_error_lt; [lia|rewrite Rabs_pos_eq by lra; simpl; lra]).
  apply Rabs_le_inv in E2. set (v := b64 (c * IZR k)) in *. clearbody v. simpl bpow in *.
  assert (V : 306001 / 10000 * IZR k - 1 / 1000000 <= v <= 306001 / 10000 * IZR k + 1 / 1000000) by nra.
  assert (K : (k = 4 \/ k = 5 \/ k = 6 \/ k = 7 \/ k = 8 \/ k = 9 \/ k = 10 \/ k = 11 \/ k = 12 \/ k = 13 \/ k = 14 \/ k = 15)%Z) by lia.
  clear - V K. apply Zfloor_imp. rewrite plus_IZR.
  destruct K as [ -> |[ -> |[ -> |[ -> |[ -> |[ -> |[ -> |[ -> |[ -> |[ -> |[ -> | -> ]]]]]]]]]]];
    match goal with |- context [(306001 * ?e / 10000)%Z] => let v := eval vm_compute in (306001 * e / 10000)%Z in change (306001 * e / 10000)%Z with v end; lra.
Qed.
Lemma months_R (k : Z) : (4 <= k <= 15)%Z -> Zfloor (306001 / 10000 * IZR k) = (306001 * k / 10000)%Z.
Proof.
  intros Hk.
  assert (K : (k = 4 \/ k = 5 \/ k = 6 \/ k = 7 \/ k = 8 \/ k = 9 \/ k = 10 \/ k = 11 \/ k = 12 \/ k = 13 \/ k = 14 \/ k = 15)%Z) by lia.
  apply Zfloor_imp. rewrite plus_IZR.
  destruct K as [ -> |[ -> |[ -> |[ -> |[ -> |[ -> |[ -> |[ -> |[ -> |[ -> |[ -> | -> ]]]]]]]]]]];
    match goal with |- context [(306001 * ?e / 10000)%Z] => let v := eval vm_compute in (306001 * e / 10000)%Z in change (306001 * e / 10000)%Z with v end; lra.
Qed.
Lemma floor_quarter (n : Z) : Zfloor (IZR n / 4) = (n / 4)%Z.
Proof. rewrite (Zfloor_div n 4) by lia. reflexivity. Qed.

Lemma julianDay_B t : (1 <= tm_year t <= 6767)%Z -> (1 <= tm_mon t <= 12)%Z -> (0 <= tm_mday t <= 31)%Z ->
  julianDay NumB t = IZR (jdn (tm_year t) (tm_mon t) (tm_mday t)) - 1 / 2.
Proof.
  destruct t as [sec mi h d m y]. cbn [tm_year tm_mon tm_mday]. intros Hy Hm Hd.
  unfold julianDay, jdn. cbn [tm_year tm_mon tm_mday].
  assert (W : forall y' m' : Z, (0 <= y' <= 6767)%Z -> (3 <= m' <= 14)%Z ->
    (let A := ffloor NumB (f32 NumB (fdiv NumB (f32 NumB (fZ NumB y')) (fZ NumB 100))) in
     let B := f32 NumB (fadd NumB (f32 NumB (fsub NumB (fZ NumB 2) A)) (ffloor NumB (f32 NumB (fdiv NumB A (fZ NumB 4))))) in
     let yy := ffloor NumB (f32 NumB (fmul NumB (f32 NumB (fq NumB 1461 4)) (f32 NumB (fZ NumB (y' + 4716))))) in
     let mm := ffloor NumB (fmul NumB (fq NumB 306001 10000) (fZ NumB (m' + 1))) in
     f32 NumB (fsub NumB (fadd NumB (fadd NumB (fadd NumB yy mm) (fZ NumB d)) B) (fq NumB 3049 2)))
    = IZR (1461 * (y' + 4716) / 4 + 306001 * (m' + 1) / 10000 + d + (2 - y' / 100 + y' / 100 / 4) - 1524) - 1 / 2).
  { clear y m Hy Hm. intros y m Hy Hm. cbn [ffloor f32 fdiv fZ fsub fadd fmul fq NumB]. cbv zeta.
    rewrite (b64_of_int y), (b32_of_int y), (b64_of_int 100), (b64_of_int 4), (b64_of_int 2), (b64_of_int (y + 4716)), (b32_of_int (y + 4716)), (b64_of_int (m + 1)), (b64_of_int d) by lia.
    rewrite floor_div_B by lia.
    assert (HA : (0 <= y / 100 <= 99)%Z) by (split; [apply Z.div_pos; lia|apply Z.div_le_upper_bound; lia]).
    set (A := (y / 100)%Z) in *.
    rewrite floor_div_B by lia.
    assert (HA4 : (0 <= A / 4 <= 99)%Z) by (split; [apply Z.div_pos; lia|apply Z.div_le_upper_bound; lia]).
    rewrite <- (minus_IZR 2 A), (b64_of_int (2 - A)), (b32_of_int (2 - A)) by lia.
    rewrite <- (plus_IZR (2 - A) (A / 4)), (b64_of_int (2 - A + A / 4)), (b32_of_int (2 - A + A / 4)) by lia.
    assert (Q : b64 (IZR 1461 / IZR 4) = IZR 1461 * bpow radix2 (-2)).
    { rewrite b64_id; [simpl; lra|]. replace (IZR 1461 / IZR 4) with (IZR 1461 * bpow radix2 (-2)) by (simpl; lra). apply is_b64_dyadic; lia. }
    rewrite Q, (b32_id (IZR 1461 * bpow radix2 (-2))) by (apply is_b32_dyadic; lia).
    replace (IZR 1461 * bpow radix2 (-2) * IZR (y + 4716)) with (IZR (1461 * (y + 4716)) * bpow radix2 (-2)) by (rewrite mult_IZR; ring).
    rewrite (b64_id (IZR (1461 * (y + 4716)) * bpow radix2 (-2))) by (apply is_b64_dyadic; lia).
    rewrite (b32_id (IZR (1461 * (y + 4716)) * bpow radix2 (-2))) by (apply is_b32_dyadic; lia).
    replace (IZR (1461 * (y + 4716)) * bpow radix2 (-2)) with (IZR (1461 * (y + 4716)) / 4) by (simpl; lra).
    rewrite floor_quarter.
    rewrite months_B by lia.
    assert (HY : (0 <= 1461 * (y + 4716) / 4 < 2 ^ 23)%Z) by (split; [apply Z.div_pos; lia|apply Z.div_lt_upper_bound; lia]).
    assert (HM : (0 <= 306001 * (m + 1) / 10000 < 1000)%Z) by (split; [apply Z.div_pos; lia|apply Z.div_lt_upper_bound; lia]).
    set (Yy := (1461 * (y + 4716) / 4)%Z) in *. set (Mm := (306001 * (m + 1) / 10000)%Z) in *.
    rewrite <- (plus_IZR Yy Mm), (b64_of_int (Yy + Mm)) by lia.
    rewrite <- (plus_IZR (Yy + Mm) d), (b64_of_int (Yy + Mm + d)) by lia.
    rewrite <- (plus_IZR (Yy + Mm + d)), (b64_of_int (Yy + Mm + d + (2 - A + A / 4))) by lia.
    assert (Q2 : b64 (IZR 3049 / IZR 2) = IZR 3049 * bpow radix2 (-1)).
    { rewrite b64_id; [simpl; lra|]. replace (IZR 3049 / IZR 2) with (IZR 3049 * bpow radix2 (-1)) by (simpl; lra). apply is_b64_dyadic; lia. }
    rewrite Q2. set (S := (Yy + Mm + d + (2 - A + A / 4))%Z) in *.
    assert (HS : (0 <= S < 2 ^ 23 - 1)%Z) by (assert (1000 <= Yy <= 4194304)%Z by (unfold Yy; split; [apply Z.div_le_lower_bound|apply Z.div_le_upper_bound]; lia); unfold S; lia).
    replace (IZR S - IZR 3049 * bpow radix2 (-1)) with (IZR (2 * S - 3049) * bpow radix2 (-1)) by (rewrite minus_IZR, mult_IZR; simpl; lra).
    rewrite b64_id by (apply is_b64_dyadic; lia). rewrite b32_id by (apply is_b32_dyadic; lia).
    rewrite !minus_IZR, mult_IZR. simpl bpow. lra. }
  destruct (Z.leb_spec m 2); apply W; lia.
Qed.

Lemma julianDay_R t : (1 <= tm_mon t <= 12)%Z ->
  julianDay NumR t = IZR (jdn (tm_year t) (tm_mon t) (tm_mday t)) - 1 / 2.
Proof.
  destruct t as [sec mi h d m y]. cbn [tm_year tm_mon tm_mday]. intros Hm.
  unfold julianDay, jdn. cbn [tm_year tm_mon tm_mday].
  assert (W : forall y' m' : Z, (3 <= m' <= 14)%Z ->
    (let A := ffloor NumR (f32 NumR (fdiv NumR (f32 NumR (fZ NumR y')) (fZ NumR 100))) in
     let B := f32 NumR (fadd NumR (f32 NumR (fsub NumR (fZ NumR 2) A)) (ffloor NumR (f32 NumR (fdiv NumR A (fZ NumR 4))))) in
     let yy := ffloor NumR (f32 NumR (fmul NumR (f32 NumR (fq NumR 1461 4)) (f32 NumR (fZ NumR (y' + 4716))))) in
     let mm := ffloor NumR (fmul NumR (fq NumR 306001 10000) (fZ NumR (m' + 1))) in
     f32 NumR (fsub NumR (fadd NumR (fadd NumR (fadd NumR yy mm) (fZ NumR d)) B) (fq NumR 3049 2)))
    = IZR (1461 * (y' + 4716) / 4 + 306001 * (m' + 1) / 10000 + d + (2 - y' / 100 + y' / 100 / 4) - 1524) - 1 / 2).
  { clear y m Hm. intros y m Hm. cbn [ffloor f32 fdiv fZ fsub fadd fmul fq NumR]. cbv zeta.
    rewrite (Zfloor_div y 100) by lia. rewrite floor_quarter.
    replace (IZR 1461 / IZR 4 * IZR (y + 4716)) with (IZR (1461 * (y + 4716)) / 4) by (rewrite mult_IZR; field).
    rewrite floor_quarter, months_R by lia.
    rewrite ?minus_IZR, ?plus_IZR, ?minus_IZR. lra. }
  destruct (Z.leb_spec m 2); apply W; lia.
Qed.
