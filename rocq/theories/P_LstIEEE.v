(** The sidereal time in IEEE arithmetic is an angle of about one turn whatever the date fields contain. *)
From Verif Require Import Base Num M_Helper P_Round P_Helper2.
From Coq Require Import Reals Lra Psatz.
From Flocq Require Import Core.
Open Scope R_scope.

Lemma is_b64_bpow (k : Z) : (-1000 <= k)%Z -> is_b64 (bpow radix2 k).
Proof. intros H. rewrite <- (Rmult_1_l (bpow radix2 k)). apply (is_b64_dyadic 1 k); lia. Qed.
Lemma is_b32_bpow (k : Z) : (-100 <= k)%Z -> is_b32 (bpow radix2 k).
Proof. intros H. rewrite <- (Rmult_1_l (bpow radix2 k)). apply (is_b32_dyadic 1 k); lia. Qed.
Lemma b64_opp x : b64 (- x) = - b64 x. Proof. apply round_NE_opp. Qed.
Lemma b32_opp x : b32 (- x) = - b32 x. Proof. apply round_NE_opp. Qed.
Lemma b64_bound (k : Z) x : (-1000 <= k)%Z -> Rabs x <= bpow radix2 k -> Rabs (b64 x) <= bpow radix2 k.
Proof.
  intros Hk H. apply Rabs_le_inv in H. pose proof (b64_id _ (is_b64_bpow k Hk)) as E. pose proof (b64_opp (bpow radix2 k)) as O. rewrite E in O.
  apply Rabs_le. split; [rewrite <- O|rewrite <- E]; apply b64_mono; lra.
Qed.
Lemma b32_bound (k : Z) x : (-100 <= k)%Z -> Rabs x <= bpow radix2 k -> Rabs (b32 x) <= bpow radix2 k.
Proof.
  intros Hk H. apply Rabs_le_inv in H. pose proof (b32_id _ (is_b32_bpow k Hk)) as E. pose proof (b32_opp (bpow radix2 k)) as O. rewrite E in O.
  apply Rabs_le. split; [rewrite <- O|rewrite <- E]; apply b32_mono; lra.
Qed.
Lemma sum_bound (k : Z) x y : Rabs x <= bpow radix2 k -> Rabs y <= bpow radix2 k -> Rabs (x + y) <= bpow radix2 (k + 1).
Proof. intros Hx Hy. eapply Rle_trans; [apply Rabs_triang|]. rewrite bpow_plus. simpl (bpow radix2 1). lra. Qed.
Lemma diff_bound (k : Z) x y : Rabs x <= bpow radix2 k -> Rabs y <= bpow radix2 k -> Rabs (x - y) <= bpow radix2 (k + 1).
Proof. intros Hx Hy. apply sum_bound; [exact Hx|rewrite Rabs_Ropp; exact Hy]. Qed.
Lemma mul_bound (k l : Z) x y : Rabs x <= bpow radix2 k -> Rabs y <= bpow radix2 l -> Rabs (x * y) <= bpow radix2 (k + l).
Proof. intros Hx Hy. rewrite Rabs_mult, bpow_plus. apply Rmult_le_compat; try apply Rabs_pos; assumption. Qed.
Lemma div_bound (k : Z) x y : Rabs x <= bpow radix2 k -> 1 <= y -> Rabs (x / y) <= bpow radix2 k.
Proof.
  intros Hx Hy. unfold Rdiv. rewrite Rabs_mult, (Rabs_pos_eq (/ y)) by (apply Rlt_le, Rinv_0_lt_compat; lra).
  assert (/ y <= 1) by (rewrite <- Rinv_1; apply Rinv_le; lra). assert (0 < / y) by (apply Rinv_0_lt_compat; lra).
  rewrite <- (Rmult_1_r (bpow radix2 k)). apply Rmult_le_compat; try apply Rabs_pos; lra.
Qed.
Lemma floor_bound (k : Z) x : (0 <= k)%Z -> Rabs x <= bpow radix2 k -> Rabs (IZR (Zfloor x)) <= bpow radix2 k.
Proof.
  intros Hk H. apply Rabs_le_inv in H.
  assert (E : bpow radix2 k = IZR (2 ^ k)) by (rewrite <- IZR_Zpower by exact Hk; reflexivity). rewrite E in *.
  apply Rabs_le. split; [rewrite <- opp_IZR; apply IZR_le, Zfloor_lub; rewrite opp_IZR; lra|].
  eapply Rle_trans; [apply Zfloor_lb|lra].
Qed.
Lemma Z_bound (k z : Z) : (0 <= k)%Z -> (Z.abs z <= 2 ^ k)%Z -> Rabs (IZR z) <= bpow radix2 k.
Proof. intros Hk H. rewrite <- abs_IZR. rewrite <- IZR_Zpower by exact Hk. apply IZR_le. exact H. Qed.
Lemma up (k l : Z) x : (k <= l)%Z -> Rabs x <= bpow radix2 k -> Rabs x <= bpow radix2 l.
Proof. intros Hk H. eapply Rle_trans; [exact H|]. apply bpow_le. exact Hk. Qed.

(** modulo of anything up to 2^44 *)
Lemma f_mod_range a : Rabs a <= bpow radix2 48 -> Rabs (f_mod NumB a 360) <= 361.
Proof.
  intros Ha. unfold f_mod. cbn [fsub fmul fdiv ffloor NumB]. apply Rabs_le_inv in Ha. simpl bpow in Ha.
  step 41%Z (a / 360) Hq. set (z := Zfloor y). assert (Hz1 : IZR z <= y) by apply Zfloor_lb. assert (Hz2 : y < IZR z + 1) by apply Zfloor_ub.
  assert (Hz : (- 2 ^ 42 <= z <= 2 ^ 42)%Z) by (split; apply le_IZR; [change (IZR (- 2 ^ 42)) with (-4398046511104)|change (IZR (2 ^ 42)) with 4398046511104]; lra).
  replace (360 * IZR z) with (IZR (360 * z)) by (rewrite mult_IZR; reflexivity).
  rewrite (b64_of_int (360 * z)) by lia. rewrite mult_IZR.
  step 9%Z (a - 360 * IZR z) Hr. apply Rabs_le; lra.
Qed.

Lemma lst_range t (lon : R) : (Z.abs (tm_year t) <= 2 ^ 16)%Z -> (Z.abs (tm_mon t) <= 2 ^ 10)%Z -> (Z.abs (tm_mday t) <= 2 ^ 10)%Z ->
  (Z.abs (tm_hour t) <= 2 ^ 10)%Z -> (Z.abs (tm_min t) <= 2 ^ 10)%Z -> (Z.abs (tm_sec t) <= 2 ^ 10)%Z -> Rabs lon <= 1000 ->
  Rabs (getLocalSiderealTimeDegrees NumB t lon) <= 361.
Proof.
  intros Hy Hmo Hd Hh Hm Hs Hl. unfold getLocalSiderealTimeDegrees, deltaJulian.
  assert (J : Rabs (julianDay NumB t) <= bpow radix2 31).
  { unfold julianDay. destruct (if (tm_mon t <=? 2)%Z then _ else _) as [ye mo] eqn:Ey.
    assert (Hye : (Z.abs ye <= 2 ^ 17)%Z /\ (Z.abs mo <= 2 ^ 11)%Z).
    { destruct (tm_mon t <=? 2)%Z; injection Ey as <- <-; lia. }
    destruct Hye as [Hye Hmo']. clear Ey. cbn [fadd fsub fmul fdiv fZ fq f32 ffloor NumB].
    rewrite (b64_of_int 100), (b64_of_int 4), (b64_of_int 2), (b64_of_int ye), (b64_of_int (ye + 4716)), (b64_of_int (mo + 1)), (b64_of_int (tm_mday t)) by lia.
    set (A := IZR (Zfloor (b32 (b64 (b32 (IZR ye) / 100))))).
    assert (HA : Rabs A <= bpow radix2 17).
    { apply floor_bound; [lia|]. apply b32_bound; [lia|]. apply b64_bound; [lia|]. apply div_bound; [|lra]. apply b32_bound; [lia|]. apply Z_bound; lia. }
    clearbody A.
    assert (HB : Rabs (b32 (b64 (b32 (b64 (2 - A)) + IZR (Zfloor (b32 (b64 (A / 4))))))) <= bpow radix2 19).
    { apply b32_bound; [lia|]. apply b64_bound; [lia|]. apply (sum_bound 18).
      - apply b32_bound; [lia|]. apply b64_bound; [lia|]. apply (diff_bound 17); [|exact HA]. apply Z_bound; lia.
      - apply up with 17%Z; [lia|]. apply floor_bound; [lia|]. apply b32_bound; [lia|]. apply b64_bound; [lia|]. apply div_bound; [exact HA|lra]. }
    set (B := b32 (b64 (b32 (b64 (2 - A)) + IZR (Zfloor (b32 (b64 (A / 4))))))) in *. clearbody B.
    assert (Hyy : Rabs (IZR (Zfloor (b32 (b64 (b32 (b64 (1461 / 4)) * b32 (IZR (ye + 4716))))))) <= bpow radix2 27).
    { apply floor_bound; [lia|]. apply b32_bound; [lia|]. apply b64_bound; [lia|]. apply (mul_bound 9 18).
      - apply b32_bound; [lia|]. apply b64_bound; [lia|]. apply Rabs_le. simpl bpow. lra.
      - apply b32_bound; [lia|]. apply Z_bound; lia. }
    set (Y := IZR (Zfloor (b32 (b64 (b32 (b64 (1461 / 4)) * b32 (IZR (ye + 4716))))))) in *. clearbody Y.
    assert (HM : Rabs (IZR (Zfloor (b64 (b64 (306001 / 10000) * IZR (mo + 1))))) <= bpow radix2 17).
    { apply floor_bound; [lia|]. apply b64_bound; [lia|]. apply (mul_bound 5 12); [|apply Z_bound; lia]. apply b64_bound; [lia|]. apply Rabs_le. simpl bpow. lra. }
    set (M := IZR (Zfloor (b64 (b64 (306001 / 10000) * IZR (mo + 1))))) in *. clearbody M.
    apply b32_bound; [lia|]. apply b64_bound; [lia|]. apply (diff_bound 30).
    - apply b64_bound; [lia|]. apply (sum_bound 29); [|apply up with 19%Z; [lia|exact HB]]. apply b64_bound; [lia|]. apply (sum_bound 28).
      + apply b64_bound; [lia|]. apply (sum_bound 27); [exact Hyy|apply up with 17%Z; [lia|exact HM]].
      + apply Z_bound; lia.
    - apply b64_bound; [lia|]. apply Rabs_le. simpl bpow. lra. }
  set (J0 := julianDay NumB t) in *. change (F NumB) with R in *. clearbody J0. cbn [fadd fsub fmul fdiv fZ fq NumB].
  rewrite (b64_of_int 2451545), (b64_of_int 24), (b64_of_int 60), (b64_of_int 3600), (b64_of_int 36525), (b64_of_int 360),
    (b64_of_int (tm_hour t)), (b64_of_int (tm_min t)), (b64_of_int (tm_sec t)) by lia.
  assert (D : Rabs (b64 (b64 (b64 (b64 (J0 - 2451545) + b64 (IZR (tm_hour t) / 24)) + b64 (b64 (IZR (tm_min t) / 60) / 24)) + b64 (b64 (IZR (tm_sec t) / 3600) / 24))) <= bpow radix2 35).
  { assert (Q : forall z, (Z.abs z <= 2 ^ 10)%Z -> forall c d, 1 <= c -> 1 <= d -> Rabs (b64 (b64 (IZR z / c) / d)) <= bpow radix2 10).
    { intros z Hz c d Hc Hd'. apply b64_bound; [lia|]. apply div_bound; [|exact Hd']. apply b64_bound; [lia|]. apply div_bound; [|exact Hc]. apply Z_bound; lia. }
    apply b64_bound; [lia|]. apply (sum_bound 34); [|apply up with 10%Z; [lia|apply Q; [exact Hs|lra|lra]]].
    apply b64_bound; [lia|]. apply (sum_bound 33); [|apply up with 10%Z; [lia|apply Q; [exact Hm|lra|lra]]].
    apply b64_bound; [lia|]. apply (sum_bound 32).
    - apply b64_bound; [lia|]. apply (diff_bound 31); [exact J|apply Z_bound; lia].
    - apply up with 10%Z; [lia|]. apply b64_bound; [lia|]. apply div_bound; [apply Z_bound; lia|lra]. }
  match type of D with Rabs ?u <= _ => set (d := u) in * end. clearbody d.
  assert (C : Rabs (b64 (d / 36525)) <= bpow radix2 20).
  { apply b64_bound; [lia|]. apply Rabs_le_inv in D. apply Rabs_le. simpl bpow in *. lra. }
  apply f_mod_range. apply b64_bound; [lia|].
  set (c := b64 (d / 36525)) in *. clearbody c.
  apply (sum_bound 47); [|apply up with 10%Z; [lia|]; simpl bpow; lra].
  apply b64_bound; [lia|]. apply (sum_bound 46).
  - apply b64_bound; [lia|]. apply (sum_bound 45).
    + apply b64_bound; [lia|]. apply Rabs_le. simpl bpow. lra.
    + apply b64_bound; [lia|]. apply (mul_bound 10 35); [|exact D]. apply b64_bound; [lia|]. apply Rabs_le. simpl bpow. lra.
  - apply b64_bound; [lia|]. apply (mul_bound 26 20); [|exact C]. apply b64_bound; [lia|]. apply (mul_bound 6 20); [|exact C].
    apply b64_bound; [lia|]. apply Rabs_le. simpl bpow. lra.
Qed.
