(** Inversion of 3x3 matrices in binary64: the residual of [Invert]. *)
From Verif Require Import Base Num M_Linalg P_Round.
From Coq Require Import Reals Lra Psatz.
From Flocq Require Import Core Relative.
Open Scope R_scope.

(** twice the unit round-off *)
Definition w : R := bpow radix2 (-52).
Lemma w_small : 0 < w <= / 1000000000000000. Proof. unfold w. simpl bpow. lra. Qed.
Lemma w_val : w = / 4503599627370496. Proof. unfold w. simpl bpow. lra. Qed.

Lemma tiny_pos : 0 < bpow radix2 (-1075). Proof. apply bpow_gt_0. Qed.
Lemma fl_rel x : Rabs (b64 x - x) <= / 2 * w * Rabs x + bpow radix2 (-1075).
Proof.
  destruct (Rle_or_lt (bpow radix2 (-1022)) (Rabs x)) as [H|H].
  - assert (E : Rabs (b64 x - x) <= / 2 * bpow radix2 (- 53 + 1) * Rabs x).
    { apply (relative_error_N_FLT radix2 (-1074) 53 eq_refl (fun z => negb (Z.even z)) x). exact H. }
    change (- 53 + 1)%Z with (-52)%Z in E. fold w in E. pose proof tiny_pos. lra.
  - assert (E : Rabs (b64 x - x) <= bpow radix2 (-1075)).
    { unfold b64. eapply Rle_trans; [apply error_le_half_ulp, FLT_exp_valid; reflexivity|].
      destruct (Req_dec x 0) as [ -> |Hn].
      - unfold exp64. rewrite ulp_FLT_0 by reflexivity.
        replace (-1074)%Z with (-1075 + 1)%Z by lia. rewrite bpow_plus. simpl (bpow radix2 1). lra.
      - rewrite ulp_neq_0 by auto. unfold cexp, exp64, FLT_exp.
        assert (mag radix2 x <= -1022)%Z by (apply mag_le_bpow; auto).
        rewrite Z.max_r by lia. replace (-1074)%Z with (-1075 + 1)%Z by lia. rewrite bpow_plus. simpl (bpow radix2 1). lra. }
    pose proof w_small. pose proof (Rabs_pos x). assert (0 <= / 2 * w * Rabs x) by (apply Rmult_le_pos; lra). lra.
Qed.
(** absolute form *)
Definition big (B : R) : Prop := bpow radix2 (-900) <= B.
Lemma big_tiny B : big B -> bpow radix2 (-1075) <= / 2 * w * B /\ 0 < B.
Proof.
  unfold big. intros H. assert (0 < bpow radix2 (-900)) by apply bpow_gt_0. split; [|lra].
  replace (-1075)%Z with (-123 + (-52 + -900))%Z by lia. rewrite !bpow_plus. fold w.
  assert (bpow radix2 (-123) <= / 2). { change (/ 2) with (bpow radix2 (-1)). apply bpow_le. lia. }
  pose proof w_small. assert (0 < bpow radix2 (-123)) by apply bpow_gt_0.
  apply Rle_trans with (/ 2 * (w * bpow radix2 (-900))).
  - apply Rmult_le_compat_r; [apply Rmult_le_pos; lra|lra].
  - rewrite Rmult_assoc. apply Rmult_le_compat_l; [lra|]. apply Rmult_le_compat_l; lra.
Qed.
Lemma flB x B : Rabs x <= B -> big B -> Rabs (b64 x - x) <= w * B.
Proof.
  intros H HB. destruct (big_tiny B HB) as [T P]. pose proof (fl_rel x) as E. pose proof w_small.
  assert (/ 2 * w * Rabs x <= / 2 * w * B) by (apply Rmult_le_compat_l; lra). lra.
Qed.
(** a quotient *)
Lemma flD z d B : d <> 0 -> Rabs z <= B -> big B -> Rabs d <= bpow radix2 100 * B -> Rabs (d * b64 (z / d) - z) <= w * B.
Proof.
  intros Hd Hz HB HD. pose proof (fl_rel (z / d)) as E. pose proof w_small as W.
  replace (d * b64 (z / d) - z) with (d * (b64 (z / d) - z / d)) by (field; exact Hd). rewrite Rabs_mult.
  assert (P : 0 < Rabs d) by (apply Rabs_pos_lt; exact Hd).
  apply Rle_trans with (Rabs d * (/ 2 * w * Rabs (z / d) + bpow radix2 (-1075))); [apply Rmult_le_compat_l; lra|].
  rewrite Rmult_plus_distr_l. replace (Rabs d * (/ 2 * w * Rabs (z / d))) with (/ 2 * w * Rabs z).
  2:{ unfold Rdiv. rewrite Rabs_mult, Rabs_inv. field. lra. }
  assert (A1 : / 2 * w * Rabs z <= / 2 * w * B) by (apply Rmult_le_compat_l; lra).
  assert (A2 : Rabs d * bpow radix2 (-1075) <= / 2 * w * B).
  { apply Rle_trans with (bpow radix2 100 * B * bpow radix2 (-1075)); [apply Rmult_le_compat_r; [apply bpow_ge_0|lra]|].
    replace (bpow radix2 100 * B * bpow radix2 (-1075)) with (bpow radix2 (-975) * B).
    2:{ replace (-975)%Z with (100 + -1075)%Z by lia. rewrite bpow_plus. ring. }
    apply Rmult_le_compat_r; [destruct (big_tiny B HB); lra|].
    replace (-975)%Z with (-1 + (-922 + -52))%Z by lia. rewrite !bpow_plus. fold w. change (bpow radix2 (-1)) with (/ 2).
    assert (bpow radix2 (-922) <= 1) by (change 1 with (bpow radix2 0); apply bpow_le; lia).
    assert (bpow radix2 (-922) * w <= 1 * w) by (apply Rmult_le_compat_r; lra). lra. }
  lra.
Qed.
Lemma b64_id' x : b64 (b64 x) = b64 x. Proof. apply b64_id, is_b64_round. Qed.

(** u = fl(c - fl(p)) *)
Lemma fe1 c p S : big S -> Rabs c <= S -> Rabs p <= 1.01 * S ->
  Rabs (b64 (c - b64 p) - (c - p)) <= 4 * w * S /\ Rabs (b64 (c - b64 p)) <= 2.03 * S.
Proof.
  intros HS Hc Hp. destruct (big_tiny S HS) as [_ P]. pose proof w_small as W.
  assert (WS : 0 <= w * S <= / 1000 * S) by (split; [apply Rmult_le_pos; lra|apply Rmult_le_compat_r; lra]).
  assert (B1 : big (1.01 * S)) by (unfold big in *; lra).
  pose proof (flB p _ Hp B1) as F1. apply Rabs_le_inv in F1, Hc, Hp.
  assert (H2 : Rabs (c - b64 p) <= 2.02 * S) by (apply Rabs_le; lra).
  pose proof (flB _ _ H2 ltac:(unfold big in *; lra)) as F2. apply Rabs_le_inv in F2, H2.
  split; apply Rabs_le; lra.
Qed.
(** u = fl(c - fl(fl(p) + fl(q))) *)
Lemma fe2 c p q S : big S -> Rabs c <= S -> Rabs p <= 1.02 * S -> Rabs q <= 2.06 * S ->
  Rabs (b64 (c - b64 (b64 p + b64 q)) - (c - p - q)) <= 11 * w * S /\ Rabs (b64 (c - b64 (b64 p + b64 q))) <= 4.2 * S.
Proof.
  intros HS Hc Hp Hq. destruct (big_tiny S HS) as [_ P]. pose proof w_small as W.
  assert (WS : 0 <= w * S <= / 1000 * S) by (split; [apply Rmult_le_pos; lra|apply Rmult_le_compat_r; lra]).
  pose proof (flB p _ Hp ltac:(unfold big in *; lra)) as F1. pose proof (flB q _ Hq ltac:(unfold big in *; lra)) as F2.
  apply Rabs_le_inv in F1, F2, Hc, Hp, Hq.
  assert (H3 : Rabs (b64 p + b64 q) <= 3.1 * S) by (apply Rabs_le; lra).
  pose proof (flB _ _ H3 ltac:(unfold big in *; lra)) as F3. apply Rabs_le_inv in F3, H3.
  assert (H4 : Rabs (c - b64 (b64 p + b64 q)) <= 4.11 * S) by (apply Rabs_le; lra).
  pose proof (flB _ _ H4 ltac:(unfold big in *; lra)) as F4. apply Rabs_le_inv in F4, H4.
  split; apply Rabs_le; lra.
Qed.

(** the size of a row *)
Definition sz (S : R) : Prop := bpow radix2 (-60) <= S <= bpow radix2 60.
Lemma sz_pos S : sz S -> 0 < S. Proof. intros [H _]. pose proof (bpow_gt_0 radix2 (-60)). lra. Qed.
Lemma big_ge (e : Z) B : (-900 <= e)%Z -> bpow radix2 e <= B -> big B.
Proof. intros He H. unfold big. eapply Rle_trans; [|exact H]. apply bpow_le. exact He. Qed.
Lemma sz_big S : sz S -> big S. Proof. intros [H _]. apply (big_ge (-60)); [lia|exact H]. Qed.
Lemma sz_quot S1 S0 : sz S1 -> sz S0 -> bpow radix2 (-120) <= S1 / S0.
Proof.
  intros [H1 _] HS. pose proof (sz_pos _ HS). destruct HS as [_ H0].
  apply Rmult_le_reg_r with S0; [lra|]. unfold Rdiv. rewrite Rmult_assoc, Rinv_l, Rmult_1_r by lra.
  eapply Rle_trans; [|exact H1]. replace (-60)%Z with (-120 + 60)%Z by lia. rewrite bpow_plus.
  apply Rmult_le_compat_l; [apply bpow_ge_0|exact H0].
Qed.
(** the multiplier l = fl(b * fl(1 / p)) *)
Lemma fe3 b p S0 S1 : p <> 0 -> sz S0 -> sz S1 ->
  Rabs p <= 2.03 * S0 -> Rabs b <= 2.03 * S1 -> Rabs b * S0 <= (1 + 6 * w) * (Rabs p * S1) ->
  Rabs (b64 (b * b64 (1 / p)) * p - b) <= 7 * w * S1 /\ Rabs (b64 (b * b64 (1 / p))) * S0 <= 1.01 * S1.
Proof.
  intros Hp HS0 HS1 Bp Bb Hpiv. set (l := b64 (b * b64 (1 / p))). pose proof w_small as W.
  pose proof (sz_pos _ HS0) as P0. pose proof (sz_pos _ HS1) as P1. pose proof (sz_quot _ _ HS1 HS0) as Q.
  set (r := b64 (1 / p)) in *.
  assert (Hr : Rabs (r * p - 1) <= w).
  { pose proof (flD 1 p 1 Hp ltac:(rewrite Rabs_R1; lra)) as E. fold r in E. rewrite (Rmult_comm r). rewrite Rmult_1_r in E.
    replace (w * 1) with w in E by ring. apply E.
    - unfold big. change 1 with (bpow radix2 0). apply bpow_le. lia.
    - destruct HS0 as [_ U]. assert (bpow radix2 60 * 4 <= bpow radix2 100).
      { change 4 with (bpow radix2 2). rewrite <- bpow_plus. apply bpow_le. lia. } lra. }
  assert (Pp : 0 < Rabs p) by (apply Rabs_pos_lt; exact Hp).
  assert (Hrp : Rabs r * Rabs p <= 1 + w).
  { rewrite <- Rabs_mult. replace (r * p) with (1 + (r * p - 1)) by ring. eapply Rle_trans; [apply Rabs_triang|]. rewrite Rabs_R1. lra. }
  assert (Hbr : Rabs (b * r) * S0 <= (1 + 6 * w) * (1 + w) * S1).
  { rewrite Rabs_mult. replace (Rabs b * Rabs r * S0) with (Rabs r * (Rabs b * S0)) by ring.
    apply Rle_trans with (Rabs r * ((1 + 6 * w) * (Rabs p * S1))); [apply Rmult_le_compat_l; [apply Rabs_pos|exact Hpiv]|].
    replace (Rabs r * ((1 + 6 * w) * (Rabs p * S1))) with ((Rabs r * Rabs p) * ((1 + 6 * w) * S1)) by ring.
    replace ((1 + 6 * w) * (1 + w) * S1) with ((1 + w) * ((1 + 6 * w) * S1)) by ring.
    apply Rmult_le_compat_r; [apply Rmult_le_pos; lra|exact Hrp]. }
  assert (W2 : (1 + 6 * w) * (1 + w) <= 1.001) by nra.
  assert (Hbr' : Rabs (b * r) * S0 <= 1.001 * S1) by (eapply Rle_trans; [exact Hbr|]; apply Rmult_le_compat_r; lra).
  set (B := 1.001 * (S1 / S0)).
  assert (HB : Rabs (b * r) <= B).
  { apply Rmult_le_reg_r with S0; [lra|]. unfold B. replace (1.001 * (S1 / S0) * S0) with (1.001 * S1) by (field; lra). exact Hbr'. }
  assert (BB : big B) by (apply (big_ge (-120)); [lia|]; unfold B; pose proof (bpow_gt_0 radix2 (-120)); lra).
  pose proof (flB _ _ HB BB) as F. fold l in F.
  assert (FS : Rabs (l - b * r) * S0 <= 1.001 * w * S1).
  { apply Rle_trans with (w * B * S0); [apply Rmult_le_compat_r; lra|]. unfold B. right. field. lra. }
  split.
  - replace (l * p - b) with ((l - b * r) * p + b * (r * p - 1)) by ring.
    eapply Rle_trans; [apply Rabs_triang|]. rewrite !Rabs_mult.
    assert (A1 : Rabs (l - b * r) * Rabs p <= 2.04 * w * S1).
    { apply Rle_trans with (Rabs (l - b * r) * (2.03 * S0)); [apply Rmult_le_compat_l; [apply Rabs_pos|exact Bp]|].
      replace (Rabs (l - b * r) * (2.03 * S0)) with (2.03 * (Rabs (l - b * r) * S0)) by ring.
      assert (0 <= w * S1) by (apply Rmult_le_pos; lra). nra. }
    assert (A2 : Rabs b * Rabs (r * p - 1) <= 2.03 * w * S1).
    { replace (2.03 * w * S1) with ((2.03 * S1) * w) by ring. apply Rmult_le_compat; try apply Rabs_pos; lra. }
    assert (0 <= w * S1) by (apply Rmult_le_pos; lra). lra.
  - replace l with ((l - b * r) + b * r) by ring.
    apply Rle_trans with ((Rabs (l - b * r) + Rabs (b * r)) * S0); [apply Rmult_le_compat_r; [lra|apply Rabs_triang]|].
    rewrite Rmult_plus_distr_r. assert (1.001 * w * S1 <= / 1000 * S1) by (apply Rmult_le_compat_r; lra). lra.
Qed.
(** what a comparison of the scaled elements says; [b/S1] lost against [p/S0] *)
Lemma fe4 b p S0 S1 : sz S0 -> sz S1 -> Rabs b <= 2.03 * S1 -> Rabs p <= 2.03 * S0 ->
  b64 (b64 (1 / S1) * Rabs b) <= b64 (b64 (1 / S0) * Rabs p) ->
  Rabs b * S0 <= (1 + 5 * w) * (Rabs p * S1) + bpow radix2 (-900) * (S0 * S1).
Proof.
  intros HS0 HS1 Bb Bp H. pose proof w_small as W. pose proof (sz_pos _ HS0) as P0. pose proof (sz_pos _ HS1) as P1.
  assert (R1 : forall S, sz S -> Rabs (S * b64 (1 / S) - 1) <= w).
  { intros S HS. pose proof (sz_pos _ HS) as P. pose proof (flD 1 S 1 ltac:(lra) ltac:(rewrite Rabs_R1; lra)) as E.
    replace (w * 1) with w in E by ring. apply E.
    - unfold big. change 1 with (bpow radix2 0). apply bpow_le. lia.
    - rewrite Rmult_1_r, Rabs_pos_eq by lra. destruct HS as [_ U]. eapply Rle_trans; [exact U|]. apply bpow_le. lia. }
  pose proof (R1 S0 HS0) as A0. pose proof (R1 S1 HS1) as A1. clear R1.
  set (s0 := b64 (1 / S0)) in *. set (s1 := b64 (1 / S1)) in *. apply Rabs_le_inv in A0, A1.
  assert (T : forall S s, 0 < S -> - w <= S * s - 1 -> 0 < s). { intros S s P Hs. destruct (Rle_or_lt s 0); [|assumption]. exfalso. assert (0 <= S * (- s)) by (apply Rmult_le_pos; lra). nra. }
  assert (Q0 : 0 < s0) by (apply (T S0); lra). assert (Q1 : 0 < s1) by (apply (T S1); lra). clear T.
  set (b' := Rabs b) in *. set (p' := Rabs p) in *. assert (Nb : 0 <= b') by apply Rabs_pos. assert (Np : 0 <= p') by apply Rabs_pos.
  pose proof (fl_rel (s1 * b')) as F1. pose proof (fl_rel (s0 * p')) as F0.
  rewrite (Rabs_pos_eq (s1 * b')) in F1 by (apply Rmult_le_pos; lra). rewrite (Rabs_pos_eq (s0 * p')) in F0 by (apply Rmult_le_pos; lra).
  apply Rabs_le_inv in F0, F1. set (h := bpow radix2 (-1075)) in *. pose proof tiny_pos as Ph. fold h in Ph.
  assert (I : (1 - / 2 * w) * (s1 * b') <= (1 + / 2 * w) * (s0 * p') + 2 * h) by lra.
  (* times S0 * S1 *)
  assert (I2 : (1 - / 2 * w) * ((S1 * s1) * (b' * S0)) <= (1 + / 2 * w) * ((S0 * s0) * (p' * S1)) + 2 * h * (S0 * S1)).
  { replace ((1 - / 2 * w) * ((S1 * s1) * (b' * S0))) with ((S0 * S1) * ((1 - / 2 * w) * (s1 * b'))) by ring.
    replace ((1 + / 2 * w) * ((S0 * s0) * (p' * S1)) + 2 * h * (S0 * S1)) with ((S0 * S1) * ((1 + / 2 * w) * (s0 * p') + 2 * h)) by ring.
    apply Rmult_le_compat_l; [apply Rmult_le_pos; lra|exact I]. }
  set (X := b' * S0) in *. set (Y := p' * S1) in *. assert (NX : 0 <= X) by (apply Rmult_le_pos; lra). assert (NY : 0 <= Y) by (apply Rmult_le_pos; lra).
  assert (J1 : (1 - w) * X <= S1 * s1 * X) by (apply Rmult_le_compat_r; lra).
  assert (J0 : S0 * s0 * Y <= (1 + w) * Y) by (apply Rmult_le_compat_r; lra).
  assert (K1 : (1 - / 2 * w) * ((1 - w) * X) <= (1 - / 2 * w) * (S1 * s1 * X)) by (apply Rmult_le_compat_l; lra).
  assert (K0 : (1 + / 2 * w) * (S0 * s0 * Y) <= (1 + / 2 * w) * ((1 + w) * Y)) by (apply Rmult_le_compat_l; lra).
  set (H2 := 2 * h * (S0 * S1)) in *. assert (NH : 0 <= H2) by (apply Rmult_le_pos; [lra|apply Rmult_le_pos; lra]).
  assert (L : X <= (1 + 5 * w) * Y + 2 * H2).
  { apply Rmult_le_reg_l with ((1 - / 2 * w) * (1 - w)); [apply Rmult_lt_0_compat; lra|].
    assert (C1 : (1 + / 2 * w) * (1 + w) <= (1 - / 2 * w) * (1 - w) * (1 + 5 * w)).
    { assert (Hw2 : w * w <= / 1000 * w) by (apply Rmult_le_compat_r; lra). assert (0 <= w * w * w) by (repeat apply Rmult_le_pos; lra). nra. }
    assert (C2 : 1 <= (1 - / 2 * w) * (1 - w) * 2) by nra.
    apply Rmult_le_compat_r with (r := Y) in C1; [|exact NY]. apply Rmult_le_compat_r with (r := H2) in C2; [|exact NH]. lra. }
  assert (HH : 2 * H2 <= bpow radix2 (-900) * (S0 * S1)).
  { unfold H2. replace (2 * (2 * h * (S0 * S1))) with (4 * h * (S0 * S1)) by ring. apply Rmult_le_compat_r; [apply Rmult_le_pos; lra|].
    unfold h. change 4 with (bpow radix2 2). rewrite <- bpow_plus. apply bpow_le. lia. }
  fold X. lra.
Qed.
(** the pivot is not tiny when some candidate is not *)
Lemma fe6 b p S0 S1 t : sz S0 -> sz S1 -> Rabs b <= 2.03 * S1 -> Rabs p <= 2.03 * S0 ->
  b64 (b64 (1 / S1) * Rabs b) <= b64 (b64 (1 / S0) * Rabs p) ->
  bpow radix2 (-100) <= t -> t * S1 <= Rabs b -> t / 2 * S0 <= Rabs p.
Proof.
  intros HS0 HS1 Bb Bp H Ht Hb. pose proof (fe4 b p S0 S1 HS0 HS1 Bb Bp H) as E. pose proof w_small as W.
  pose proof (sz_pos _ HS0) as P0. pose proof (sz_pos _ HS1) as P1.
  apply Rmult_le_reg_r with S1; [lra|]. set (Y := Rabs p * S1) in *. assert (NY : 0 <= Y) by (apply Rmult_le_pos; [apply Rabs_pos|lra]).
  assert (A : t * S1 * S0 <= Rabs b * S0) by (apply Rmult_le_compat_r; lra).
  assert (B : bpow radix2 (-900) <= / 1000 * t).
  { apply Rle_trans with (bpow radix2 (-10 + -100)); [apply bpow_le; lia|]. rewrite bpow_plus. simpl (bpow radix2 (-10)).
    pose proof (bpow_gt_0 radix2 (-100)). lra. }
  assert (C : bpow radix2 (-900) * (S0 * S1) <= / 1000 * t * (S0 * S1)) by (apply Rmult_le_compat_r; [apply Rmult_le_pos; lra|exact B]).
  assert (D : 5 * w * Y <= / 1000 * Y) by (apply Rmult_le_compat_r; lra).
  replace (t / 2 * S0 * S1) with (/ 2 * (t * (S0 * S1))) by field. replace (t * S1 * S0) with (t * (S0 * S1)) in A by ring.
  set (Q := t * (S0 * S1)) in *. replace (/ 1000 * t * (S0 * S1)) with (/ 1000 * Q) in C by (unfold Q; ring).
  assert (0 <= Q). { apply Rmult_le_pos; [pose proof (bpow_gt_0 radix2 (-100)); lra|apply Rmult_le_pos; lra]. } lra.
Qed.
Lemma fe5 b p S0 S1 t : sz S0 -> sz S1 -> Rabs b <= 2.03 * S1 -> Rabs p <= 2.03 * S0 ->
  b64 (b64 (1 / S1) * Rabs b) <= b64 (b64 (1 / S0) * Rabs p) ->
  bpow radix2 (-101) <= t -> t * S0 <= Rabs p -> Rabs b * S0 <= (1 + 6 * w) * (Rabs p * S1).
Proof.
  intros HS0 HS1 Bb Bp H Ht Hp. pose proof (fe4 b p S0 S1 HS0 HS1 Bb Bp H) as E. pose proof w_small as W.
  pose proof (sz_pos _ HS0) as P0. pose proof (sz_pos _ HS1) as P1.
  assert (B : bpow radix2 (-900) <= w * t).
  { apply Rle_trans with (w * bpow radix2 (-101)); [|apply Rmult_le_compat_l; lra]. unfold w. rewrite <- bpow_plus. apply bpow_le. lia. }
  assert (C : bpow radix2 (-900) * (S0 * S1) <= w * (Rabs p * S1)).
  { apply Rle_trans with (w * t * (S0 * S1)); [apply Rmult_le_compat_r; [apply Rmult_le_pos; lra|exact B]|].
    replace (w * t * (S0 * S1)) with (w * ((t * S0) * S1)) by ring. apply Rmult_le_compat_l; [lra|]. apply Rmult_le_compat_r; lra. }
  lra.
Qed.
