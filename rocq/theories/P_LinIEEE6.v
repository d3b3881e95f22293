(** Mapping by [reference matrix * inverse] in binary64: how far an affine combination is from the combination of the images. *)
From Verif Require Import Base Num M_Linalg P_Round P_LinIEEE P_LinIEEE2 P_LinIEEE3 P_LinIEEE4 P_LinIEEE5.
From Coq Require Import Reals Lra Psatz.
From Flocq Require Import Core.
Open Scope R_scope.

(** a dot product *)
Lemma dotB r0 r1 r2 x0 x1 x2 B : big B -> Rabs (r0 * x0) + Rabs (r1 * x1) + Rabs (r2 * x2) <= B ->
  Rabs (dot3 NumB r0 r1 r2 x0 x1 x2 - (r0 * x0 + r1 * x1 + r2 * x2)) <= 6 * w * B /\ Rabs (dot3 NumB r0 r1 r2 x0 x1 x2) <= 1.01 * B.
Proof.
  intros HB HS. destruct (big_tiny B HB) as [_ P]. pose proof w_small as W.
  assert (WB : 0 <= w * B <= / 10000 * B) by (split; [apply Rmult_le_pos; lra|apply Rmult_le_compat_r; lra]).
  unfold dot3. cbn [fadd fmul NumB].
  set (p := r0 * x0) in *. set (q := r1 * x1) in *. set (s := r2 * x2) in *.
  pose proof (Rabs_pos p) as N0. pose proof (Rabs_pos q) as N1. pose proof (Rabs_pos s) as N2.
  pose proof (flB p B ltac:(lra) HB) as Ep. pose proof (flB q B ltac:(lra) HB) as Eq. pose proof (flB s B ltac:(lra) HB) as Es.
  set (p' := b64 p) in *. set (q' := b64 q) in *. set (s' := b64 s) in *.
  assert (S1 : Rabs (p + q) <= Rabs p + Rabs q) by apply Rabs_triang.
  assert (S2 : Rabs (p + q + s) <= B) by (eapply Rle_trans; [apply Rabs_triang|]; lra).
  apply Rabs_le_inv in Ep, Eq, Es.
  assert (H1 : Rabs (p' + q') <= 1.001 * B). { assert (S1' : Rabs (p + q) <= B) by lra. apply Rabs_le_inv in S1'. apply Rabs_le. lra. }
  pose proof (flB _ _ H1 ltac:(unfold big in *; lra)) as E1. set (t := b64 (p' + q')) in *. apply Rabs_le_inv in E1.
  apply Rabs_le_inv in S2.
  assert (H2 : Rabs (t + s') <= 1.001 * B) by (apply Rabs_le; lra).
  pose proof (flB _ _ H2 ltac:(unfold big in *; lra)) as E2. apply Rabs_le_inv in E2.
  split; apply Rabs_le; lra.
Qed.

Section Map.
Context (m9 : R) (a : matB) (Fa : all_b64 a) (k : R).
Notation S := (size_of m9 a).
Context (HS : forall i, (i < 3)%nat -> sz (S i)) (K : well_conditioned k S a) (Hk : 160 * w * k <= 1).
Context (rho L : R) (Hrho : 1 <= rho) (HL : 1 <= L).
Context (c0 c1 c2 : R) (HC : norm1 c0 c1 c2 <= L).
(** the point with coordinates [c] *)
Definition at_c (i : nat) : R := mget a i 0 * c0 + mget a i 1 * c1 + mget a i 2 * c2.

Lemma at_c_bound i : (i < 3)%nat -> Rabs (at_c i) <= L * S i.
Proof.
  intros Hi. unfold at_c. pose proof (size_bounds m9 a i 0 ltac:(lia)) as A0. pose proof (size_bounds m9 a i 1 ltac:(lia)) as A1. pose proof (size_bounds m9 a i 2 ltac:(lia)) as A2.
  eapply Rle_trans; [apply Rabs_triang|]. eapply Rle_trans; [apply Rplus_le_compat_r, Rabs_triang|].
  pose proof (Rabs_mul_le _ c0 _ _ A0 (Rle_refl _)). pose proof (Rabs_mul_le _ c1 _ _ A1 (Rle_refl _)). pose proof (Rabs_mul_le _ c2 _ _ A2 (Rle_refl _)).
  apply Rle_trans with (S i * norm1 c0 c1 c2); [unfold norm1; lra|]. rewrite Rmult_comm. apply Rmult_le_compat_r; [apply Rlt_le, sz_pos, HS, Hi|exact HC].
Qed.

Theorem map_B : exists X, Invert NumB (Ok m9) a = Ok (Some X) /\
  forall r0 r1 r2 v0 v1 v2 : R, Rabs r0 <= rho -> Rabs r1 <= rho -> Rabs r2 <= rho -> v0 = at_c 0 -> v1 = at_c 1 -> v2 = at_c 2 ->
  Rabs (dot3 NumB (dot3 NumB r0 r1 r2 (mget X 0 0) (mget X 1 0) (mget X 2 0)) (dot3 NumB r0 r1 r2 (mget X 0 1) (mget X 1 1) (mget X 2 1))
      (dot3 NumB r0 r1 r2 (mget X 0 2) (mget X 1 2) (mget X 2 2)) v0 v1 v2 - (r0 * c0 + r1 * c1 + r2 * c2)) <= 382 * w * rho * k ^ 2 * L.
Proof.
  destruct (Invert_B m9 a Fa k HS K Hk) as (X & EX & RX & NX). exists X. split; [exact EX|].
  intros r0 r1 r2 v0 v1 v2 B0 B1 B2 E0 E1 E2. pose proof (k1 m9 a k HS K) as K1. pose proof w_small as W.
  assert (QS : forall i, (i < 3)%nat -> 0 < S i) by (intros; apply sz_pos, HS; assumption).
  (* the transformation *)
  assert (TT : forall j, (j < 3)%nat -> let t := dot3 NumB r0 r1 r2 (mget X 0 j) (mget X 1 j) (mget X 2 j) in let B := rho * (5 / 3 * k / S j) in
    Rabs (t - (r0 * mget X 0 j + r1 * mget X 1 j + r2 * mget X 2 j)) <= 6 * w * B /\ Rabs t <= 1.01 * B).
  { intros j Hj t B. pose proof (NX j Hj) as N. pose proof (QS j Hj) as Q. apply dotB.
    - destruct (HS j Hj) as [_ U]. apply (big_ge (-60)); [lia|]. unfold B.
      apply Rle_trans with (1 * (/ S j)).
      + rewrite Rmult_1_l. change (-60)%Z with (- (60))%Z. rewrite bpow_opp. apply Rinv_le; lra.
      + assert (0 < / S j) by (apply Rinv_0_lt_compat; lra). apply Rmult_le_compat; try lra. unfold Rdiv. rewrite <- (Rmult_1_l (/ S j)) at 1. apply Rmult_le_compat_r; lra.
    - pose proof (Rabs_mul_le r0 (mget X 0 j) _ _ B0 (Rle_refl _)). pose proof (Rabs_mul_le r1 (mget X 1 j) _ _ B1 (Rle_refl _)). pose proof (Rabs_mul_le r2 (mget X 2 j) _ _ B2 (Rle_refl _)).
      apply Rle_trans with (rho * norm1 (mget X 0 j) (mget X 1 j) (mget X 2 j)); [unfold norm1; lra|]. unfold B. apply Rmult_le_compat_l; lra. }
  pose proof (TT 0%nat ltac:(lia)) as T0. pose proof (TT 1%nat ltac:(lia)) as T1. pose proof (TT 2%nat ltac:(lia)) as T2. cbv zeta in T0, T1, T2. clear TT.
  set (t0 := dot3 NumB r0 r1 r2 (mget X 0 0) (mget X 1 0) (mget X 2 0)) in *. set (t1 := dot3 NumB r0 r1 r2 (mget X 0 1) (mget X 1 1) (mget X 2 1)) in *. set (t2 := dot3 NumB r0 r1 r2 (mget X 0 2) (mget X 1 2) (mget X 2 2)) in *.
  clearbody t0 t1 t2.
  pose proof (at_c_bound 0 ltac:(lia)) as V0. pose proof (at_c_bound 1 ltac:(lia)) as V1. pose proof (at_c_bound 2 ltac:(lia)) as V2. rewrite <- E0 in V0. rewrite <- E1 in V1. rewrite <- E2 in V2.
  (* scaled products *)
  assert (MS : forall z v c i, (i < 3)%nat -> 0 <= c -> Rabs z <= c * (rho * (5 / 3 * k / S i)) -> Rabs v <= L * S i -> Rabs (z * v) <= c * (5 / 3) * (rho * k * L)).
  { intros z v c i Hi Hc Hz Hv. pose proof (QS i Hi). eapply Rle_trans; [apply (Rabs_mul_le _ _ _ _ Hz Hv)|]. right. field. lra. }
  set (Q := rho * k * L) in *.
  assert (Q1 : 1 <= Q).
  { unfold Q. assert (1 * 1 <= rho * k) by (apply Rmult_le_compat; lra). assert (1 * 1 <= (rho * k) * L) by (apply Rmult_le_compat; lra). lra. }
  assert (WQ : 0 <= w * Q) by (apply Rmult_le_pos; lra).
  destruct T0 as [T0 T0b], T1 as [T1 T1b], T2 as [T2 T2b].
  assert (P0 := MS t0 v0 1.01 0%nat ltac:(lia) ltac:(lra) T0b V0). assert (P1 := MS t1 v1 1.01 1%nat ltac:(lia) ltac:(lra) T1b V1). assert (P2 := MS t2 v2 1.01 2%nat ltac:(lia) ltac:(lra) T2b V2).
  assert (D0 := MS _ v0 (6 * w) 0%nat ltac:(lia) ltac:(lra) T0 V0). assert (D1 := MS _ v1 (6 * w) 1%nat ltac:(lia) ltac:(lra) T1 V1). assert (D2 := MS _ v2 (6 * w) 2%nat ltac:(lia) ltac:(lra) T2 V2).
  destruct (dotB t0 t1 t2 v0 v1 v2 (5.05 * Q)) as [O _].
  { apply (big_ge 0); [lia|]. change (bpow radix2 0) with 1. lra. }
  { lra. }
  set (out := dot3 NumB t0 t1 t2 v0 v1 v2) in *. clearbody out.
  (* the exact map *)
  set (y0 := mget X 0 0 * v0 + mget X 0 1 * v1 + mget X 0 2 * v2 - c0). set (y1 := mget X 1 0 * v0 + mget X 1 1 * v1 + mget X 1 2 * v2 - c1). set (y2 := mget X 2 0 * v0 + mget X 2 1 * v1 + mget X 2 2 * v2 - c2).
  assert (YR : forall i, (i < 3)%nat -> Rabs (mget a i 0 * y0 + mget a i 1 * y1 + mget a i 2 * y2) <= 321 * w * k * L * S i).
  { intros i Hi. pose proof (QS i Hi) as Qi.
    pose proof (RX i 0%nat Hi ltac:(lia)) as X0. pose proof (RX i 1%nat Hi ltac:(lia)) as X1. pose proof (RX i 2%nat Hi ltac:(lia)) as X2.
    set (d0 := mget a i 0 * mget X 0 0 + mget a i 1 * mget X 1 0 + mget a i 2 * mget X 2 0 - delta i 0) in *.
    set (d1 := mget a i 0 * mget X 0 1 + mget a i 1 * mget X 1 1 + mget a i 2 * mget X 2 1 - delta i 1) in *.
    set (d2 := mget a i 0 * mget X 0 2 + mget a i 1 * mget X 1 2 + mget a i 2 * mget X 2 2 - delta i 2) in *.
    assert (Ei : delta i 0 * v0 + delta i 1 * v1 + delta i 2 * v2 = at_c i).
    { rewrite E0, E1, E2. destruct i as [|[|[|i]]]; [| | |lia]; unfold delta; cbn [Nat.eqb]; ring. }
    replace (mget a i 0 * y0 + mget a i 1 * y1 + mget a i 2 * y2) with (d0 * v0 + d1 * v1 + d2 * v2).
    2:{ unfold d0, d1, d2, y0, y1, y2. unfold at_c in Ei. clear - Ei. lra. }
    assert (MZ : forall d v j, (j < 3)%nat -> Rabs d <= 107 * w * k * (S i / S j) -> Rabs v <= L * S j -> Rabs (d * v) <= 107 * w * k * L * S i).
    { intros d v j Hj Hd Hv. pose proof (QS j Hj). eapply Rle_trans; [apply (Rabs_mul_le _ _ _ _ Hd Hv)|]. right. field. lra. }
    pose proof (MZ d0 v0 0%nat ltac:(lia) X0 V0) as Z0. pose proof (MZ d1 v1 1%nat ltac:(lia) X1 V1) as Z1. pose proof (MZ d2 v2 2%nat ltac:(lia) X2 V2) as Z2.
    eapply Rle_trans; [apply Rabs_triang|]. eapply Rle_trans; [apply Rplus_le_compat_r, Rabs_triang|]. lra. }
  assert (YN : norm1 y0 y1 y2 <= 321 * w * k ^ 2 * L).
  { assert (T : forall S b, 0 < S -> Rabs b <= 321 * w * k * L * S -> norm1 y0 y1 y2 * S <= k * Rabs b -> norm1 y0 y1 y2 <= 321 * w * k ^ 2 * L).
    { intros s b Qs Hb H. apply Rmult_le_reg_r with s; [exact Qs|]. eapply Rle_trans; [exact H|].
      apply Rle_trans with (k * (321 * w * k * L * s)); [apply Rmult_le_compat_l; lra|]. right. ring. }
    destruct (K y0 y1 y2) as [H|[H|H]].
    - exact (T _ _ (QS 0%nat ltac:(lia)) (YR 0%nat ltac:(lia)) H).
    - exact (T _ _ (QS 1%nat ltac:(lia)) (YR 1%nat ltac:(lia)) H).
    - exact (T _ _ (QS 2%nat ltac:(lia)) (YR 2%nat ltac:(lia)) H). }
  assert (YY : Rabs (r0 * y0 + r1 * y1 + r2 * y2) <= rho * (321 * w * k ^ 2 * L)).
  { apply Rle_trans with (rho * norm1 y0 y1 y2); [|apply Rmult_le_compat_l; lra].
    pose proof (Rabs_mul_le r0 y0 _ _ B0 (Rle_refl _)). pose proof (Rabs_mul_le r1 y1 _ _ B1 (Rle_refl _)). pose proof (Rabs_mul_le r2 y2 _ _ B2 (Rle_refl _)).
    eapply Rle_trans; [apply Rabs_triang|]. eapply Rle_trans; [apply Rplus_le_compat_r, Rabs_triang|]. unfold norm1. lra. }
  replace (rho * (321 * w * k ^ 2 * L)) with (321 * (w * (Q * k))) in YY by (unfold Q; ring).
  replace (382 * w * rho * k ^ 2 * L) with (382 * (w * (Q * k))) by (unfold Q; ring).
  assert (QK : w * Q <= w * (Q * k)).
  { apply Rmult_le_compat_l; [lra|]. rewrite <- (Rmult_1_r Q) at 1. apply Rmult_le_compat_l; lra. }
  set (x0 := r0 * mget X 0 0 + r1 * mget X 1 0 + r2 * mget X 2 0) in *.
  set (x1 := r0 * mget X 0 1 + r1 * mget X 1 1 + r2 * mget X 2 1) in *.
  set (x2 := r0 * mget X 0 2 + r1 * mget X 1 2 + r2 * mget X 2 2) in *.
  replace (out - (r0 * c0 + r1 * c1 + r2 * c2)) with
    ((out - (t0 * v0 + t1 * v1 + t2 * v2)) + ((t0 - x0) * v0 + (t1 - x1) * v1 + (t2 - x2) * v2) + (r0 * y0 + r1 * y1 + r2 * y2)).
  2:{ unfold y0, y1, y2, x0, x1, x2. clear. change (F NumB) with R. generalize (mget X 0 0 : R), (mget X 0 1 : R), (mget X 0 2 : R), (mget X 1 0 : R), (mget X 1 1 : R), (mget X 1 2 : R), (mget X 2 0 : R), (mget X 2 1 : R), (mget X 2 2 : R). intros. ring. }
  assert (DD : Rabs ((t0 - x0) * v0 + (t1 - x1) * v1 + (t2 - x2) * v2) <= 30 * (w * Q)).
  { eapply Rle_trans; [apply Rabs_triang|]. eapply Rle_trans; [apply Rplus_le_compat_r, Rabs_triang|]. lra. }
  eapply Rle_trans; [apply Rabs_triang|]. eapply Rle_trans; [apply Rplus_le_compat_r, Rabs_triang|]. lra.
Qed.
End Map.

(** a matrix with a determinant *)
Definition det3 (a : matB) : R :=
  (mget a 0 0 : R) * (mget a 1 1 * mget a 2 2 - mget a 1 2 * mget a 2 1) - mget a 0 1 * (mget a 1 0 * mget a 2 2 - mget a 1 2 * mget a 2 0)
  + mget a 0 2 * (mget a 1 0 * mget a 2 1 - mget a 1 1 * mget a 2 0).
Lemma minor a b c d A B : 0 <= A -> 0 <= B -> Rabs a <= A -> Rabs b <= A -> Rabs c <= B -> Rabs d <= B -> Rabs (a * c - b * d) <= 2 * (A * B).
Proof.
  intros HA HB H1 H2 H3 H4. unfold Rminus. eapply Rle_trans; [apply Rabs_triang|]. rewrite Rabs_Ropp.
  pose proof (Rabs_mul_le a c _ _ H1 H3). pose proof (Rabs_mul_le b d _ _ H2 H4). lra.
Qed.
Lemma cond_det k s0 s1 s2 a00 a01 a02 a10 a11 a12 a20 a21 a22 : 0 < s0 -> 0 < s1 -> 0 < s2 ->
  Rabs a00 <= s0 -> Rabs a01 <= s0 -> Rabs a02 <= s0 -> Rabs a10 <= s1 -> Rabs a11 <= s1 -> Rabs a12 <= s1 -> Rabs a20 <= s2 -> Rabs a21 <= s2 -> Rabs a22 <= s2 ->
  let d := a00 * (a11 * a22 - a12 * a21) - a01 * (a10 * a22 - a12 * a20) + a02 * (a10 * a21 - a11 * a20) in
  d <> 0 -> 18 * (s0 * s1 * s2) <= k * Rabs d -> conditioned k s0 s1 s2 a00 a01 a02 a10 a11 a12 a20 a21 a22.
Proof.
  intros P0 P1 P2 A00 A01 A02 A10 A11 A12 A20 A21 A22 d Hd Hk x y z.
  set (r0 := a00 * x + a01 * y + a02 * z). set (r1 := a10 * x + a11 * y + a12 * z). set (r2 := a20 * x + a21 * y + a22 * z).
  assert (Pd : 0 < Rabs d) by (apply Rabs_pos_lt; exact Hd).
  assert (PP : 0 < s0 * s1 * s2) by (repeat apply Rmult_lt_0_compat; assumption).
  assert (Pk : 0 < k). { destruct (Rle_or_lt k 0) as [H|H]; [|exact H]. exfalso. assert (0 <= (- k) * Rabs d) by (apply Rmult_le_pos; lra). lra. }
  destruct (Rle_or_lt (norm1 x y z) 0) as [N|N].
  { left. assert (norm1 x y z * s0 <= 0). { assert (0 <= (- norm1 x y z) * s0) by (apply Rmult_le_pos; lra). lra. }
    assert (0 <= k * Rabs r0) by (apply Rmult_le_pos; [lra|apply Rabs_pos]). lra. }
  destruct (Rle_or_lt (norm1 x y z * s0) (k * Rabs r0)) as [H0|H0]; [left; exact H0|].
  destruct (Rle_or_lt (norm1 x y z * s1) (k * Rabs r1)) as [H1|H1]; [right; left; exact H1|].
  destruct (Rle_or_lt (norm1 x y z * s2) (k * Rabs r2)) as [H2|H2]; [right; right; exact H2|].
  exfalso.
  assert (Q : forall u c0 c1 c2, d * u = c0 * r0 + c1 * r1 + c2 * r2 -> Rabs c0 <= 2 * (s1 * s2) -> Rabs c1 <= 2 * (s0 * s2) -> Rabs c2 <= 2 * (s0 * s1) ->
     k * (Rabs d * Rabs u) < 6 * (s0 * s1 * s2) * norm1 x y z).
  { intros u c0 c1 c2 E C0 C1 C2. rewrite <- Rabs_mult, E.
    assert (T : Rabs (c0 * r0 + c1 * r1 + c2 * r2) <= 2 * (s1 * s2) * Rabs r0 + 2 * (s0 * s2) * Rabs r1 + 2 * (s0 * s1) * Rabs r2).
    { eapply Rle_trans; [apply Rabs_triang|]. eapply Rle_trans; [apply Rplus_le_compat_r, Rabs_triang|].
      pose proof (Rabs_mul_le c0 r0 _ _ C0 (Rle_refl _)). pose proof (Rabs_mul_le c1 r1 _ _ C1 (Rle_refl _)). pose proof (Rabs_mul_le c2 r2 _ _ C2 (Rle_refl _)). lra. }
    apply Rmult_le_compat_l with (r := k) in T; [|lra].
    assert (U0 : 2 * (s1 * s2) * (k * Rabs r0) < 2 * (s1 * s2) * (norm1 x y z * s0)) by (apply Rmult_lt_compat_l; [|exact H0]; assert (0 < s1 * s2) by (apply Rmult_lt_0_compat; lra); lra).
    assert (U1 : 2 * (s0 * s2) * (k * Rabs r1) < 2 * (s0 * s2) * (norm1 x y z * s1)) by (apply Rmult_lt_compat_l; [|exact H1]; assert (0 < s0 * s2) by (apply Rmult_lt_0_compat; lra); lra).
    assert (U2 : 2 * (s0 * s1) * (k * Rabs r2) < 2 * (s0 * s1) * (norm1 x y z * s2)) by (apply Rmult_lt_compat_l; [|exact H2]; assert (0 < s0 * s1) by (apply Rmult_lt_0_compat; lra); lra).
    lra. }
  assert (Z : forall s, 0 < s -> 0 <= s) by (intros; lra).
  assert (Qx := Q x (a11 * a22 - a12 * a21) (a02 * a21 - a01 * a22) (a01 * a12 - a02 * a11) ltac:(unfold d, r0, r1, r2; ring)
     ltac:(apply minor; auto) ltac:(apply minor; auto) ltac:(apply minor; auto)).
  assert (Qy := Q y (a12 * a20 - a10 * a22) (a00 * a22 - a02 * a20) (a02 * a10 - a00 * a12) ltac:(unfold d, r0, r1, r2; ring)
     ltac:(apply minor; auto) ltac:(apply minor; auto) ltac:(apply minor; auto)).
  assert (Qz := Q z (a10 * a21 - a11 * a20) (a01 * a20 - a00 * a21) (a00 * a11 - a01 * a10) ltac:(unfold d, r0, r1, r2; ring)
     ltac:(apply minor; auto) ltac:(apply minor; auto) ltac:(apply minor; auto)).
  assert (A : k * (Rabs d * norm1 x y z) < 18 * (s0 * s1 * s2) * norm1 x y z) by (unfold norm1 in *; lra).
  assert (B : 18 * (s0 * s1 * s2) * norm1 x y z <= k * Rabs d * norm1 x y z) by (apply Rmult_le_compat_r; lra). lra.
Qed.
Lemma well_conditioned_det m9 a k : (forall i, (i < 3)%nat -> 0 < size_of m9 a i) -> det3 a <> 0 ->
  18 * (size_of m9 a 0 * size_of m9 a 1 * size_of m9 a 2) <= k * Rabs (det3 a) -> well_conditioned k (size_of m9 a) a.
Proof.
  intros HS Hd Hk. apply cond_det; try (apply size_bounds; lia); try (apply HS; lia); [exact Hd|exact Hk].
Qed.
