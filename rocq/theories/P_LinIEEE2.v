(** The decomposition and the solution in binary64, on plain numbers. *)
From Verif Require Import Base Num M_Linalg P_Round P_LinIEEE.
From Coq Require Import Reals Lra Psatz.
From Flocq Require Import Core.
Open Scope R_scope.

Ltac absle := match goal with H : Rabs ?x <= _ |- _ => idtac end.
Lemma Rabs_mul_le a b x y : Rabs a <= x -> Rabs b <= y -> Rabs (a * b) <= x * y.
Proof. intros. rewrite Rabs_mult. apply Rmult_le_compat; auto using Rabs_pos. Qed.
(** |l * b| when |l| * S0 <= c * S1 and |b| <= k * S0 *)
Lemma mul_scaled l b S0 S1 c k : 0 <= k -> Rabs l * S0 <= c * S1 -> Rabs b <= k * S0 -> Rabs (l * b) <= c * k * S1.
Proof.
  intros Hk Hl Hb. rewrite Rabs_mult. apply Rle_trans with (Rabs l * (k * S0)); [apply Rmult_le_compat_l; [apply Rabs_pos|exact Hb]|].
  replace (Rabs l * (k * S0)) with (k * (Rabs l * S0)) by ring. apply Rle_trans with (k * (c * S1)); [apply Rmult_le_compat_l; lra|]. right. ring.
Qed.

Section Core.
Context (S0 S1 S2 : R) (HS0 : sz S0) (HS1 : sz S1) (HS2 : sz S2).
Context (b00 b01 b02 b10 b11 b12 b20 b21 b22 : R).

(** the factors: what the decomposition guarantees *)
Record factors (l1 u11 u12 l2 l21 u22 : R) : Prop := {
  f_l1 : Rabs l1 * S0 <= 1.01 * S1; f_l2 : Rabs l2 * S0 <= 1.01 * S2; f_l21 : Rabs l21 * S1 <= 1.01 * S2;
  f_u11 : Rabs u11 <= 2.03 * S1; f_u12 : Rabs u12 <= 2.03 * S1; f_u22 : Rabs u22 <= 4.2 * S2;
  f_10 : Rabs (l1 * b00 - b10) <= 7 * w * S1; f_11 : Rabs (l1 * b01 + u11 - b11) <= 4 * w * S1; f_12 : Rabs (l1 * b02 + u12 - b12) <= 4 * w * S1;
  f_20 : Rabs (l2 * b00 - b20) <= 7 * w * S2; f_21 : Rabs (l2 * b01 + l21 * u11 - b21) <= 11 * w * S2;
  f_22 : Rabs (l2 * b02 + l21 * u12 + u22 - b22) <= 11 * w * S2;
  f_p0 : b00 <> 0; f_p1 : u11 <> 0; f_p2 : u22 <> 0 }.

Context (B00 : Rabs b00 <= S0) (B01 : Rabs b01 <= S0) (B02 : Rabs b02 <= S0)
        (B10 : Rabs b10 <= S1) (B11 : Rabs b11 <= S1) (B12 : Rabs b12 <= S1)
        (B20 : Rabs b20 <= S2) (B21 : Rabs b21 <= S2) (B22 : Rabs b22 <= S2).

(** ** Solving *)
Context (G : R) (HG : sz G).
Context (f0 f1 f2 : R) (F0 : Rabs f0 <= G * S0) (F1 : Rabs f1 <= G * S1) (F2 : Rabs f2 <= G * S2).

Lemma scale_G S : sz S -> big (G * S).
Proof.
  intros HS. apply (big_ge (-120)); [lia|]. destruct HG as [A _]. pose proof (sz_pos _ HS). destruct HS as [B _].
  replace (-120)%Z with (-60 + -60)%Z by lia. rewrite bpow_plus. apply Rmult_le_compat; auto using bpow_ge_0.
Qed.
Lemma solve_residual l1 u11 u12 l2 l21 u22 : factors l1 u11 u12 l2 l21 u22 ->
  let y1 := b64 (f1 - b64 (l1 * f0)) in
  let y2 := b64 (f2 - b64 (b64 (l2 * f0) + b64 (l21 * y1))) in
  let x2 := b64 (y2 / u22) in
  let x1 := b64 (b64 (y1 - b64 (u12 * x2)) / u11) in
  let x0 := b64 (b64 (f0 - b64 (b64 (b01 * x1) + b64 (b02 * x2))) / b00) in
  let M := Rabs x0 + Rabs x1 + Rabs x2 + G in
  Rabs (b00 * x0 + b01 * x1 + b02 * x2 - f0) <= 40 * w * M * S0 /\
  Rabs (b10 * x0 + b11 * x1 + b12 * x2 - f1) <= 40 * w * M * S1 /\
  Rabs (b20 * x0 + b21 * x1 + b22 * x2 - f2) <= 40 * w * M * S2.
Proof.
  intros [L1 L2 L21 U11 U12 U22 D10 D11 D12 D20 D21 D22 P0 P1 P2] y1 y2 x2 x1 x0 M. pose proof w_small as W.
  pose proof (sz_pos _ HS0) as Q0. pose proof (sz_pos _ HS1) as Q1. pose proof (sz_pos _ HS2) as Q2. pose proof (sz_pos _ HG) as QG.
  pose proof (scale_G S0 HS0) as G0. pose proof (scale_G S1 HS1) as G1. pose proof (scale_G S2 HS2) as G2.
  (* y1 *)
  assert (A1 : Rabs (l1 * f0) <= 1.01 * (G * S1)).
  { replace (1.01 * (G * S1)) with (1.01 * G * S1) by ring. apply (mul_scaled l1 f0 S0 S1); [lra|exact L1|exact F0]. }
  destruct (fe1 f1 (l1 * f0) (G * S1) G1 F1 A1) as [Y1 Y1b]. fold y1 in Y1, Y1b.
  (* y2 *)
  assert (A2 : Rabs (l2 * f0) <= 1.02 * (G * S2)).
  { eapply Rle_trans; [apply (mul_scaled l2 f0 S0 S2 1.01 G); [lra|exact L2|exact F0]|].
    assert (0 <= G * S2) by (apply Rmult_le_pos; lra). lra. }
  assert (A3 : Rabs (l21 * y1) <= 2.06 * (G * S2)).
  { eapply Rle_trans; [apply (mul_scaled l21 y1 S1 S2 1.01 (2.03 * G)); [lra|exact L21|]|].
    - replace (2.03 * G * S1) with (2.03 * (G * S1)) by ring. exact Y1b.
    - assert (0 <= G * S2) by (apply Rmult_le_pos; lra). lra. }
  destruct (fe2 f2 (l2 * f0) (l21 * y1) (G * S2) G2 F2 A2 A3) as [Y2 Y2b]. fold y2 in Y2, Y2b.
  (* x2 *)
  assert (X2 : Rabs (u22 * x2 - y2) <= w * (4.2 * (G * S2))).
  { apply flD; [exact P2|exact Y2b| |].
    - unfold big in *. assert (0 < G * S2) by (apply Rmult_lt_0_compat; lra). lra.
    - apply Rle_trans with (4.2 * S2); [exact U22|]. destruct HG as [HGl _].
      assert (1 <= bpow radix2 100 * G).
      { apply Rle_trans with (bpow radix2 100 * bpow radix2 (-60)); [rewrite <- bpow_plus; change 1 with (bpow radix2 0); apply bpow_le; lia|].
        apply Rmult_le_compat_l; [apply bpow_ge_0|exact HGl]. }
      replace (bpow radix2 100 * (4.2 * (G * S2))) with (4.2 * ((bpow radix2 100 * G) * S2)) by ring.
      apply Rmult_le_compat_l; [lra|]. rewrite <- (Rmult_1_l S2) at 1. apply Rmult_le_compat_r; lra. }
  assert (N0 := Rabs_pos x0). assert (N1 := Rabs_pos x1). assert (N2 := Rabs_pos x2).
  assert (MG : G <= M) by (unfold M; lra). assert (M2 : Rabs x2 <= M) by (unfold M; lra). assert (M12 : Rabs x1 + Rabs x2 <= M) by (unfold M; lra).
  assert (QM : 0 < M) by lra.
  assert (BM : forall S, sz S -> big (M * S)).
  { intros S HS. pose proof (scale_G S HS) as B. pose proof (sz_pos _ HS). unfold big in *. eapply Rle_trans; [exact B|]. apply Rmult_le_compat_r; lra. }
  assert (GM : forall S, 0 < S -> G * S <= M * S) by (intros; apply Rmult_le_compat_r; lra).
  assert (W3 : forall S, 0 < S -> 0 <= w * (M * S) <= / 1000 * (M * S)).
  { intros S HS. assert (0 < M * S) by (apply Rmult_lt_0_compat; lra). split; [apply Rmult_le_pos; lra|apply Rmult_le_compat_r; lra]. }
  assert (DV : forall d S c, 1 <= c -> sz S -> Rabs d <= 5 * S -> Rabs d <= bpow radix2 100 * (c * (M * S))).
  { intros d S c Hc HS Hd. pose proof (sz_pos _ HS) as QS. destruct HG as [HGl _].
    assert (5 <= bpow radix2 100 * M).
    { apply Rle_trans with (bpow radix2 100 * bpow radix2 (-60)).
      - rewrite <- bpow_plus. apply Rle_trans with (bpow radix2 3); [simpl; lra|apply bpow_le; lia].
      - apply Rmult_le_compat_l; [apply bpow_ge_0|lra]. }
    apply Rle_trans with (5 * S); [exact Hd|]. replace (bpow radix2 100 * (c * (M * S))) with (c * ((bpow radix2 100 * M) * S)) by ring.
    apply Rle_trans with (1 * ((bpow radix2 100 * M) * S)); [rewrite Rmult_1_l; apply Rmult_le_compat_r; lra|].
    apply Rmult_le_compat_r; [apply Rmult_le_pos; [lra|lra]|exact Hc]. }
  (* x1 *)
  assert (X1 : Rabs (u11 * x1 + u12 * x2 - y1) <= 6.2 * w * (M * S1)).
  { assert (H1 : Rabs (u12 * x2) <= 2.03 * (M * S1)).
    { replace (2.03 * (M * S1)) with (2.03 * S1 * M) by ring. apply Rabs_mul_le; assumption. }
    pose proof (W3 S1 Q1) as V. pose proof (BM S1 HS1) as BB. pose proof (GM S1 Q1) as GG.
    pose proof (flB _ _ H1 ltac:(unfold big in *; lra)) as E. 
    assert (H1' : Rabs (u12 * x2) <= 2.03 * (Rabs x2 * S1)).
    { replace (2.03 * (Rabs x2 * S1)) with (2.03 * S1 * Rabs x2) by ring. apply Rabs_mul_le; [assumption|right; reflexivity]. }
    assert (HM : Rabs x2 * S1 + G * S1 <= M * S1) by (rewrite <- Rmult_plus_distr_r; apply Rmult_le_compat_r; unfold M; lra).
    set (p := b64 (u12 * x2)) in *. set (P := u12 * x2) in *.
    apply Rabs_le_inv in E, H1'. pose proof Y1b as Y1b'. apply Rabs_le_inv in Y1b'.
    assert (H2 : Rabs (y1 - p) <= 2.04 * (M * S1)) by (apply Rabs_le; lra).
    pose proof (flB _ _ H2 ltac:(unfold big in *; lra)) as E'. set (z := b64 (y1 - p)) in *.
    apply Rabs_le_inv in E', H2. assert (H3 : Rabs z <= 2.05 * (M * S1)) by (apply Rabs_le; lra).
    assert (E3 : Rabs (u11 * x1 - z) <= w * (2.05 * (M * S1))).
    { apply flD; [exact P1|exact H3|unfold big in *; lra|]. apply DV; [lra|exact HS1|lra]. }
    apply Rabs_le_inv in E3. apply Rabs_le. lra. }
  (* x0 *)
  assert (X0 : Rabs (b00 * x0 + b01 * x1 + b02 * x2 - f0) <= 6 * w * (M * S0)).
  { pose proof (W3 S0 Q0) as V. pose proof (BM S0 HS0) as BB. pose proof (GM S0 Q0) as GG.
    assert (T1 : Rabs (b01 * x1) <= Rabs x1 * S0) by (rewrite Rmult_comm; apply Rabs_mul_le; [right; reflexivity|assumption]).
    assert (T2 : Rabs (b02 * x2) <= Rabs x2 * S0) by (rewrite Rmult_comm; apply Rabs_mul_le; [right; reflexivity|assumption]).
    assert (HM : Rabs x1 * S0 + Rabs x2 * S0 + G * S0 <= M * S0) by (rewrite <- !Rmult_plus_distr_r; apply Rmult_le_compat_r; unfold M; lra).
    assert (K1 : 0 <= Rabs x1 * S0) by (apply Rmult_le_pos; lra). assert (K2 : 0 <= Rabs x2 * S0) by (apply Rmult_le_pos; lra).
    assert (K3 : 0 <= G * S0) by (apply Rmult_le_pos; lra).
    pose proof (flB (b01 * x1) (M * S0) ltac:(lra) BB) as Ea. pose proof (flB (b02 * x2) (M * S0) ltac:(lra) BB) as Eb.
    set (p := b64 (b01 * x1)) in *. set (q := b64 (b02 * x2)) in *. set (P := b01 * x1) in *. set (Q := b02 * x2) in *.
    pose proof F0 as F0'. apply Rabs_le_inv in T1, T2, Ea, Eb, F0'.
    assert (H3 : Rabs (p + q) <= 1.01 * (M * S0)) by (apply Rabs_le; lra).
    pose proof (flB _ _ H3 ltac:(unfold big in *; lra)) as Ec. set (t := b64 (p + q)) in *. apply Rabs_le_inv in Ec.
    assert (H4 : Rabs (f0 - t) <= 1.02 * (M * S0)) by (apply Rabs_le; lra).
    pose proof (flB _ _ H4 ltac:(unfold big in *; lra)) as Ed. set (z := b64 (f0 - t)) in *. apply Rabs_le_inv in Ed, H4.
    assert (H5 : Rabs z <= 1.03 * (M * S0)) by (apply Rabs_le; lra).
    assert (Ee : Rabs (b00 * x0 - z) <= w * (1.03 * (M * S0))).
    { apply flD; [exact P0|exact H5|unfold big in *; lra|]. apply DV; [lra|exact HS0|lra]. }
    apply Rabs_le_inv in Ee. apply Rabs_le. lra. }
  set (r0 := b00 * x0 + b01 * x1 + b02 * x2 - f0) in *.
  set (r1 := u11 * x1 + u12 * x2 - y1) in *. set (r2 := u22 * x2 - y2) in *.
  assert (MS : Rabs x0 + Rabs x1 + Rabs x2 <= M) by (unfold M; lra). clearbody M x0 x1 x2 y2 y1.
  split; [|split].
  - eapply Rle_trans; [exact X0|]. pose proof (W3 S0 Q0). replace (40 * w * M * S0) with (40 * (w * (M * S0))) by ring. lra.
  - replace (b10 * x0 + b11 * x1 + b12 * x2 - f1) with
      (l1 * r0 + r1 + (y1 - (f1 - l1 * f0)) - ((l1 * b00 - b10) * x0 + (l1 * b01 + u11 - b11) * x1 + (l1 * b02 + u12 - b12) * x2))
      by (unfold r0, r1; ring).
    pose proof (W3 S1 Q1) as V. pose proof (GM S1 Q1) as GG.
    assert (T0 : Rabs (l1 * r0) <= 6.06 * (w * (M * S1))).
    { eapply Rle_trans; [apply (mul_scaled l1 r0 S0 S1 1.01 (6 * w * M)); [apply Rmult_le_pos; lra|exact L1|]|].
      - replace (6 * w * M * S0) with (6 * w * (M * S0)) by ring. exact X0.
      - lra. }
    assert (T1 : Rabs ((l1 * b00 - b10) * x0 + (l1 * b01 + u11 - b11) * x1 + (l1 * b02 + u12 - b12) * x2) <= 7 * (w * (M * S1))).
    { assert (WS : 0 <= w * S1) by (apply Rmult_le_pos; lra).
      pose proof (Rabs_mul_le _ x0 _ _ D10 (Rle_refl _)). pose proof (Rabs_mul_le _ x1 _ _ D11 (Rle_refl _)). pose proof (Rabs_mul_le _ x2 _ _ D12 (Rle_refl _)).
      eapply Rle_trans; [apply Rabs_triang|]. eapply Rle_trans; [apply Rplus_le_compat_r, Rabs_triang|].
      apply Rle_trans with (7 * w * S1 * (Rabs x0 + Rabs x1 + Rabs x2)).
      - assert (0 <= w * S1 * Rabs x1) by (apply Rmult_le_pos; lra). assert (0 <= w * S1 * Rabs x2) by (apply Rmult_le_pos; lra). lra.
      - replace (7 * (w * (M * S1))) with (7 * w * S1 * M) by ring. apply Rmult_le_compat_l; [lra|exact MS]. }
    assert (WG : w * (G * S1) <= w * (M * S1)) by (apply Rmult_le_compat_l; lra).
    pose proof Y1 as Y1'. apply Rabs_le_inv in T0, T1, X1, Y1'. apply Rabs_le. split; lra.
  - replace (b20 * x0 + b21 * x1 + b22 * x2 - f2) with
      (l2 * r0 + l21 * r1 + r2 + (y2 - (f2 - l2 * f0 - l21 * y1)) -
       ((l2 * b00 - b20) * x0 + (l2 * b01 + l21 * u11 - b21) * x1 + (l2 * b02 + l21 * u12 + u22 - b22) * x2))
      by (unfold r0, r1, r2; ring).
    pose proof (W3 S2 Q2) as V. pose proof (GM S2 Q2) as GG.
    assert (T0 : Rabs (l2 * r0) <= 6.06 * (w * (M * S2))).
    { eapply Rle_trans; [apply (mul_scaled l2 r0 S0 S2 1.01 (6 * w * M)); [apply Rmult_le_pos; lra|exact L2|]|].
      - replace (6 * w * M * S0) with (6 * w * (M * S0)) by ring. exact X0.
      - lra. }
    assert (T0' : Rabs (l21 * r1) <= 6.262 * (w * (M * S2))).
    { eapply Rle_trans; [apply (mul_scaled l21 r1 S1 S2 1.01 (6.2 * w * M)); [apply Rmult_le_pos; lra|exact L21|]|].
      - replace (6.2 * w * M * S1) with (6.2 * w * (M * S1)) by ring. exact X1.
      - lra. }
    assert (T1 : Rabs ((l2 * b00 - b20) * x0 + (l2 * b01 + l21 * u11 - b21) * x1 + (l2 * b02 + l21 * u12 + u22 - b22) * x2) <= 11 * (w * (M * S2))).
    { assert (WS : 0 <= w * S2) by (apply Rmult_le_pos; lra).
      pose proof (Rabs_mul_le _ x0 _ _ D20 (Rle_refl _)). pose proof (Rabs_mul_le _ x1 _ _ D21 (Rle_refl _)). pose proof (Rabs_mul_le _ x2 _ _ D22 (Rle_refl _)).
      eapply Rle_trans; [apply Rabs_triang|]. eapply Rle_trans; [apply Rplus_le_compat_r, Rabs_triang|].
      apply Rle_trans with (11 * w * S2 * (Rabs x0 + Rabs x1 + Rabs x2)).
      - assert (0 <= w * S2 * Rabs x0) by (apply Rmult_le_pos; lra). lra.
      - replace (11 * (w * (M * S2))) with (11 * w * S2 * M) by ring. apply Rmult_le_compat_l; [lra|exact MS]. }
    assert (WG : w * (G * S2) <= w * (M * S2)) by (apply Rmult_le_compat_l; lra).
    pose proof Y2 as Y2'. apply Rabs_le_inv in T0, T0', T1, X2, Y2'. apply Rabs_le. split; lra.
Qed.
End Core.
