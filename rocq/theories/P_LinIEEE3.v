(** The decomposition in binary64, on plain numbers: the pivots are not zero and the factors multiply to the matrix. *)
From Verif Require Import Base Num M_Linalg P_Round P_LinIEEE P_LinIEEE2.
From Coq Require Import Reals Lra Psatz.
From Flocq Require Import Core.
Open Scope R_scope.

Definition norm1 (x y z : R) : R := Rabs x + Rabs y + Rabs z.
(** no vector is made small by all three rows *)
Definition conditioned (k S0 S1 S2 b00 b01 b02 b10 b11 b12 b20 b21 b22 : R) : Prop := forall x y z : R,
  norm1 x y z * S0 <= k * Rabs (b00 * x + b01 * y + b02 * z) \/
  norm1 x y z * S1 <= k * Rabs (b10 * x + b11 * y + b12 * z) \/
  norm1 x y z * S2 <= k * Rabs (b20 * x + b21 * y + b22 * z).
(** the computed multiplier *)
Definition mult (b p : R) : R := b64 (b * b64 (1 / p)).
Definition wins (S b S' b' : R) : Prop := b64 (b64 (1 / S') * Rabs b') <= b64 (b64 (1 / S) * Rabs b).

Lemma norm1_nonneg x y z : 0 <= norm1 x y z.
Proof. unfold norm1. pose proof (Rabs_pos x). pose proof (Rabs_pos y). pose proof (Rabs_pos z). lra. Qed.

Section LU.
Context (S0 S1 S2 : R) (HS0 : sz S0) (HS1 : sz S1) (HS2 : sz S2).
Context (b00 b01 b02 b10 b11 b12 b20 b21 b22 : R).
Context (B00 : Rabs b00 <= S0) (B01 : Rabs b01 <= S0) (B02 : Rabs b02 <= S0)
        (B10 : Rabs b10 <= S1) (B11 : Rabs b11 <= S1) (B12 : Rabs b12 <= S1)
        (B20 : Rabs b20 <= S2) (B21 : Rabs b21 <= S2) (B22 : Rabs b22 <= S2).
Context (k : R) (K : conditioned k S0 S1 S2 b00 b01 b02 b10 b11 b12 b20 b21 b22) (Hk : 160 * w * k <= 1).

Lemma k_ge1 : 1 <= k.
Proof.
  pose proof (sz_pos _ HS0) as Q0. pose proof (sz_pos _ HS1) as Q1. pose proof (sz_pos _ HS2) as Q2.
  assert (T : forall S b, 0 < S -> Rabs b <= S -> S <= k * Rabs b -> 1 <= k).
  { intros S b Q B H. pose proof (Rabs_pos b). destruct (Rle_or_lt k 0) as [Hn|Hp].
    - exfalso. assert (k * Rabs b <= 0) by (assert (0 <= (- k) * Rabs b) by (apply Rmult_le_pos; lra); lra). lra.
    - assert (k * Rabs b <= k * S) by (apply Rmult_le_compat_l; lra). apply Rmult_le_reg_r with S; lra. }
  destruct (K 1 0 0) as [H|[H|H]]; unfold norm1 in H; rewrite Rabs_R1, Rabs_R0, !Rmult_0_r, !Rplus_0_r, Rmult_1_r, Rmult_1_l in H.
  - apply (T S0 b00); assumption.
  - apply (T S1 b10); assumption.
  - apply (T S2 b20); assumption.
Qed.
Lemma t_range : bpow radix2 (-100) <= / (2 * k) /\ bpow radix2 (-101) <= / (2 * k) / 2.
Proof.
  pose proof k_ge1 as K1. pose proof w_small as W.
  assert (H : 2 * k <= bpow radix2 100).
  { apply Rle_trans with (bpow radix2 52); [|apply bpow_le; lia]. assert (w * bpow radix2 52 = 1) by (unfold w; rewrite <- bpow_plus; reflexivity).
    apply Rmult_le_reg_l with w; [lra|]. rewrite H. lra. }
  assert (H1 : bpow radix2 (-100) <= / (2 * k)).
  { change (-100)%Z with (- (100))%Z. rewrite bpow_opp. apply Rinv_le; lra. }
  split; [exact H1|]. replace (-101)%Z with (-100 + -1)%Z by lia. rewrite bpow_plus. change (bpow radix2 (-1)) with (/ 2). lra.
Qed.

(** column 0 *)
Lemma pivot0 : wins S0 b00 S1 b10 -> wins S0 b00 S2 b20 -> / (2 * k) / 2 * S0 <= Rabs b00.
Proof.
  intros W1 W2. pose proof (sz_pos _ HS0) as Q0. pose proof (sz_pos _ HS1) as Q1. pose proof (sz_pos _ HS2) as Q2. pose proof k_ge1 as K1. destruct t_range as [T1 _].
  assert (I : forall S b, 0 < S -> S <= k * Rabs b -> / (2 * k) * S <= Rabs b).
  { intros S b Q H. apply Rmult_le_reg_l with (2 * k); [lra|]. rewrite <- Rmult_assoc, Rinv_r, Rmult_1_l by lra. pose proof (Rabs_pos b). lra. }
  destruct (K 1 0 0) as [H|[H|H]]; unfold norm1 in H; rewrite Rabs_R1, Rabs_R0, !Rmult_0_r, !Rplus_0_r, Rmult_1_r, Rmult_1_l in H.
  - apply I in H; [|exact Q0]. assert (0 < / (2 * k) * S0) by (apply Rmult_lt_0_compat; [apply Rinv_0_lt_compat; lra|lra]). lra.
  - apply (fe6 b10 b00 S0 S1 (/ (2 * k))); try assumption; try lra. apply I; assumption.
  - apply (fe6 b20 b00 S0 S2 (/ (2 * k))); try assumption; try lra. apply I; assumption.
Qed.
Lemma pivot0_nz : wins S0 b00 S1 b10 -> wins S0 b00 S2 b20 -> b00 <> 0.
Proof.
  intros W1 W2 E. pose proof (pivot0 W1 W2) as H. rewrite E, Rabs_R0 in H. pose proof (sz_pos _ HS0). pose proof k_ge1.
  assert (0 < / (2 * k) / 2 * S0) by (apply Rmult_lt_0_compat; [|lra]; assert (0 < / (2 * k)) by (apply Rinv_0_lt_compat; lra); lra). lra.
Qed.
Lemma mult0 : wins S0 b00 S1 b10 -> wins S0 b00 S2 b20 ->
  (Rabs (mult b10 b00 * b00 - b10) <= 7 * w * S1 /\ Rabs (mult b10 b00) * S0 <= 1.01 * S1) /\
  (Rabs (mult b20 b00 * b00 - b20) <= 7 * w * S2 /\ Rabs (mult b20 b00) * S0 <= 1.01 * S2).
Proof.
  intros W1 W2. pose proof (pivot0 W1 W2) as P. pose proof (pivot0_nz W1 W2) as N. destruct t_range as [_ T].
  pose proof (sz_pos _ HS0) as Q0. pose proof (sz_pos _ HS1) as Q1. pose proof (sz_pos _ HS2) as Q2.
  split; apply fe3; try assumption; try lra.
  - apply (fe5 b10 b00 S0 S1 (/ (2 * k) / 2)); try assumption; lra.
  - apply (fe5 b20 b00 S0 S2 (/ (2 * k) / 2)); try assumption; lra.
Qed.

(** column 1 *)
Definition elem1 (b l : R) : R := b64 (b - b64 (l * b01)).
Lemma elem1_ok b l S : sz S -> Rabs b <= S -> Rabs l * S0 <= 1.01 * S ->
  Rabs (elem1 b l - (b - l * b01)) <= 4 * w * S /\ Rabs (elem1 b l) <= 2.03 * S.
Proof.
  intros HS B L. apply fe1; [apply sz_big, HS|exact B|]. pose proof (mul_scaled l b01 S0 S 1.01 1 ltac:(lra) L ltac:(lra)) as H. lra.
Qed.
Lemma col1 l1 l2 : b00 <> 0 ->
  Rabs (l1 * b00 - b10) <= 7 * w * S1 -> Rabs l1 * S0 <= 1.01 * S1 ->
  Rabs (l2 * b00 - b20) <= 7 * w * S2 -> Rabs l2 * S0 <= 1.01 * S2 ->
  / (2 * k) * S1 <= Rabs (elem1 b11 l1) \/ / (2 * k) * S2 <= Rabs (elem1 b21 l2).
Proof.
  intros N D1 L1 D2 L2. pose proof (sz_pos _ HS0) as Q0. pose proof (sz_pos _ HS1) as Q1. pose proof (sz_pos _ HS2) as Q2. pose proof k_ge1 as K1. pose proof w_small as W.
  destruct (elem1_ok b11 l1 S1 HS1 B11 L1) as [E1 _]. destruct (elem1_ok b21 l2 S2 HS2 B21 L2) as [E2 _].
  set (x := - b01 / b00).
  assert (Z0 : b00 * x + b01 * 1 + b02 * 0 = 0) by (unfold x; field; exact N).
  assert (NN : 1 <= norm1 x 1 0) by (unfold norm1; rewrite Rabs_R1, Rabs_R0; pose proof (Rabs_pos x); lra).
  assert (NX : Rabs x + 1 = norm1 x 1 0) by (unfold norm1; rewrite Rabs_R1, Rabs_R0; ring).
  assert (T : forall S b c l, 0 < S -> Rabs (l * b00 - b) <= 7 * w * S -> Rabs (elem1 c l - (c - l * b01)) <= 4 * w * S ->
    norm1 x 1 0 * S <= k * Rabs (b * x + c * 1 + 0 * 0) -> / (2 * k) * S <= Rabs (elem1 c l)).
  { intros S b c l Q D E H. set (nn := norm1 x 1 0) in *.
    replace (b * x + c * 1 + 0 * 0) with (elem1 c l - (elem1 c l - (c - l * b01)) - (l * b00 - b) * x) in H.
    2:{ replace (l * b01) with (- (l * (b00 * x))). 2:{ replace (b00 * x) with (- b01) by (unfold x; field; exact N). ring. } ring. }
    set (e := elem1 c l) in *.
    assert (A : Rabs (e - (e - (c - l * b01)) - (l * b00 - b) * x) <= Rabs e + 7 * w * S * nn).
    { unfold Rminus at 1. eapply Rle_trans; [apply Rabs_triang|]. rewrite Rabs_Ropp. unfold Rminus at 1. 
      assert (A1 : Rabs ((l * b00 - b) * x) <= 7 * w * S * Rabs x) by (apply Rabs_mul_le; [exact D|lra]).
      assert (A2 : Rabs (e + - (e - (c - l * b01))) <= Rabs e + 4 * w * S) by (eapply Rle_trans; [apply Rabs_triang|]; rewrite Rabs_Ropp; lra).
      assert (0 <= w * S) by (apply Rmult_le_pos; lra). rewrite <- NX. lra. }
    assert (A' : k * Rabs (e - (e - (c - l * b01)) - (l * b00 - b) * x) <= k * (Rabs e + 7 * w * S * nn)) by (apply Rmult_le_compat_l; lra).
    assert (B : k * (7 * w * S * nn) <= / 20 * (S * nn)).
    { replace (k * (7 * w * S * nn)) with (7 * w * k * (S * nn)) by ring. apply Rmult_le_compat_r; [apply Rmult_le_pos; lra|lra]. }
    assert (C : S <= S * nn) by (rewrite <- (Rmult_1_r S) at 1; apply Rmult_le_compat_l; lra).
    apply Rmult_le_reg_l with (2 * k); [lra|]. rewrite <- Rmult_assoc, Rinv_r, Rmult_1_l by lra. rewrite Rmult_plus_distr_l in A'. lra. }
  destruct (K x 1 0) as [H|[H|H]].
  - exfalso. rewrite Z0, Rabs_R0, Rmult_0_r in H. assert (0 < norm1 x 1 0 * S0) by (apply Rmult_lt_0_compat; lra). lra.
  - left. apply (T S1 b10 b11 l1 Q1 D1 E1). rewrite Rmult_0_r in *. exact H.
  - right. apply (T S2 b20 b21 l2 Q2 D2 E2). rewrite Rmult_0_r in *. exact H.
Qed.

(** columns 1 and 2 when row 1 is the pivot *)
Lemma lu_factors l1 l2 : b00 <> 0 ->
  Rabs (l1 * b00 - b10) <= 7 * w * S1 -> Rabs l1 * S0 <= 1.01 * S1 ->
  Rabs (l2 * b00 - b20) <= 7 * w * S2 -> Rabs l2 * S0 <= 1.01 * S2 ->
  let u11 := elem1 b11 l1 in let e2 := elem1 b21 l2 in
  wins S1 u11 S2 e2 ->
  let l21 := mult e2 u11 in
  let u12 := b64 (b12 - b64 (l1 * b02)) in
  let u22 := b64 (b22 - b64 (b64 (l2 * b02) + b64 (l21 * u12))) in
  factors S0 S1 S2 b00 b01 b02 b10 b11 b12 b20 b21 b22 l1 u11 u12 l2 l21 u22.
Proof.
  intros N D1 L1 D2 L2 u11 e2 Wn l21 u12 u22. 
  pose proof (sz_pos _ HS0) as Q0. pose proof (sz_pos _ HS1) as Q1. pose proof (sz_pos _ HS2) as Q2. pose proof k_ge1 as K1. pose proof w_small as W. destruct t_range as [T1 T2].
  destruct (elem1_ok b11 l1 S1 HS1 B11 L1) as [E1 E1b]. destruct (elem1_ok b21 l2 S2 HS2 B21 L2) as [E2 E2b]. fold u11 in E1, E1b. fold e2 in E2, E2b.
  assert (P1 : / (2 * k) / 2 * S1 <= Rabs u11).
  { destruct (col1 l1 l2 N D1 L1 D2 L2) as [H|H]; fold u11 in H; fold e2 in H.
    - assert (0 < / (2 * k) * S1) by (apply Rmult_lt_0_compat; [apply Rinv_0_lt_compat; lra|lra]). lra.
    - apply (fe6 e2 u11 S1 S2 (/ (2 * k))); assumption. }
  assert (N1 : u11 <> 0).
  { intros E. rewrite E, Rabs_R0 in P1. assert (0 < / (2 * k) / 2 * S1) by (apply Rmult_lt_0_compat; [|lra]; assert (0 < / (2 * k)) by (apply Rinv_0_lt_compat; lra); lra). lra. }
  destruct (fe3 e2 u11 S1 S2 N1 HS1 HS2 E1b E2b) as [L21 L21b].
  { apply (fe5 e2 u11 S1 S2 (/ (2 * k) / 2)); assumption. }
  fold (mult e2 u11) in L21, L21b. fold l21 in L21, L21b.
  assert (A12 : Rabs (l1 * b02) <= 1.01 * S1) by (pose proof (mul_scaled l1 b02 S0 S1 1.01 1 ltac:(lra) L1 ltac:(lra)); lra).
  destruct (fe1 b12 (l1 * b02) S1 (sz_big _ HS1) B12 A12) as [U12 U12b]. fold u12 in U12, U12b.
  assert (A22 : Rabs (l2 * b02) <= 1.02 * S2) by (pose proof (mul_scaled l2 b02 S0 S2 1.01 1 ltac:(lra) L2 ltac:(lra)); lra).
  assert (A23 : Rabs (l21 * u12) <= 2.06 * S2) by (pose proof (mul_scaled l21 u12 S1 S2 1.01 2.03 ltac:(lra) L21b ltac:(lra)); lra).
  destruct (fe2 b22 (l2 * b02) (l21 * u12) S2 (sz_big _ HS2) B22 A22 A23) as [U22 U22b]. fold u22 in U22, U22b.
  assert (R21 : Rabs (l2 * b01 + l21 * u11 - b21) <= 11 * w * S2).
  { replace (l2 * b01 + l21 * u11 - b21) with ((l21 * u11 - e2) + (e2 - (b21 - l2 * b01))) by ring.
    eapply Rle_trans; [apply Rabs_triang|]. lra. }
  assert (R11 : Rabs (l1 * b01 + u11 - b11) <= 4 * w * S1) by (replace (l1 * b01 + u11 - b11) with (u11 - (b11 - l1 * b01)) by ring; exact E1).
  assert (R12 : Rabs (l1 * b02 + u12 - b12) <= 4 * w * S1) by (replace (l1 * b02 + u12 - b12) with (u12 - (b12 - l1 * b02)) by ring; exact U12).
  assert (R22 : Rabs (l2 * b02 + l21 * u12 + u22 - b22) <= 11 * w * S2) by (replace (l2 * b02 + l21 * u12 + u22 - b22) with (u22 - (b22 - l2 * b02 - l21 * u12)) by ring; exact U22).
  clearbody u22 u12 l21 u11 e2.
  constructor; try assumption.
  intros Eu. rewrite Eu in R22.
  set (y := - u12 / u11). set (x := - (b01 * y + b02) / b00). set (nn := norm1 x y 1).
  assert (Hn : 1 <= nn) by (unfold nn, norm1; rewrite Rabs_R1; pose proof (Rabs_pos x); pose proof (Rabs_pos y); lra).
  assert (Z0 : b00 * x + b01 * y + b02 * 1 = 0) by (unfold x; field; exact N).
  assert (Z1 : u11 * y + u12 = 0) by (unfold y; field; exact N1).
  clearbody x y.
  assert (T : forall S d0 d1 d2, 0 < S -> Rabs d0 <= 11 * w * S -> Rabs d1 <= 11 * w * S -> Rabs d2 <= 11 * w * S -> nn * S <= k * Rabs (- (d0 * x + d1 * y + d2 * 1)) -> False).
  { intros S d0 d1 d2 Q H0 H1 H2 H. 
    assert (A : Rabs (- (d0 * x + d1 * y + d2 * 1)) <= 11 * w * S * nn).
    { rewrite Rabs_Ropp. eapply Rle_trans; [apply Rabs_triang|]. eapply Rle_trans; [apply Rplus_le_compat_r, Rabs_triang|].
      pose proof (Rabs_mul_le d0 x _ _ H0 (Rle_refl _)). pose proof (Rabs_mul_le d1 y _ _ H1 (Rle_refl _)). pose proof (Rabs_mul_le d2 1 _ _ H2 (Rle_refl _)).
      unfold nn, norm1. rewrite Rabs_R1 in *. lra. }
    assert (A' : k * Rabs (- (d0 * x + d1 * y + d2 * 1)) <= k * (11 * w * S * nn)) by (apply Rmult_le_compat_l; lra).
    assert (B : k * (11 * w * S * nn) <= / 2 * (S * nn)).
    { replace (k * (11 * w * S * nn)) with (11 * w * k * (S * nn)) by ring. apply Rmult_le_compat_r; [apply Rmult_le_pos; lra|lra]. }
    assert (0 < S * nn) by (apply Rmult_lt_0_compat; lra). lra. }
  assert (WS1 : 0 <= w * S1) by (apply Rmult_le_pos; lra). assert (WS2 : 0 <= w * S2) by (apply Rmult_le_pos; lra).
  destruct (K x y 1) as [H|[H|H]]; fold nn in H.
  - rewrite Z0, Rabs_R0, Rmult_0_r in H. assert (0 < nn * S0) by (apply Rmult_lt_0_compat; lra). lra.
  - apply (T S1 (l1 * b00 - b10) (l1 * b01 + u11 - b11) (l1 * b02 + u12 - b12) Q1); try lra.
    replace (- ((l1 * b00 - b10) * x + (l1 * b01 + u11 - b11) * y + (l1 * b02 + u12 - b12) * 1)) with
      (b10 * x + b11 * y + b12 * 1 - l1 * (b00 * x + b01 * y + b02 * 1) - (u11 * y + u12)) by ring.
    rewrite Z0, Z1, Rmult_0_r, !Rminus_0_r. exact H.
  - apply (T S2 (l2 * b00 - b20) (l2 * b01 + l21 * u11 - b21) (l2 * b02 + l21 * u12 + 0 - b22) Q2); try lra.
    replace (- ((l2 * b00 - b20) * x + (l2 * b01 + l21 * u11 - b21) * y + (l2 * b02 + l21 * u12 + 0 - b22) * 1)) with
      (b20 * x + b21 * y + b22 * 1 - l2 * (b00 * x + b01 * y + b02 * 1) - l21 * (u11 * y + u12)) by ring.
    rewrite Z0, Z1, !Rmult_0_r, !Rminus_0_r. exact H.
Qed.

(** the size of a solution *)
Lemma solution_size G f0 f1 f2 x y z : 0 < G -> Rabs f0 <= G * S0 -> Rabs f1 <= G * S1 -> Rabs f2 <= G * S2 ->
  let M := norm1 x y z + G in
  Rabs (b00 * x + b01 * y + b02 * z - f0) <= 40 * w * M * S0 ->
  Rabs (b10 * x + b11 * y + b12 * z - f1) <= 40 * w * M * S1 ->
  Rabs (b20 * x + b21 * y + b22 * z - f2) <= 40 * w * M * S2 ->
  norm1 x y z <= 5 / 3 * k * G.
Proof.
  intros HG F0 F1 F2 M R0 R1 R2. pose proof (sz_pos _ HS0) as Q0. pose proof (sz_pos _ HS1) as Q1. pose proof (sz_pos _ HS2) as Q2. pose proof k_ge1 as K1. pose proof w_small as W.
  pose proof (norm1_nonneg x y z) as NN. assert (HM : 0 < M) by (unfold M; lra).
  assert (T : forall S b f, 0 < S -> Rabs f <= G * S -> Rabs (b - f) <= 40 * w * M * S -> norm1 x y z * S <= k * Rabs b -> norm1 x y z <= 5 / 3 * k * G).
  { intros S b f Q Hf Hr H. assert (A : Rabs b <= G * S + 40 * w * M * S).
    { replace b with ((b - f) + f) by ring. eapply Rle_trans; [apply Rabs_triang|]. lra. }
    assert (A' : k * Rabs b <= k * (G * S + 40 * w * M * S)) by (apply Rmult_le_compat_l; lra).
    assert (B : k * (40 * w * M * S) <= / 4 * (M * S)).
    { replace (k * (40 * w * M * S)) with (40 * w * k * (M * S)) by ring. apply Rmult_le_compat_r; [apply Rmult_le_pos; lra|lra]. }
    assert (C : norm1 x y z * S <= (k * G + / 4 * M) * S).
    { replace ((k * G + / 4 * M) * S) with (k * (G * S) + / 4 * (M * S)) by ring. rewrite Rmult_plus_distr_l in A'. lra. }
    apply Rmult_le_reg_r in C; [|exact Q]. unfold M in C.
    assert (G <= k * G) by (rewrite <- (Rmult_1_l G) at 1; apply Rmult_le_compat_r; lra). lra. }
  destruct (K x y z) as [H|[H|H]].
  - exact (T S0 _ f0 Q0 F0 R0 H).
  - exact (T S1 _ f1 Q1 F1 R1 H).
  - exact (T S2 _ f2 Q2 F2 R2 H).
Qed.
End LU.
