(** The containment test in IEEE arithmetic (NumB): error bounds. *)
From Verif Require Import Base Num M_Alignment P_Round P_AlignR.
From Coq Require Import Reals Lra Psatz.
From Flocq Require Import Core Relative.
Open Scope R_scope.

Lemma b32_rel x : Rabs (b32 x - x) <= Rabs x / 16777216 + / 10 ^ 30.
Proof.
  destruct (Rle_lt_dec (Rabs x) (bpow radix2 (-100))) as [H|H].
  - assert (K := b32_error (-100) x ltac:(lia) H).
    assert (bpow radix2 (-100 - 24) <= / 10 ^ 30).
    { cbn -[IZR pow]. apply Rinv_le; lra. }
    pose proof (Rabs_pos x). lra.
  - assert (K := relative_error_N_FLT radix2 (-149) 24 ltac:(reflexivity) (fun z => negb (Z.even z)) x).
    assert (Hx : bpow radix2 (-149 + 24 - 1) <= Rabs x).
    { apply Rlt_le. eapply Rle_lt_trans; [|exact H]. apply bpow_le. lia. }
    specialize (K Hx). change (round _ _ _ x) with (b32 x) in K.
    assert (Q : / 2 * bpow radix2 (- (24) + 1) = / 16777216) by (change (bpow radix2 (- (24) + 1)) with (/ 8388608); lra). rewrite Q in K.
    assert (0 <= / 10 ^ 30) by (left; apply Rinv_0_lt_compat; lra). lra.
Qed.

Definition big (p : point NumB) : Prop := Rabs (px p : R) <= 1000 /\ Rabs (py p : R) <= 1000.
Definition exact (p : point NumB) : pointR := @Pt NumR (px p : R) (py p : R).

Lemma b64_e (e : Z) (m q : R) x : (-1000 <= e)%Z -> m <= bpow radix2 e -> bpow radix2 (e - 53) <= q -> - m <= x <= m -> - q <= b64 x - x <= q.
Proof.
  intros He Hm Hq H. assert (K := b64_error e x He). 
  assert (Rabs x <= bpow radix2 e) by (apply Rabs_le; lra). specialize (K H0).
  apply Rabs_le_inv in K. lra.
Qed.
Lemma rabs_in x m : Rabs x <= m -> - m <= x <= m.
Proof. intros H. apply Rabs_le_inv in H. lra. Qed.
Lemma mul_in x y m n : 0 <= m -> 0 <= n -> - m <= x <= m -> - n <= y <= n -> - (m * n) <= x * y <= m * n.
Proof. intros. split; nra. Qed.

(** one term x * (y - z) *)
Lemma term_err x y z : Rabs x <= 1000 -> Rabs y <= 1000 -> Rabs z <= 1000 ->
  - (/ 2 ^ 31) <= b64 (x * b64 (y - z)) - x * (y - z) <= / 2 ^ 31 /\ -2002000 <= b64 (x * b64 (y - z)) <= 2002000.
Proof.
  intros Hx Hy Hz. apply rabs_in in Hx, Hy, Hz.
  assert (D := b64_e 11 2000 (/ 2 ^ 42) (y - z) ltac:(lia) ltac:(cbn; lra) ltac:(cbn; lra) ltac:(lra)).
  set (d := b64 (y - z)) in *.
  assert (Bd : -2001 <= d <= 2001) by lra.
  assert (M := mul_in x d 1000 2001 ltac:(lra) ltac:(lra) Hx ltac:(lra)).
  assert (M2 := mul_in x (d - (y - z)) 1000 (/ 2 ^ 42) ltac:(lra) ltac:(lra) Hx ltac:(lra)).
  assert (P := b64_e 21 2001000 (/ 2 ^ 32) (x * d) ltac:(lia) ltac:(cbn; lra) ltac:(cbn; lra) ltac:(lra)).
  replace (x * (d - (y - z))) with (x * d - x * (y - z)) in M2 by ring.
  set (xd := x * d) in *. set (t := x * (y - z)) in *. set (r := b64 xd) in *. clearbody d xd t r. lra.
Qed.

Lemma area_err (a b c : point NumB) : big a -> big b -> big c ->
  Rabs ((triangleArea NumB a b c : R) - Rabs (area2 (exact a) (exact b) (exact c)) / 2) <= / 2 ^ 29 /\ 0 <= (triangleArea NumB a b c : R).
Proof.
  intros [Xa Ya] [Xb Yb] [Xc Yc]. unfold triangleArea, area2, two, X, Y, exact. cbn [px py fabs fdiv fadd fmul fsub fZ NumB].
  change (F NumB) with R in *. change (F NumR) with R in *.
  assert (T1 := term_err _ _ _ Xa Yb Yc). assert (T2 := term_err _ _ _ Xb Yc Ya). assert (T3 := term_err _ _ _ Xc Ya Yb).
  set (r1 := b64 (px a * b64 (py b - py c))) in *. set (r2 := b64 (px b * b64 (py c - py a))) in *. set (r3 := b64 (px c * b64 (py a - py b))) in *.
  set (e1 := px a * (py b - py c)) in *. set (e2 := px b * (py c - py a)) in *. set (e3 := px c * (py a - py b)) in *.
  clearbody r1 r2 r3 e1 e2 e3. clear - T1 T2 T3.
  assert (S1 := b64_e 22 4004000 (/ 2 ^ 31) (r1 + r2) ltac:(lia) ltac:(cbn; lra) ltac:(cbn; lra) ltac:(lra)).
  set (s1 := b64 (r1 + r2)) in *. clearbody s1.
  assert (S2 := b64_e 23 6007000 (/ 2 ^ 30) (s1 + r3) ltac:(lia) ltac:(cbn; lra) ltac:(cbn; lra) ltac:(lra)).
  set (s2 := b64 (s1 + r3)) in *. clearbody s2.
  rewrite (b64_of_int 2) by reflexivity.
  assert (S3 := b64_e 22 3004000 (/ 2 ^ 31) (s2 / 2) ltac:(lia) ltac:(cbn; lra) ltac:(cbn; lra) ltac:(lra)).
  set (s3 := b64 (s2 / 2)) in *. clearbody s3.
  split; [|apply Rabs_pos].
  replace (Rabs (e1 + e2 + e3) / 2) with (Rabs ((e1 + e2 + e3) / 2)).
  2:{ unfold Rdiv. rewrite Rabs_mult, (Rabs_pos_eq (/ 2)) by lra. reflexivity. }
  eapply Rle_trans; [apply Rabs_triang_inv2|]. apply Rabs_le. lra.
Qed.

(** computed sum of the three parts against the exact one *)
Definition parts (p a b c : pointR) : R := Rabs (area2 p b c) / 2 + Rabs (area2 a p c) / 2 + Rabs (area2 a b p) / 2.

Lemma b32_e x : 0 <= x -> x - (x / 16777216 + / 10 ^ 30) <= b32 x <= x + (x / 16777216 + / 10 ^ 30).
Proof. intros H. assert (K := b32_rel x). rewrite (Rabs_pos_eq x H) in K. apply Rabs_le_inv in K. lra. Qed.
Lemma b32_nonneg x : 0 <= x -> 0 <= b32 x.
Proof. intros H. rewrite <- (b32_of_int 0) by reflexivity. apply b32_mono. exact H. Qed.
Lemma b64_nonneg x : 0 <= x -> 0 <= b64 x.
Proof. intros H. rewrite <- (b64_of_int 0) by reflexivity. apply b64_mono. exact H. Qed.
Lemma inv30 : 0 <= / 10 ^ 30 <= / 10 ^ 12.
Proof. split; [left; apply Rinv_0_lt_compat; lra|apply Rinv_le; lra]. Qed.
Lemma add32 x y : 0 <= x -> 0 <= y -> x + y <= 500 ->
  Rabs (b32 (b64 (x + y)) - (x + y)) <= (x + y) / 16777216 + / 10 ^ 11 /\ 0 <= b32 (b64 (x + y)).
Proof.
  intros Hx Hy Hs. pose proof inv30 as I30.
  assert (E := b64_e 9 500 (/ 2 ^ 44) (x + y) ltac:(lia) ltac:(cbn; lra) ltac:(cbn; lra) ltac:(lra)).
  assert (P : 0 <= b64 (x + y)) by (apply b64_nonneg; lra).
  assert (E2 := b32_e _ P). split; [apply Rabs_le; lra|apply b32_nonneg; exact P].
Qed.

Lemma isIn_B_difference (p a b c : point NumB) : big p -> big a -> big b -> big c ->
  let A := Rabs (area2 (exact a) (exact b) (exact c)) / 2 in
  let S := parts (exact p) (exact a) (exact b) (exact c) in
  A <= 400 -> S <= 401 ->
  exists d : R, Rabs (d - (A - S)) <= (A + 3 * S) / 16777216 + / 10 ^ 7 /\
    isInTriangle NumB p a b c = Rlt_bool (Rabs (b32 (b64 d))) (b64 (1 / 10000)).
Proof.
  intros Hp Ha Hb Hc A S HA HS. unfold isInTriangle. cbn [f32 flt fabs fsub fadd fq NumB].
  assert (E0 := area_err a b c Ha Hb Hc). assert (E1 := area_err p b c Hp Hb Hc).
  assert (E2 := area_err a p c Ha Hp Hc). assert (E3 := area_err a b p Ha Hb Hp).
  change (F NumB) with R in *.
  unfold parts in S.
  assert (P0 : 0 <= A) by (subst A; pose proof (Rabs_pos (area2 (exact a) (exact b) (exact c))); lra).
  set (S1 := Rabs (area2 (exact p) (exact b) (exact c)) / 2) in *. set (S2 := Rabs (area2 (exact a) (exact p) (exact c)) / 2) in *.
  set (S3 := Rabs (area2 (exact a) (exact b) (exact p)) / 2) in *.
  assert (P1 : 0 <= S1) by (subst S1; pose proof (Rabs_pos (area2 (exact p) (exact b) (exact c))); lra).
  assert (P2 : 0 <= S2) by (subst S2; pose proof (Rabs_pos (area2 (exact a) (exact p) (exact c))); lra).
  assert (P3 : 0 <= S3) by (subst S3; pose proof (Rabs_pos (area2 (exact a) (exact b) (exact p))); lra).
  set (t0 := triangleArea NumB a b c : R) in *. set (t1 := triangleArea NumB p b c : R) in *.
  set (t2 := triangleArea NumB a p c : R) in *. set (t3 := triangleArea NumB a b p : R) in *.
  fold A in E0.
  change (F NumB) with R in *.
  destruct E0 as [E0 Q0], E1 as [E1 Q1], E2 as [E2 Q2], E3 as [E3 Q3].
  clearbody A S1 S2 S3 t0 t1 t2 t3. subst S. apply Rabs_le_inv in E0, E1, E2, E3. pose proof inv30 as I30.
  assert (B0 := b32_e t0 Q0). assert (B1 := b32_e t1 Q1). assert (B2 := b32_e t2 Q2). assert (B3 := b32_e t3 Q3).
  assert (N1 := b32_nonneg t1 Q1). assert (N2 := b32_nonneg t2 Q2). assert (N3 := b32_nonneg t3 Q3).
  set (u0 := b32 t0) in *. set (u1 := b32 t1) in *. set (u2 := b32 t2) in *. set (u3 := b32 t3) in *.
  clearbody u0 u1 u2 u3.
  destruct (add32 u1 u2 N1 N2) as [X1 X2]; [lra|].
  set (v := b32 (b64 (u1 + u2))) in *. clearbody v. apply Rabs_le_inv in X1.
  destruct (add32 v u3 X2 N3) as [Y1 Y2]; [lra|].
  set (w := b32 (b64 (v + u3))) in *. clearbody w. apply Rabs_le_inv in Y1.
  exists (u0 - w). split; [|reflexivity]. apply Rabs_le. lra.
Qed.

Lemma tenth_ge : 99999 / 1000000000 <= b64 (1 / 10000) <= 100001 / 1000000000.
Proof.
  assert (K := b64_e (-10) (1 / 10000) (/ 2 ^ 63) (1 / 10000) ltac:(lia) ltac:(cbn; lra) ltac:(cbn; lra) ltac:(lra)). lra.
Qed.
Lemma b32b64_small d : Rabs d <= 1 -> Rabs (b32 (b64 d) - d) <= Rabs d / 16000000 + / 10 ^ 12.
Proof.
  intros H. assert (H' := rabs_in _ _ H). pose proof inv30 as I30.
  assert (E := b64_e 0 1 (/ 2 ^ 53) d ltac:(lia) ltac:(cbn; lra) ltac:(cbn; lra) H').
  assert (E2 := b32_rel (b64 d)).
  assert (T : Rabs (b64 d) <= Rabs d + / 2 ^ 53).
  { replace (b64 d) with (d + (b64 d - d)) by ring. eapply Rle_trans; [apply Rabs_triang|].
    apply Rplus_le_compat_l. apply Rabs_le. lra. }
  pose proof (Rabs_pos d).
  replace (b32 (b64 d) - d) with ((b32 (b64 d) - b64 d) + (b64 d - d)) by ring.
  eapply Rle_trans; [apply Rabs_triang|].
  assert (Rabs (b64 d - d) <= / 2 ^ 53) by (apply Rabs_le; lra). lra.
Qed.

(** inside a triangle of at most 400 square degrees: accepted *)
Lemma isIn_B_hull (p a b c : point NumB) : big p -> big a -> big b -> big c ->
  in_hull (exact p) (exact a) (exact b) (exact c) -> Rabs (area2 (exact a) (exact b) (exact c)) / 2 <= 400 ->
  isInTriangle NumB p a b c = true.
Proof.
  intros Hp Ha Hb Hc (l1 & l2 & l3 & H1 & H2 & H3 & Hs & Hx & Hy) HA.
  assert (E : parts (exact p) (exact a) (exact b) (exact c) = Rabs (area2 (exact a) (exact b) (exact c)) / 2).
  { unfold parts. set (a' := exact a) in *. set (b' := exact b) in *. set (c' := exact c) in *. set (p' := exact p) in *.
    assert (E1 : area2 p' b' c' = l1 * area2 a' b' c').
    { unfold area2. rewrite Hx, Hy. replace l1 with (1 - l2 - l3) by lra. ring. }
    assert (E2 : area2 a' p' c' = l2 * area2 a' b' c').
    { unfold area2. rewrite Hx, Hy. replace l1 with (1 - l2 - l3) by lra. ring. }
    assert (E3 : area2 a' b' p' = l3 * area2 a' b' c').
    { unfold area2. rewrite Hx, Hy. replace l1 with (1 - l2 - l3) by lra. ring. }
    rewrite E1, E2, E3, !Rabs_mult, (Rabs_pos_eq l1), (Rabs_pos_eq l2), (Rabs_pos_eq l3) by assumption.
    replace l1 with (1 - l2 - l3) by lra. field. }
  destruct (isIn_B_difference p a b c Hp Ha Hb Hc HA ltac:(rewrite E; lra)) as (d & Hd & ->).
  rewrite E in Hd. set (A := Rabs (area2 (exact a) (exact b) (exact c)) / 2) in *. clearbody A.
  apply Rlt_bool_true. replace (d - (A - A)) with d in Hd by ring.
  assert (D1 : Rabs d <= 96 / 1000000) by lra.
  assert (K := b32b64_small d ltac:(lra)). pose proof tenth_ge.
  assert (Rabs (b32 (b64 d)) <= Rabs d + Rabs (b32 (b64 d) - d)).
  { replace (b32 (b64 d)) with (d + (b32 (b64 d) - d)) at 1 by ring. apply Rabs_triang. }
  lra.
Qed.

(** accepted: outside by less than 1/5000 square degrees *)
Lemma isIn_B_near (p a b c : point NumB) : big p -> big a -> big b -> big c ->
  parts (exact p) (exact a) (exact b) (exact c) <= 400 ->
  isInTriangle NumB p a b c = true ->
  parts (exact p) (exact a) (exact b) (exact c) - Rabs (area2 (exact a) (exact b) (exact c)) / 2 < 2 / 10000.
Proof.
  intros Hp Ha Hb Hc HS Hin.
  assert (HA : Rabs (area2 (exact a) (exact b) (exact c)) / 2 <= parts (exact p) (exact a) (exact b) (exact c)).
  { unfold parts. rewrite <- (area2_sum (exact p)).
    assert (K := Rabs_triang (area2 (exact p) (exact b) (exact c) + area2 (exact a) (exact p) (exact c)) (area2 (exact a) (exact b) (exact p))).
    assert (K2 := Rabs_triang (area2 (exact p) (exact b) (exact c)) (area2 (exact a) (exact p) (exact c))). lra. }
  destruct (isIn_B_difference p a b c Hp Ha Hb Hc ltac:(lra) ltac:(lra)) as (d & Hd & E). rewrite E in Hin. clear E.
  set (A := Rabs (area2 (exact a) (exact b) (exact c)) / 2) in *. set (S := parts _ _ _ _) in *.
  assert (0 <= A) by (subst A; pose proof (Rabs_pos (area2 (exact a) (exact b) (exact c))); lra).
  clearbody A S. apply Rabs_le_inv in Hd.
  revert Hin. case Rlt_bool_spec; [|discriminate]. intros Hlt _. pose proof tenth_ge.
  destruct (Rle_lt_dec (Rabs d) 1) as [H1|H1].
  - assert (K := b32b64_small d H1).
    assert (Rabs d <= Rabs (b32 (b64 d)) + Rabs (b32 (b64 d) - d)).
    { replace d with (b32 (b64 d) - (b32 (b64 d) - d)) at 1 by ring. eapply Rle_trans; [apply Rabs_triang|]. rewrite Rabs_Ropp. lra. }
    assert (D : Rabs d <= 1001 / 10000000) by lra. apply Rabs_le_inv in D. lra.
  - exfalso. destruct (Rle_lt_dec 0 d) as [Hd0|Hd0].
    + rewrite Rabs_pos_eq in H1 by exact Hd0.
      assert (1 <= b32 (b64 d)). { apply (b32_floor_ge _ 1); [reflexivity|]. apply (b64_floor_ge _ 1); [reflexivity|lra]. }
      rewrite Rabs_pos_eq in Hlt by lra. lra.
    + rewrite Rabs_left in H1 by exact Hd0.
      assert (b32 (b64 d) <= -1). { apply (b32_le_int _ (-1)); [reflexivity|]. apply (b64_le_int _ (-1)); [reflexivity|lra]. }
      rewrite Rabs_left in Hlt by lra. lra.
Qed.

(** ** Corners: accepted whatever the size *)
Lemma b64_opp x : b64 (- x) = - b64 x.
Proof. unfold b64. apply round_NE_opp. Qed.
Lemma b64_0 : b64 0 = 0. Proof. apply (b64_of_int 0). reflexivity. Qed.
Lemma b32_0 : b32 0 = 0. Proof. apply (b32_of_int 0). reflexivity. Qed.
Lemma area_flat1 (p c : point NumB) : (triangleArea NumB p p c : R) = 0.
Proof.
  unfold triangleArea, two. cbn [px py fabs fdiv fadd fmul fsub fZ NumB]. change (F NumB) with R.
  rewrite (b64_of_int 2) by reflexivity.
  replace (py c - py p) with (- (py p - py c)) by ring. rewrite b64_opp.
  replace (px p * - b64 (py p - py c)) with (- (px p * b64 (py p - py c))) by ring. rewrite b64_opp.
  rewrite Rplus_opp_r, b64_0. replace (py p - py p) with 0 by ring. rewrite b64_0, Rmult_0_r, b64_0, Rplus_0_r, b64_0.
  unfold Rdiv. rewrite Rmult_0_l, b64_0. apply Rabs_R0.
Qed.
Lemma area_flat2 (p c : point NumB) : (triangleArea NumB p c c : R) = 0.
Proof.
  unfold triangleArea, two. cbn [px py fabs fdiv fadd fmul fsub fZ NumB]. change (F NumB) with R.
  rewrite (b64_of_int 2) by reflexivity.
  replace (py c - py c) with 0 by ring. rewrite b64_0, Rmult_0_r, b64_0, Rplus_0_l.
  rewrite (b64_id (b64 (px c * b64 (py c - py p)))) by apply is_b64_round.
  replace (py p - py c) with (- (py c - py p)) by ring. rewrite b64_opp.
  replace (px c * - b64 (py c - py p)) with (- (px c * b64 (py c - py p))) by ring. rewrite b64_opp, Rplus_opp_r, b64_0.
  unfold Rdiv. rewrite Rmult_0_l, b64_0. apply Rabs_R0.
Qed.
Lemma area_flat3 (p c : point NumB) : (triangleArea NumB p c p : R) = 0.
Proof.
  unfold triangleArea, two. cbn [px py fabs fdiv fadd fmul fsub fZ NumB]. change (F NumB) with R.
  rewrite (b64_of_int 2) by reflexivity.
  replace (py p - py p) with 0 by ring. rewrite b64_0, Rmult_0_r, b64_0, Rplus_0_r.
  rewrite (b64_id (b64 (px p * b64 (py c - py p)))) by apply is_b64_round.
  replace (py p - py c) with (- (py c - py p)) by ring. rewrite b64_opp.
  replace (px p * - b64 (py c - py p)) with (- (px p * b64 (py c - py p))) by ring. rewrite b64_opp, Rplus_opp_r, b64_0.
  unfold Rdiv. rewrite Rmult_0_l, b64_0. apply Rabs_R0.
Qed.
Lemma b64_b32 x : b64 (b32 x) = b32 x.
Proof. apply b64_id, is_b32_b64, is_b32_round. Qed.
Lemma b32_b32 x : b32 (b32 x) = b32 x.
Proof. apply b32_id, is_b32_round. Qed.
Lemma tenth_pos : 0 < b64 (1 / 10000). Proof. pose proof tenth_ge. lra. Qed.
Ltac simp0 := repeat (rewrite ?b32_0, ?b64_0, ?Rplus_0_r, ?Rplus_0_l, ?b64_b32, ?b32_b32);
  match goal with |- context [?x - ?x] => rewrite (Rminus_diag_eq x x) by reflexivity end; rewrite b64_0; apply b32_0.
Lemma corner_B (a b c p : point NumB) : p = a \/ p = b \/ p = c -> isInTriangle NumB p a b c = true.
Proof.
  intros H. unfold isInTriangle. cbn [f32 flt fabs fsub fadd fq NumB]. change (F NumB) with R.
  assert (Z : b32 (b64 (b32 (triangleArea NumB a b c : R) - b32 (b64 (b32 (b64 (b32 (triangleArea NumB p b c : R) + b32 (triangleArea NumB a p c : R))) + b32 (triangleArea NumB a b p : R))))) = 0).
  { destruct H as [ -> |[ -> | -> ]].
    - rewrite area_flat1, (area_flat3 a b). simp0.
    - rewrite area_flat1, (area_flat2 a b). simp0.
    - rewrite area_flat3, (area_flat2 a c). simp0. }
  unfold F in *. cbn in Z |- *. rewrite Z, Rabs_R0. apply Rlt_bool_true. exact tenth_pos.
Qed.
