(** The corrections of two and of three stars on actual doubles *)
From Verif Require Import Base Num M_Linalg M_Helper M_Alignment S_Alignment P_Alignment P_AlignState P_AlignState2 P_Round P_Helper2 P_LinIEEE P_LinIEEE2 P_LinIEEE3 P_LinIEEE4 P_LinIEEE5 P_LinIEEE6 P_AlignIEEE P_NumCorr P_Finite P_LstFinite P_LinFinite P_Device Properties_Alignment.
From Coq Require Import Reals Lra Lia Floats.SpecFloat.
From Flocq Require Import Core IEEE754.BinarySingleNaN.
Open Scope R_scope.
Notation length := List.length.

(** the corrected orientation, given the matrix *)
Definition mapped (N : Num) (m : mat N) (p : point N) : point N :=
  let out := mvmul N m (Vec (px p) (py p) (fZ N 1)) in Pt (f_mod N (v0 out) (fZ N 360)) (v1 out).
Lemma mapped_eq N (a : align N) p m : getTransformationMatrix N a p = Ok m -> getCalibratedOrientation N a p = Ok (mapped N m p).
Proof. intros E. unfold getCalibratedOrientation. rewrite E. reflexivity. Qed.
Lemma mapped_agrees m m' (p : point NumSF) (p' : point NumB) : relm 450 m m' -> mb 20 (px p) (px p') -> mb 20 (py p) (py p') ->
  means (px (mapped NumSF m p)) (px (mapped NumB m' p')) /\ means (py (mapped NumSF m p)) (py (mapped NumB m' p')).
Proof.
  intros [] P0 P1. unfold mapped, mvmul, dot3. cbn [v0 v1 v2 mget m00 m01 m02 m10 m11 m12 px py].
  split; [apply (mb_f_mod 480); [lia|within]|refine (proj1 (_ : mb 480 _ _)); within].
Qed.
Lemma reduced' m (p : point NumB) (u v e : R) :
  (let out := mvmul NumB m (BVec (px p) (py p) (fZ NumB 1)) in Rabs (v0 out - u) <= e /\ Rabs (v1 out - v) <= e) ->
  e <= 1000 -> Rabs u <= 13000000 -> 
  let q := mapped NumB m p in exists k : Z, Rabs ((px q : R) - (u + 360 * IZR k)) <= e + 1 / 10 ^ 12 /\ Rabs ((py q : R) - v) <= e /\ - (1 / 10 ^ 8) <= px q <= 360 + 1 / 10 ^ 8.
Proof.
  intros H He Hu. cbv zeta in *. destruct H as [H0 H1]. unfold mapped.
  set (out := mvmul NumB m (BVec (px p) (py p) (fZ NumB 1))) in *. cbn [fZ NumB]. rewrite (b64_of_int 360) by lia.
  destruct (f_mod_B (v0 out)) as (k & Ek & Br).
  { apply Rabs_le_inv in H0, Hu. apply Rabs_le. change (F NumB) with R in *. lra. }
  exists k. cbn [px py]. change (F NumB) with R in *. apply Rabs_le_inv in H0, Ek.
  split; [apply Rabs_le; lra|]. split; [exact H1|exact Br].
Qed.

(** sizes of a matrix with a last row of ones *)
Lemma matrix_range (m9 H d M0 M1 : R) (A : matB) : mget A 2 0 = 1 /\ mget A 2 1 = 1 /\ mget A 2 2 = 1 -> 1 <= H -> Rabs m9 <= H -> H <= 1000000 ->
  1 <= M0 <= 1000000 -> 1 <= M1 <= 1000000 -> (forall j, (j < 3)%nat -> Rabs (mget A 0 j) <= M0) -> Rabs (mget A 1 0) <= M0 -> (forall j, (j < 3)%nat -> Rabs (mget A 1 j) <= M1) ->
  / 1000 <= d -> d <= Rabs (det3 A) -> forall i, (i < 3)%nat -> / 10000000000 <= size_of m9 A i <= 1000000.
Proof.
  intros R2 H1 Hm9 HH HM0 HM1 B0 B10 B1 Hd Hdet.
  pose proof (size2 m9 H A H1 Hm9 R2) as S2. pose proof (size1 m9 A R2 M1 ltac:(lra) B1) as S1. pose proof (size0 m9 A M0 ltac:(lra) B0 B10) as S0.
  pose proof (size0_low m9 A R2 M1 ltac:(lra) B1) as L0.
  assert (P0 : / 10000000000 <= size_of m9 A 0).
  { set (s := size_of m9 A 0) in *. clearbody s. destruct (Rle_or_lt (/ 10000000000) s) as [G|G]; [exact G|]. exfalso.
    assert (6 * M1 * s <= 6 * M1 * / 10000000000) by (apply Rmult_le_compat_l; lra). lra. }
  intros [|[|[|i]]] Hi; [| | |lia]; lra.
Qed.
Definition solvable (m9 : R) (A : matB) : Prop := exists k, all_b64 A /\ (forall i, (i < 3)%nat -> / 10000000000 <= size_of m9 A i <= 1000000) /\ well_conditioned k (size_of m9 A) A /\ 160 * w * k <= 1.
Lemma tri_solvable (m9 H : R) (a b c : point NumB) : orientation_ok a -> orientation_ok b -> orientation_ok c ->
  1 <= H -> Rabs m9 <= H -> H <= 1000000 -> H <= 100 * Rabs (crossB a b c) -> solvable m9 (tri_matrix NumB a b c).
Proof.
  intros (Fa & Ga & Ba & Da) (Fb & Gb & Bb & Db) (Fc & Gc & Bc & Dc) H1 Hm HH Hd.
  assert (PD : / 1000 <= Rabs (crossB a b c)) by lra.
  set (d := Rabs (crossB a b c)) in *. pose proof w_small as W.
  assert (OK := matrix_ok m9 H d 360 180 (1166400 * (H / d)) (tri_matrix NumB a b c)).
  assert (RG := matrix_range m9 H d 360 180 (tri_matrix NumB a b c)).
  assert (Q : 0 < H / d) by (apply Rdiv_lt_0_compat; lra).
  assert (Q100 : H / d <= 100) by (apply Rmult_le_reg_r with d; [lra|]; unfold Rdiv; rewrite Rmult_assoc, Rinv_l by lra; lra).
  assert (FA : all_b64 (tri_matrix NumB a b c)).
  { intros i j Hi Hj. destruct i as [|[|[|i]]]; [| | |lia]; (destruct j as [|[|[|j]]]; [| | |lia]); cbn [tri_matrix mget m00 m01 m02 m10 m11 m12 m20 m21 m22 fZ NumB]; try assumption; apply is_b64_round. }
  assert (R2 : mget (tri_matrix NumB a b c) 2 0 = 1 /\ mget (tri_matrix NumB a b c) 2 1 = 1 /\ mget (tri_matrix NumB a b c) 2 2 = 1).
  { cbn [tri_matrix mget m00 m01 m02 m10 m11 m12 m20 m21 m22 fZ NumB]. rewrite (b64_of_int 1) by lia. auto. }
  assert (B0 : forall j, (j < 3)%nat -> Rabs (mget (tri_matrix NumB a b c) 0 j) <= 360) by (intros j Hj; destruct j as [|[|[|j]]]; [| | |lia]; assumption).
  assert (B1 : forall j, (j < 3)%nat -> Rabs (mget (tri_matrix NumB a b c) 1 j) <= 180) by (intros j Hj; destruct j as [|[|[|j]]]; [| | |lia]; assumption).
  assert (B10 : Rabs (mget (tri_matrix NumB a b c) 1 0) <= 360) by (cbn [tri_matrix mget m10]; change (F NumB) with R in *; lra).
  assert (DT : d <= Rabs (det3 (tri_matrix NumB a b c))) by (rewrite det3_tri; unfold d; lra).
  exists (1166400 * (H / d)). split; [exact FA|].
  split; [apply RG; try assumption; lra|]. split.
  - apply OK; try assumption; try lra. right. field. lra.
  - apply Rle_trans with (160 * / 1000000000000000 * (1166400 * 100)); [|lra]. apply Rmult_le_compat; lra.
Qed.
Lemma line_solvable (m9 H : R) (a b : point NumB) : orientation_ok a -> orientation_ok b ->
  1 <= H -> Rabs m9 <= H -> 1 <= distB a b -> (1 + 361 / distB a b) * (1 + 181 / distB a b) * H <= 4000 -> solvable m9 (line_matrix NumB a b).
Proof.
  intros (Fa & Ga & Ba & Da) (Fb & Gb & Bb & Db) H1 Hm Hd GH.
  destruct (dist_facts ((px b : R) - px a) (py b - py a)) as (_ & Ed & Bx & By). fold (distB a b) in Ed, Bx, By.
  pose proof w_small as W. change (F NumB) with R in *.
  destruct (third_err (px b) (py a) (py b) 360) as [TX _]; [assumption|lra|lra|lra|].
  destruct (third_err (py b) (px a) (px b) 360) as [_ TY]; [lra|lra|lra|lra|].
  set (d := distB a b) in *. set (dx := px b - px a) in *. set (dy := py b - py a) in *.
  set (x2 := b64 (px b + b64 dy)) in *. set (y2 := b64 (py b - b64 dx)) in *.
  set (ex := x2 - (px b + dy)) in *. set (ey := y2 - (py b - dx)) in *.
  assert (Mact : line_matrix NumB a b = BMat (px a) (px b) x2 (py a) (py b) y2 1 1 1).
  { unfold line_matrix. cbn [fadd fsub fZ NumB]. rewrite (b64_of_int 1) by lia. reflexivity. }
  rewrite Mact. assert (F2 : is_b64 x2 /\ is_b64 y2) by (split; apply is_b64_round).
  set (G := (1 + 361 / d) * (1 + 181 / d)) in *.
  assert (G1 : 1 <= G).
  { unfold G. assert (0 <= 361 / d) by (apply Rlt_le, Rdiv_lt_0_compat; lra). assert (0 <= 181 / d) by (apply Rlt_le, Rdiv_lt_0_compat; lra).
    assert (1 * 1 <= (1 + 361 / d) * (1 + 181 / d)) by (apply Rmult_le_compat; lra). lra. }
  assert (EG : G * (d * d) = (361 + d) * (181 + d)) by (unfold G; field; lra).
  clearbody G.
  assert (Hle : H <= 4000). { assert (1 * H <= G * H) by (apply Rmult_le_compat_r; lra). lra. }
  assert (GP : 0 < G * H) by (apply Rmult_lt_0_compat; lra).
  assert (dU : d <= 1000).
  { destruct (Rle_or_lt d 1000) as [Z|Z]; [exact Z|]. exfalso. assert (1000 * 1000 <= d * d) by (apply Rmult_le_compat; lra).
    assert (Rabs dx <= 720) by (unfold dx; apply Rabs_le_inv in Ba, Bb; apply Rabs_le; lra). assert (Rabs dy <= 360) by (unfold dy; apply Rabs_le_inv in Da, Db; apply Rabs_le; lra).
    assert (dx * dx <= 720 * 720). { rewrite <- (Rabs_pos_eq (dx * dx)) by (apply Rle_0_sqr). apply Rabs_mul_le; assumption. }
    assert (dy * dy <= 360 * 360). { rewrite <- (Rabs_pos_eq (dy * dy)) by (apply Rle_0_sqr). apply Rabs_mul_le; assumption. } lra. }
  assert (FA : all_b64 (BMat (px a) (px b) x2 (py a) (py b) y2 1 1 1)).
  { intros i j Hi Hj. destruct i as [|[|[|i]]]; [| | |lia]; (destruct j as [|[|[|j]]]; [| | |lia]); cbn [mget m00 m01 m02 m10 m11 m12 m20 m21 m22]; try assumption; try apply F2; apply (is_b64_int 1); lia. }
  assert (BX : Rabs x2 <= 361 + d). { apply Rabs_le_inv in TX, Bb, By. apply Rabs_le. unfold ex in TX. simpl bpow in TX. lra. }
  assert (BY : Rabs y2 <= 181 + d). { apply Rabs_le_inv in TY, Db, Bx. apply Rabs_le. unfold ey in TY. simpl bpow in TY. lra. }
  assert (ED : det3 (BMat (px a) (px b) x2 (py a) (py b) y2 1 1 1) = - (d * d) + (dx * ey - dy * ex)).
  { unfold det3. cbn [mget m00 m01 m02 m10 m11 m12 m20 m21 m22]. rewrite Ed. unfold ex, ey, dx, dy. ring. }
  assert (DL : 999 / 1000 * (d * d) <= Rabs (det3 (BMat (px a) (px b) x2 (py a) (py b) y2 1 1 1))).
  { rewrite ED. pose proof (Rabs_mul_le dx ey _ _ Bx TY) as P1. pose proof (Rabs_mul_le dy ex _ _ By TX) as P2. simpl bpow in P1, P2.
    assert (1 * d <= d * d) by (apply Rmult_le_compat_r; lra).
    set (u := dx * ey) in *. set (v := dy * ex) in *. clearbody u v. apply Rabs_le_inv in P1, P2. rewrite <- Rabs_Ropp, Rabs_pos_eq; lra. }
  assert (DD : 1 <= d * d) by (assert (1 * 1 <= d * d) by (apply Rmult_le_compat; lra); lra).
  assert (B0 : forall j, (j < 3)%nat -> Rabs (mget (BMat (px a) (px b) x2 (py a) (py b) y2 1 1 1) 0 j) <= 361 + d).
  { intros j Hj. destruct j as [|[|[|j]]]; [| | |lia]; cbn [mget m00 m01 m02]; lra. }
  assert (B1 : forall j, (j < 3)%nat -> Rabs (mget (BMat (px a) (px b) x2 (py a) (py b) y2 1 1 1) 1 j) <= 181 + d).
  { intros j Hj. destruct j as [|[|[|j]]]; [| | |lia]; cbn [mget m10 m11 m12]; lra. }
  assert (B10 : Rabs (mget (BMat (px a) (px b) x2 (py a) (py b) y2 1 1 1) 1 0) <= 361 + d) by (cbn [mget m10]; lra).
  exists (181 / 10 * (G * H)). split; [exact FA|].
  split; [apply (matrix_range m9 H (999 / 1000 * (d * d)) (361 + d) (181 + d)); try assumption; try lra; cbn [mget m20 m21 m22]; auto|].
  split; [apply (matrix_ok m9 H (999 / 1000 * (d * d)) (361 + d) (181 + d)); try assumption; try lra; [cbn [mget m20 m21 m22]; auto|]|].
  - rewrite <- EG. assert (0 <= G * (d * d) * H) by (repeat apply Rmult_le_pos; lra).
    replace (181 / 10 * (G * H) * (999 / 1000 * (d * d))) with (181 / 10 * (999 / 1000) * (G * (d * d) * H)) by field. apply Rmult_le_compat_r; lra.
  - apply Rle_trans with (160 * / 1000000000000000 * (181 / 10 * 4000)); [apply Rmult_le_compat; lra|lra].
Qed.
