(** The corrections of two and of three stars in binary64: how far a mapped direction is from the exact map. *)
From Verif Require Import Base Num M_Linalg M_Helper M_Alignment P_AlignState P_Round P_Helper2 P_LinIEEE P_LinIEEE2 P_LinIEEE3 P_LinIEEE4 P_LinIEEE5 P_LinIEEE6.
From Coq Require Import Reals Lra Psatz.
From Flocq Require Import Core.
Open Scope R_scope.

(** the correction by a 3x3 system: matrices [A] (actual) and [B] (reference), both with a last row of ones *)
Lemma solved_map (m9 : R) (A B : matB) k rho L c0 c1 c2 (p : point NumB) : all_b64 A ->
  (forall i, (i < 3)%nat -> sz (size_of m9 A i)) -> well_conditioned k (size_of m9 A) A -> 160 * w * k <= 1 ->
  1 <= rho -> 1 <= L -> norm1 c0 c1 c2 <= L ->
  (forall i j, (i < 2)%nat -> (j < 3)%nat -> Rabs (mget B i j : R) <= rho) ->
  (px p : R) = at_c A c0 c1 c2 0 -> (py p : R) = at_c A c0 c1 c2 1 -> 1 = at_c A c0 c1 c2 2 ->
  let out := mvmul NumB (solve NumB m9 A B) (BVec (px p) (py p) (fZ NumB 1)) in let e := 382 * w * rho * k ^ 2 * L in
  Rabs (v0 out - ((mget B 0 0 : R) * c0 + mget B 0 1 * c1 + mget B 0 2 * c2)) <= e /\
  Rabs (v1 out - ((mget B 1 0 : R) * c0 + mget B 1 1 * c1 + mget B 1 2 * c2)) <= e.
Proof.
  intros FA HS K Hk Hr HL HC HB E0 E1 E2. cbv zeta.
  destruct (map_B m9 A FA k HS K Hk rho L Hr HL c0 c1 c2 HC) as (X & EX & M).
  assert (Es : solve NumB m9 A B = mmul NumB B X).
  { unfold solve, solve_matrix. change (bind (Invert NumB (Ok m9) A) (fun i => Ok (match i with Some inv => mmul NumB B inv | None => identity NumB end))) with (bind (Invert NumB (@Ok R m9) A) (fun i => Ok (match i with Some inv => mmul NumB B inv | None => identity NumB end))). rewrite EX. reflexivity. }
  rewrite Es. unfold mvmul, mmul. cbn [v0 v1 v2 mget m00 m01 m02 m10 m11 m12 m20 m21 m22 fZ NumB]. rewrite (b64_of_int 1) by lia.
  split; (apply M; [first [exact (HB 0%nat 0%nat ltac:(lia) ltac:(lia))|exact (HB 1%nat 0%nat ltac:(lia) ltac:(lia))]|first [exact (HB 0%nat 1%nat ltac:(lia) ltac:(lia))|exact (HB 1%nat 1%nat ltac:(lia) ltac:(lia))]|first [exact (HB 0%nat 2%nat ltac:(lia) ltac:(lia))|exact (HB 1%nat 2%nat ltac:(lia) ltac:(lia))]|exact E0|exact E1|exact E2]).
Qed.

(** ... and the final reduction of the azimuth *)
Lemma reduced (a : align NumB) (p : point NumB) m (u v e : R) : getTransformationMatrix NumB a p = Ok m ->
  (let out := mvmul NumB m (BVec (px p) (py p) (fZ NumB 1)) in Rabs (v0 out - u) <= e /\ Rabs (v1 out - v) <= e) ->
  e <= 1000 -> Rabs u <= 13000000 -> 
  exists q (k : Z), getCalibratedOrientation NumB a p = Ok q /\ Rabs ((px q : R) - (u + 360 * IZR k)) <= e + 1 / 10 ^ 12 /\ Rabs ((py q : R) - v) <= e /\
    - (1 / 10 ^ 8) <= px q <= 360 + 1 / 10 ^ 8.
Proof.
  intros E H He Hu. cbv zeta in H. destruct H as [H0 H1]. unfold getCalibratedOrientation. rewrite E. cbn [bind].
  set (out := mvmul NumB m (BVec (px p) (py p) (fZ NumB 1))) in *. cbn [fZ NumB]. rewrite (b64_of_int 360) by lia.
  destruct (f_mod_B (v0 out)) as (k & Ek & Br).
  { apply Rabs_le_inv in H0, Hu. apply Rabs_le. change (F NumB) with R in *. lra. }
  eexists _, k. split; [reflexivity|]. cbn [px py]. change (F NumB) with R in *. apply Rabs_le_inv in H0, Ek.
  split; [apply Rabs_le; lra|]. split; [exact H1|exact Br].
Qed.

(** ** three stars *)
(** twice the signed area of a triangle *)
Definition crossB (a b c : point NumB) : R := ((px b : R) - px a) * (py c - py a) - (py b - py a) * ((px c : R) - px a).
(** stored orientations and directions are of this size *)
Definition orientation_ok (p : point NumB) : Prop := is_b64 (px p) /\ is_b64 (py p) /\ Rabs (px p : R) <= 360 /\ Rabs (py p : R) <= 180.
Definition direction_ok (p : point NumB) : Prop := Rabs (px p : R) <= 721 /\ Rabs (py p : R) <= 721.

Lemma sz_of S l h : bpow radix2 (-60) <= l -> h <= bpow radix2 60 -> l <= S <= h -> sz S.
Proof. intros H1 H2 H. unfold sz. lra. Qed.
Lemma Rmax_le z a m : a <= m -> z <= m -> Rmax z a <= m. Proof. intros; apply Rmax_lub; assumption. Qed.

Section Sizes.
Context (m9 H : R) (A : matB) (H1 : 1 <= H) (Hm9 : Rabs m9 <= H) (R2 : mget A 2 0 = 1 /\ mget A 2 1 = 1 /\ mget A 2 2 = 1).
Lemma size2 : 1 <= size_of m9 A 2 <= H.
Proof.
  destruct R2 as (E0 & E1 & E2). split.
  - pose proof (size_bounds m9 A 2 0 ltac:(lia)) as B. rewrite E0, Rabs_R1 in B. exact B.
  - unfold size_of. rewrite E0, E1, E2, Rabs_R1. repeat apply Rmax_le; lra.
Qed.
Lemma size1 M : 1 <= M -> (forall j, (j < 3)%nat -> Rabs (mget A 1 j) <= M) -> 1 <= size_of m9 A 1 <= M.
Proof.
  destruct R2 as (E0 & _). intros HM HB. split.
  - unfold size_of. rewrite E0, Rabs_R1. apply Rmax_l.
  - unfold size_of. rewrite E0, Rabs_R1. pose proof (HB 0%nat ltac:(lia)). pose proof (HB 1%nat ltac:(lia)). pose proof (HB 2%nat ltac:(lia)). repeat apply Rmax_le; lra.
Qed.
Lemma size0 M : 0 <= M -> (forall j, (j < 3)%nat -> Rabs (mget A 0 j) <= M) -> Rabs (mget A 1 0) <= M -> size_of m9 A 0 <= M.
Proof.
  intros HM HB Hn. unfold size_of. pose proof (HB 0%nat ltac:(lia)). pose proof (HB 1%nat ltac:(lia)). pose proof (HB 2%nat ltac:(lia)). repeat apply Rmax_le; assumption.
Qed.
(** a determinant bounds the first row from below *)
Lemma size0_low M1 : 0 < M1 -> (forall j, (j < 3)%nat -> Rabs (mget A 1 j) <= M1) -> Rabs (det3 A) <= 6 * M1 * size_of m9 A 0.
Proof.
  intros HM HB. destruct R2 as (E0 & E1 & E2). unfold det3. rewrite E0, E1, E2.
  pose proof (size_bounds m9 A 0 0 ltac:(lia)) as A0. pose proof (size_bounds m9 A 0 1 ltac:(lia)) as A1. pose proof (size_bounds m9 A 0 2 ltac:(lia)) as A2.
  pose proof (HB 0%nat ltac:(lia)) as B0. pose proof (HB 1%nat ltac:(lia)) as B1. pose proof (HB 2%nat ltac:(lia)) as B2.
  set (s := size_of m9 A 0) in *. change (F NumB) with R in *.
  set (x := mget A 0 0) in *. set (y := mget A 0 1) in *. set (z := mget A 0 2) in *. set (b0 := mget A 1 0) in *. set (b1 := mget A 1 1) in *. set (b2 := mget A 1 2) in *. clearbody x y z b0 b1 b2 s.
  assert (T : forall a b c, Rabs a <= s -> Rabs b <= M1 -> Rabs c <= M1 -> Rabs (a * (b * 1 - c * 1)) <= s * (2 * M1)).
  { intros a b c Ha Hb Hc. apply Rabs_mul_le; [exact Ha|]. apply Rabs_le_inv in Hb, Hc. apply Rabs_le. lra. }
  pose proof (T x b1 b2 A0 B1 B2) as T0. pose proof (T y b0 b2 A1 B0 B2) as T1. pose proof (T z b0 b1 A2 B0 B1) as T2.
  eapply Rle_trans; [apply Rabs_triang|]. unfold Rminus at 1. eapply Rle_trans; [apply Rplus_le_compat_r, Rabs_triang|]. rewrite Rabs_Ropp. lra.
Qed.
End Sizes.

(** both kinds at once: a matrix with a last row of ones, sizes and a determinant *)
Lemma matrix_ok (m9 H d M0 M1 k : R) (A : matB) : all_b64 A -> mget A 2 0 = 1 /\ mget A 2 1 = 1 /\ mget A 2 2 = 1 -> 1 <= H -> Rabs m9 <= H -> H <= 1000000 ->
  1 <= M0 <= 1000000 -> 1 <= M1 <= 1000000 -> (forall j, (j < 3)%nat -> Rabs (mget A 0 j) <= M0) -> Rabs (mget A 1 0) <= M0 -> (forall j, (j < 3)%nat -> Rabs (mget A 1 j) <= M1) ->
  / 1000 <= d -> d <= Rabs (det3 A) -> 18 * (M0 * M1 * H) <= k * d ->
  (forall i, (i < 3)%nat -> sz (size_of m9 A i)) /\ well_conditioned k (size_of m9 A) A.
Proof.
  intros FA R2 H1 Hm9 HH HM0 HM1 B0 B10 B1 Hd Hdet Hk.
  pose proof (size2 m9 H A H1 Hm9 R2) as S2. pose proof (size1 m9 A R2 M1 ltac:(lra) B1) as S1. pose proof (size0 m9 A M0 ltac:(lra) B0 B10) as S0.
  pose proof (size0_low m9 A R2 M1 ltac:(lra) B1) as L0.
  assert (P0 : / 10000000000 <= size_of m9 A 0).
  { set (s := size_of m9 A 0) in *. clearbody s. destruct (Rle_or_lt (/ 10000000000) s) as [G|G]; [exact G|]. exfalso.
    assert (6 * M1 * s <= 6 * M1 * / 10000000000) by (apply Rmult_le_compat_l; lra). lra. }
  assert (SZ : forall i, (i < 3)%nat -> sz (size_of m9 A i)).
  { intros [|[|[|i]]] Hi; [| | |lia].
    - apply (sz_of _ (/ 10000000000) 1000000); [simpl bpow; lra|simpl bpow; lra|lra].
    - apply (sz_of _ 1 1000000); [simpl bpow; lra|simpl bpow; lra|lra].
    - apply (sz_of _ 1 1000000); [simpl bpow; lra|simpl bpow; lra|lra]. }
  split; [exact SZ|]. apply well_conditioned_det.
  - intros i Hi. apply sz_pos, SZ, Hi.
  - intros E. rewrite E, Rabs_R0 in Hdet. lra.
  - set (s0 := size_of m9 A 0) in *. set (s1 := size_of m9 A 1) in *. set (s2 := size_of m9 A 2) in *. clearbody s0 s1 s2. clear SZ L0.
    assert (Hkp : 0 <= k).
    { destruct (Rle_or_lt 0 k) as [G|G]; [exact G|]. exfalso. assert (0 <= (- k) * d) by (apply Rmult_le_pos; lra).
      assert (0 <= M0 * M1 * H) by (repeat apply Rmult_le_pos; lra). assert (0 < M0 * M1 * H) by (repeat apply Rmult_lt_0_compat; lra). lra. }
    apply Rle_trans with (18 * (M0 * M1 * H)).
    { apply Rmult_le_compat_l; [lra|]. apply Rmult_le_compat; try lra; [apply Rmult_le_pos; lra|]. apply Rmult_le_compat; lra. }
    eapply Rle_trans; [exact Hk|]. apply Rmult_le_compat_l; [exact Hkp|exact Hdet].
Qed.

Lemma det3_tri (a b c : point NumB) : det3 (tri_matrix NumB a b c) = crossB a b c.
Proof.
  unfold det3, tri_matrix, crossB. cbn [mget m00 m01 m02 m10 m11 m12 m20 m21 m22 fZ NumB]. rewrite (b64_of_int 1) by lia.
  change (F NumB) with R. generalize (px a : R), (px b : R), (px c : R), (py a : R), (py b : R), (py c : R). intros. ring.
Qed.
Lemma orientation_b64 a : orientation_ok a -> is_b64 (px a) /\ is_b64 (py a). Proof. intros (? & ? & _). auto. Qed.

Lemma sq_le x y : 0 <= x -> x <= y -> x ^ 2 <= y ^ 2.
Proof. intros. apply pow_incr. lra. Qed.

(** three stars *)
Lemma tri_map (m9 H L c0 c1 c2 : R) (a b c ra rb rc p : point NumB) :
  orientation_ok a -> orientation_ok b -> orientation_ok c -> direction_ok ra -> direction_ok rb -> direction_ok rc ->
  1 <= H -> Rabs m9 <= H -> 1 <= L -> H <= 1000000 -> H <= 100 * Rabs (crossB a b c) ->
  c0 + c1 + c2 = 1 -> Rabs c0 + Rabs c1 + Rabs c2 <= L -> 
  (px p : R) = c0 * px a + c1 * px b + c2 * px c -> (py p : R) = c0 * py a + c1 * py b + c2 * py c ->
  let out := mvmul NumB (solve NumB m9 (tri_matrix NumB a b c) (tri_matrix NumB ra rb rc)) (BVec (px p) (py p) (fZ NumB 1)) in
  let e := 84 * L * (H / crossB a b c) ^ 2 in
  Rabs (v0 out - (c0 * px ra + c1 * px rb + c2 * px rc)) <= e /\ Rabs (v1 out - (c0 * py ra + c1 * py rb + c2 * py rc)) <= e.
Proof.
  intros (Fa & Ga & Ba & Da) (Fb & Gb & Bb & Db) (Fc & Gc & Bc & Dc) (Ra & Sa) (Rb & Sb) (Rc & Sc) H1 Hm HL HH Hd Cs Cn Ex Ey. cbv zeta.
  assert (PD : / 1000 <= Rabs (crossB a b c)) by lra.
  set (d := Rabs (crossB a b c)) in *.
  pose proof w_small as W.
  assert (OK := matrix_ok m9 H d 360 180 (1166400 * (H / d)) (tri_matrix NumB a b c)).
  assert (Q : 0 < H / d) by (apply Rdiv_lt_0_compat; lra).
  assert (Q100 : H / d <= 100).
  { apply Rmult_le_reg_r with d; [lra|]. unfold Rdiv. rewrite Rmult_assoc, Rinv_l by lra. lra. }
  destruct OK as [SZ WC].
  { intros i j Hi Hj. destruct i as [|[|[|i]]]; [| | |lia]; (destruct j as [|[|[|j]]]; [| | |lia]); cbn [tri_matrix mget m00 m01 m02 m10 m11 m12 m20 m21 m22 fZ NumB]; try assumption; apply is_b64_round. }
  { cbn [tri_matrix mget m00 m01 m02 m10 m11 m12 m20 m21 m22 fZ NumB]. rewrite (b64_of_int 1) by lia. auto. }
  { exact H1. } { exact Hm. } { exact HH. } { lra. } { lra. }
  { intros j Hj. destruct j as [|[|[|j]]]; [| | |lia]; assumption. }
  { cbn [tri_matrix mget m00 m01 m02 m10 m11 m12 m20 m21 m22]. change (F NumB) with R in *. lra. }
  { intros j Hj. destruct j as [|[|[|j]]]; [| | |lia]; assumption. }
  { exact PD. }
  { rewrite det3_tri. unfold d. lra. }
  { right. field. lra. }
  assert (KK : 160 * w * (1166400 * (H / d)) <= 1).
  { apply Rle_trans with (160 * / 1000000000000000 * (1166400 * 100)); [|lra]. apply Rmult_le_compat; lra. }
  destruct (solved_map m9 (tri_matrix NumB a b c) (tri_matrix NumB ra rb rc) (1166400 * (H / d)) 721 L c0 c1 c2 p) as [O0 O1]; try assumption; try lra.
  { intros i j Hi Hj. destruct i as [|[|[|i]]]; [| | |lia]; (destruct j as [|[|[|j]]]; [| | |lia]); cbn [tri_matrix mget m00 m01 m02 m10 m11 m12 m20 m21 m22 fZ NumB]; try assumption; apply is_b64_round. }
  { intros i j Hi Hj. destruct i as [|[|i]]; [| |lia]; (destruct j as [|[|[|j]]]; [| | |lia]); assumption. }
  { unfold at_c. cbn [tri_matrix mget m00 m01 m02]. rewrite Ex. change (F NumB) with R. ring. }
  { unfold at_c. cbn [tri_matrix mget m10 m11 m12]. rewrite Ey. change (F NumB) with R. ring. }
  { unfold at_c. cbn [tri_matrix mget m20 m21 m22 fZ NumB]. rewrite (b64_of_int 1) by lia. lra. }
  cbv zeta in O0, O1.
  assert (EE : 382 * w * 721 * (1166400 * (H / d)) ^ 2 * L <= 84 * L * (H / crossB a b c) ^ 2).
  { replace ((H / crossB a b c) ^ 2) with ((H / d) ^ 2).
    2:{ unfold d. unfold Rdiv. rewrite !Rpow_mult_distr. f_equal. rewrite <- !Rinv_pow_depr; [f_equal; apply pow2_abs| |apply Rabs_no_R0]; intros E; unfold d in PD; rewrite E, Rabs_R0 in PD; lra. }
    set (q := H / d) in *. assert (0 <= q ^ 2 * L) by (apply Rmult_le_pos; [apply pow2_ge_0|lra]).
    replace (382 * w * 721 * (1166400 * q) ^ 2 * L) with (382 * w * 721 * 1166400 ^ 2 * (q ^ 2 * L)) by ring.
    replace (84 * L * q ^ 2) with (84 * (q ^ 2 * L)) by ring. apply Rmult_le_compat_r; [assumption|]. rewrite w_val. lra. }
  cbn [tri_matrix mget m00 m01 m02 m10 m11 m12] in O0, O1. change (F NumB) with R in *.
  split; (eapply Rle_trans; [|exact EE]); [eapply Rle_trans; [|exact O0]|eapply Rle_trans; [|exact O1]]; right; f_equal; ring.
Qed.

(** ** two stars *)
Definition distB (a b : point NumB) : R := sqrt (((px b : R) - px a) ^ 2 + (py b - py a) ^ 2).
Lemma dist_facts (x y : R) : let d := sqrt (x ^ 2 + y ^ 2) in 0 <= d /\ d * d = x * x + y * y /\ Rabs x <= d /\ Rabs y <= d.
Proof.
  cbv zeta. assert (N : 0 <= x ^ 2 + y ^ 2) by (pose proof (pow2_ge_0 x); pose proof (pow2_ge_0 y); lra).
  split; [apply sqrt_pos|]. split; [rewrite sqrt_sqrt by exact N; ring|].
  split; (rewrite <- sqrt_Rsqr_abs; apply sqrt_le_1_alt; unfold Rsqr; pose proof (pow2_ge_0 x); pose proof (pow2_ge_0 y); simpl in *; lra).
Qed.

(** the third column, rounded *)
Lemma third_err (u v0 v1 m : R) : Rabs u <= m -> Rabs v0 <= m -> Rabs v1 <= m -> m <= 721 ->
  Rabs (b64 (u + b64 (v1 - v0)) - (u + (v1 - v0))) <= bpow radix2 (-40) /\ Rabs (b64 (u - b64 (v1 - v0)) - (u - (v1 - v0))) <= bpow radix2 (-40).
Proof.
  intros H0 H1 H2 Hm. apply Rabs_le_inv in H0, H1, H2. step 11%Z (v1 - v0) A. 
  split; [step 12%Z (u + y) B|step 12%Z (u - y) B]; apply Rabs_le; simpl bpow in *; lra.
Qed.
Lemma refit (dx dy ex ey d s t : R) : 1 <= d -> d * d = dx * dx + dy * dy -> Rabs dx <= d -> Rabs dy <= d ->
  Rabs ex <= bpow radix2 (-40) -> Rabs ey <= bpow radix2 (-40) ->
  exists c0 c1 c2, c0 + c1 + c2 = 1 /\ s * dx + t * dy = c1 * dx + c2 * (dx + dy + ex) /\ s * dy - t * dx = c1 * dy + c2 * (dy - dx + ey) /\
    Rabs (c0 - (1 - s)) <= 6 / 10 ^ 12 * Rabs t /\ Rabs (c1 - (s - t)) <= 6 / 10 ^ 12 * Rabs t /\ Rabs (c2 - t) <= 6 / 10 ^ 12 * Rabs t.
Proof.
  intros Hd Ed Bx By Hx Hy. set (eta := bpow radix2 (-40)) in *. assert (N : 0 <= eta <= 91 / 10 ^ 14) by (unfold eta; simpl bpow; lra).
  assert (DD : 0 < d * d) by (apply Rmult_lt_0_compat; lra).
  assert (Q : forall u v x y, Rabs u <= d -> Rabs v <= d -> Rabs x <= eta -> Rabs y <= eta -> Rabs ((u * x + v * y) / (d * d)) <= 2 * eta).
  { intros u v x y Hu Hv Hx' Hy'. unfold Rdiv. rewrite Rabs_mult. rewrite (Rabs_pos_eq (/ (d * d))) by (apply Rlt_le, Rinv_0_lt_compat, DD).
    apply Rmult_le_reg_r with (d * d); [exact DD|]. rewrite Rmult_assoc, Rinv_l by lra. rewrite Rmult_1_r.
    pose proof (Rabs_mul_le u x _ _ Hu Hx') as P1. pose proof (Rabs_mul_le v y _ _ Hv Hy') as P2.
    eapply Rle_trans; [apply Rabs_triang|]. assert (d * eta <= d * d * eta). { assert (0 <= (d - 1) * (d * eta)) by (apply Rmult_le_pos; [lra|apply Rmult_le_pos; lra]). lra. } lra. }
  set (e2 := (dy * ex + (- dx) * ey) / (d * d)). set (e12 := (dx * ex + dy * ey) / (d * d)).
  assert (B2 : Rabs e2 <= 2 * eta) by (apply Q; try assumption; rewrite Rabs_Ropp; assumption).
  assert (B12 : Rabs e12 <= 2 * eta) by (apply Q; assumption).
  assert (X1 : ex = (e12 - e2) * dx + e2 * (dx + dy)).
  { unfold e12, e2. rewrite Ed. field. rewrite <- Ed. lra. }
  assert (X2 : ey = (e12 - e2) * dy + e2 * (dy - dx)).
  { unfold e12, e2. rewrite Ed. field. rewrite <- Ed. lra. }
  set (e1 := e12 - e2) in *. assert (B1 : Rabs e1 <= 4 * eta) by (apply Rabs_le_inv in B2, B12; unfold e1; apply Rabs_le; lra).
  clearbody e1 e2. clear Q e12 B12. apply Rabs_le_inv in B2. assert (P2 : 1 + e2 <> 0) by lra.
  set (c2 := t / (1 + e2)). assert (Ec2 : c2 * (1 + e2) = t) by (unfold c2; field; exact P2).
  assert (I : Rabs (/ (1 + e2)) <= 1001 / 1000).
  { rewrite Rabs_pos_eq by (apply Rlt_le, Rinv_0_lt_compat; lra). apply Rmult_le_reg_r with (1 + e2); [lra|]. rewrite Rinv_l by exact P2. lra. }
  assert (Bc2 : Rabs c2 <= 1001 / 1000 * Rabs t). { unfold c2, Rdiv. rewrite Rabs_mult. rewrite Rmult_comm. apply Rmult_le_compat_r; [apply Rabs_pos|exact I]. }
  pose proof (Rabs_pos t) as NT.
  assert (D2 : Rabs (c2 * e2) <= 2 / 10 ^ 12 * Rabs t).
  { apply Rle_trans with (1001 / 1000 * Rabs t * (2 * eta)); [apply Rabs_mul_le; [exact Bc2|apply Rabs_le; lra]|].
    replace (1001 / 1000 * Rabs t * (2 * eta)) with (1001 / 1000 * (2 * eta) * Rabs t) by ring. apply Rmult_le_compat_r; lra. }
  assert (D1 : Rabs (c2 * e1) <= 4 / 10 ^ 12 * Rabs t).
  { apply Rle_trans with (1001 / 1000 * Rabs t * (4 * eta)); [apply Rabs_mul_le; assumption|].
    replace (1001 / 1000 * Rabs t * (4 * eta)) with (1001 / 1000 * (4 * eta) * Rabs t) by ring. apply Rmult_le_compat_r; lra. }
  set (Z1 := Rabs t) in *. clearbody c2. apply Rabs_le_inv in D1, D2.
  exists (1 - (s - t - c2 * e1) - c2), (s - t - c2 * e1), c2.
  split; [ring|]. split; [rewrite X1, <- Ec2; ring|]. split; [rewrite X2, <- Ec2; ring|].
  assert (E : t = c2 + c2 * e2) by lra.
  split; [|split]; apply Rabs_le; lra.
Qed.

Lemma sum5 a b c d e : Rabs (a + b + c + d + e) <= Rabs a + Rabs b + Rabs c + Rabs d + Rabs e.
Proof.
  pose proof (Rabs_triang (a + b + c + d) e). pose proof (Rabs_triang (a + b + c) d). pose proof (Rabs_triang (a + b) c). pose proof (Rabs_triang a b). lra.
Qed.
Lemma line_map (m9 H L s t : R) (a b ra rb p : point NumB) :
  orientation_ok a -> orientation_ok b -> direction_ok ra -> direction_ok rb ->
  1 <= H -> Rabs m9 <= H -> 1 <= L <= 1000 -> 1 <= distB a b ->
  let G := (1 + 361 / distB a b) * (1 + 181 / distB a b) in let e := / 10000000 * L * (G * H) ^ 2 in
  e <= 1 -> Rabs (1 - s) + Rabs (s - t) + Rabs t <= L ->
  (px p : R) = px a + s * ((px b : R) - px a) + t * (py b - py a) -> (py p : R) = py a + s * (py b - py a) - t * ((px b : R) - px a) ->
  let out := mvmul NumB (solve NumB m9 (line_matrix NumB a b) (line_matrix NumB ra rb)) (BVec (px p) (py p) (fZ NumB 1)) in
  Rabs (v0 out - (px ra + s * ((px rb : R) - px ra) + t * (py rb - py ra))) <= e /\ Rabs (v1 out - (py ra + s * (py rb - py ra) - t * ((px rb : R) - px ra))) <= e.
Proof.
  intros (Fa & Ga & Ba & Da) (Fb & Gb & Bb & Db) (Ra & Sa) (Rb & Sb) H1 Hm HL Hd G e He HN Ex Ey. cbv zeta.
  destruct (dist_facts ((px b : R) - px a) (py b - py a)) as (_ & Ed & Bx & By). fold (distB a b) in Ed, Bx, By.
  pose proof w_small as W. change (F NumB) with R in *.
  destruct (third_err (px b) (py a) (py b) 360) as [TX _]; [assumption|lra|lra|lra|].
  destruct (third_err (py b) (px a) (px b) 360) as [_ TY]; [lra|lra|lra|lra|].
  destruct (third_err (px rb) (py ra) (py rb) 721) as [UX _]; [lra|lra|lra|lra|].
  destruct (third_err (py rb) (px ra) (px rb) 721) as [_ UY]; [lra|lra|lra|lra|].
  set (d := distB a b) in *. set (dx := px b - px a) in *. set (dy := py b - py a) in *.
  set (x2 := b64 (px b + b64 dy)) in *. set (y2 := b64 (py b - b64 dx)) in *.
  set (X2 := b64 (px rb + b64 (py rb - py ra))) in *. set (Y2 := b64 (py rb - b64 (px rb - px ra))) in *.
  set (ex := x2 - (px b + dy)) in *. set (ey := y2 - (py b - dx)) in *.
  assert (Mact : line_matrix NumB a b = BMat (px a) (px b) x2 (py a) (py b) y2 1 1 1).
  { unfold line_matrix. cbn [fadd fsub fZ NumB]. rewrite (b64_of_int 1) by lia. reflexivity. }
  assert (Mref : line_matrix NumB ra rb = BMat (px ra) (px rb) X2 (py ra) (py rb) Y2 1 1 1).
  { unfold line_matrix. cbn [fadd fsub fZ NumB]. rewrite (b64_of_int 1) by lia. reflexivity. }
  rewrite Mact, Mref.
  assert (F2 : is_b64 x2 /\ is_b64 y2) by (split; apply is_b64_round).
  destruct (refit dx dy ex ey d s t Hd Ed Bx By TX TY) as (c0 & c1 & c2 & Cs & Cx & Cy & K0 & K1 & K2).
  assert (G1 : 1 <= G).
  { unfold G. assert (0 <= 361 / d) by (apply Rlt_le, Rdiv_lt_0_compat; lra). assert (0 <= 181 / d) by (apply Rlt_le, Rdiv_lt_0_compat; lra).
    assert (1 * 1 <= (1 + 361 / d) * (1 + 181 / d)) by (apply Rmult_le_compat; lra). lra. }
  assert (EG : G * (d * d) = (361 + d) * (181 + d)) by (unfold G; field; lra).
  clearbody G.
  assert (Q1 : 1 <= G * H) by (assert (1 * 1 <= G * H) by (apply Rmult_le_compat; lra); lra).
  assert (GH : G * H <= 4000).
  { destruct (Rle_or_lt (G * H) 4000) as [Z|Z]; [exact Z|]. exfalso. assert (4000 * 4000 <= (G * H) * (G * H)) by (apply Rmult_le_compat; lra).
    assert (1 * (4000 * 4000) <= L * (G * H) ^ 2) by (apply Rmult_le_compat; [lra|lra|lra|simpl; lra]). unfold e in He. lra. }
  assert (Hle : H <= 4000). { assert (1 * H <= G * H) by (apply Rmult_le_compat_r; lra). lra. }
  assert (dU : d <= 1000).
  { destruct (Rle_or_lt d 1000) as [Z|Z]; [exact Z|]. exfalso. assert (1000 * 1000 <= d * d) by (apply Rmult_le_compat; lra).
    assert (Rabs dx <= 720) by (unfold dx; apply Rabs_le_inv in Ba, Bb; apply Rabs_le; lra). assert (Rabs dy <= 360) by (unfold dy; apply Rabs_le_inv in Da, Db; apply Rabs_le; lra).
    assert (dx * dx <= 720 * 720). { rewrite <- (Rabs_pos_eq (dx * dx)) by (apply Rle_0_sqr). apply Rabs_mul_le; assumption. }
    assert (dy * dy <= 360 * 360). { rewrite <- (Rabs_pos_eq (dy * dy)) by (apply Rle_0_sqr). apply Rabs_mul_le; assumption. } lra. }
  assert (FA : all_b64 (BMat (px a) (px b) x2 (py a) (py b) y2 1 1 1)).
  { intros i j Hi Hj. destruct i as [|[|[|i]]]; [| | |lia]; (destruct j as [|[|[|j]]]; [| | |lia]); cbn [mget m00 m01 m02 m10 m11 m12 m20 m21 m22]; try assumption; try apply F2; apply (is_b64_int 1); lia. }
  assert (BX : Rabs x2 <= 361 + d). { apply Rabs_le_inv in TX, Bb, By. apply Rabs_le. unfold ex in TX. simpl bpow in TX. lra. }
  assert (BY : Rabs y2 <= 181 + d). { apply Rabs_le_inv in TY, Db, Bx. apply Rabs_le. unfold ey in TY. simpl bpow in TY. lra. }
  assert (ED : det3 (BMat (px a) (px b) x2 (py a) (py b) y2 1 1 1) = - (d * d) + (dx * ey - dy * ex)).
  { unfold det3. cbn [mget m00 m01 m02 m10 m11 m12 m20 m21 m22]. rewrite Ed. unfold ex, ey, dx, dy. ring. }
  assert (DL : 999 / 1000 * (d * d) <= Rabs (det3 (BMat (px a) (px b) x2 (py a) (py b) y2 1 1 1))).
  { rewrite ED. pose proof (Rabs_mul_le dx ey _ _ Bx TY) as P1. pose proof (Rabs_mul_le dy ex _ _ By TX) as P2. simpl bpow in P1, P2.
    assert (1 * d <= d * d) by (apply Rmult_le_compat_r; lra).
    set (u := dx * ey) in *. set (v := dy * ex) in *. clearbody u v. apply Rabs_le_inv in P1, P2. rewrite <- Rabs_Ropp, Rabs_pos_eq; lra. }
  assert (DD : 1 <= d * d) by (assert (1 * 1 <= d * d) by (apply Rmult_le_compat; lra); lra).
  destruct (matrix_ok m9 H (999 / 1000 * (d * d)) (361 + d) (181 + d) (181 / 10 * (G * H)) _ FA) as [SZ WC].
  { cbn [mget m20 m21 m22]. auto. }
  { exact H1. } { exact Hm. } { lra. } { lra. } { lra. }
  { intros j Hj. destruct j as [|[|[|j]]]; [| | |lia]; cbn [mget m00 m01 m02]; lra. }
  { cbn [mget m10]. lra. }
  { intros j Hj. destruct j as [|[|[|j]]]; [| | |lia]; cbn [mget m10 m11 m12]; lra. }
  { lra. } { exact DL. }
  { rewrite <- EG. assert (0 <= G * (d * d) * H) by (repeat apply Rmult_le_pos; lra).
    replace (181 / 10 * (G * H) * (999 / 1000 * (d * d))) with (181 / 10 * (999 / 1000) * (G * (d * d) * H)) by field. apply Rmult_le_compat_r; lra. }
  set (A := BMat (px a) (px b) x2 (py a) (py b) y2 1 1 1) in *.
  assert (Tn : Rabs t <= L). { pose proof (Rabs_pos (1 - s)). pose proof (Rabs_pos (s - t)). lra. }
  assert (Nc : norm1 c0 c1 c2 <= 101 / 100 * L).
  { unfold norm1. assert (T3 : forall x y z, Rabs (x - y) <= z -> Rabs x <= Rabs y + z). { intros x y z Hz. replace x with (y + (x - y)) at 1 by ring. eapply Rle_trans; [apply Rabs_triang|]. lra. }
    apply T3 in K0. apply T3 in K1. apply T3 in K2. lra. }
  destruct (solved_map m9 A (BMat (px ra) (px rb) X2 (py ra) (py rb) Y2 1 1 1) (181 / 10 * (G * H)) 2164 (101 / 100 * L) c0 c1 c2 p) as [O0 O1]; try assumption; try lra.
  { apply Rle_trans with (160 * / 1000000000000000 * (181 / 10 * 4000)); [apply Rmult_le_compat; lra|lra]. }
  { intros i j Hi Hj. simpl bpow in UX, UY. destruct i as [|[|i]]; [| |lia]; (destruct j as [|[|[|j]]]; [| | |lia]); cbn [mget m00 m01 m02 m10 m11 m12]; try lra.
    - apply Rabs_le_inv in UX, Ra, Rb, Sa, Sb. apply Rabs_le. lra.
    - apply Rabs_le_inv in UY, Ra, Rb, Sa, Sb. apply Rabs_le. lra. }
  { unfold at_c, A. cbn [mget m00 m01 m02]. rewrite Ex. fold dx dy. replace x2 with (px a + (dx + dy + ex)) by (unfold ex, dx; ring). replace (px b) with (px a + dx) by (unfold dx; ring).
    replace c0 with (1 - c1 - c2) by lra. clear - Cx. lra. }
  { unfold at_c, A. cbn [mget m10 m11 m12]. rewrite Ey. fold dx dy. replace y2 with (py a + (dy - dx + ey)) by (unfold ey, dy; ring). replace (py b) with (py a + dy) by (unfold dy; ring).
    replace c0 with (1 - c1 - c2) by lra. clear - Cy. lra. }
  { unfold at_c, A. cbn [mget m20 m21 m22]. lra. }
  cbv zeta in O0, O1. cbn [mget m00 m01 m02 m10 m11 m12] in O0, O1. change (F NumB) with R in *.
  set (out := mvmul NumB (solve NumB m9 A (BMat (px ra) (px rb) X2 (py ra) (py rb) Y2 1 1 1)) (BVec (px p) (py p) (fZ NumB 1))) in *. clearbody out. clear - O0 O1 K0 K1 K2 HN UX UY Ra Rb Sa Sb HL Tn Q1.
  assert (EE : 382 * w * 2164 * (181 / 10 * (G * H)) ^ 2 * (101 / 100 * L) <= 62 / 10 ^ 9 * (L * (G * H) ^ 2)).
  { replace (382 * w * 2164 * (181 / 10 * (G * H)) ^ 2 * (101 / 100 * L)) with (382 * w * 2164 * (181 / 10) ^ 2 * (101 / 100) * (L * (G * H) ^ 2)) by (simpl; field).
    apply Rmult_le_compat_r; [apply Rmult_le_pos; [lra|apply pow2_ge_0]|]. rewrite w_val. lra. }
  set (E := 382 * w * 2164 * (181 / 10 * (G * H)) ^ 2 * (101 / 100 * L)) in *. clearbody E.
  assert (GG : 1 <= (G * H) ^ 2) by (assert (1 * 1 <= (G * H) * (G * H)) by (apply Rmult_le_compat; lra); simpl; lra).
  assert (LL : L <= L * (G * H) ^ 2). { rewrite <- (Rmult_1_r L) at 1. apply Rmult_le_compat_l; lra. }
  subst e. set (g := L * (G * H) ^ 2) in *. assert (Eg : / 10000000 * L * (G * H) ^ 2 = / 10000000 * g) by (unfold g; ring). rewrite Eg. clearbody g. clear Eg.
  pose proof (Rabs_pos t) as NT.
  assert (FIN : forall o q0 q1 q2 z, Rabs (o - (q0 * c0 + q1 * c1 + q2 * c2)) <= E -> Rabs q0 <= 721 -> Rabs q1 <= 721 -> Rabs z <= 2163 -> Rabs (q2 - z) <= bpow radix2 (-40) ->
     Rabs (o - (q0 * (1 - s) + q1 * (s - t) + z * t)) <= / 10000000 * g).
  { intros o q0 q1 q2 z Ho H0 H1 H2 Hz. simpl bpow in Hz.
    pose proof (Rabs_mul_le q0 _ _ _ H0 K0) as P0. pose proof (Rabs_mul_le q1 _ _ _ H1 K1) as P1. 
    assert (H2' : Rabs q2 <= 2164) by (apply Rabs_le_inv in Hz, H2; apply Rabs_le; lra).
    pose proof (Rabs_mul_le q2 _ _ _ H2' K2) as P2. pose proof (Rabs_mul_le _ t _ _ Hz (Rle_refl _)) as P3.
    replace (o - (q0 * (1 - s) + q1 * (s - t) + z * t)) with ((o - (q0 * c0 + q1 * c1 + q2 * c2)) + q0 * (c0 - (1 - s)) + q1 * (c1 - (s - t)) + q2 * (c2 - t) + (q2 - z) * t) by ring.
    eapply Rle_trans; [apply sum5|].
    revert Ho P0 P1 P2 P3. generalize (Rabs (o - (q0 * c0 + q1 * c1 + q2 * c2))), (Rabs (q0 * (c0 - (1 - s)))), (Rabs (q1 * (c1 - (s - t)))), (Rabs (q2 * (c2 - t))), (Rabs ((q2 - z) * t)).
    intros. lra. }
  split.
  - replace (px ra + s * (px rb - px ra) + t * (py rb - py ra)) with (px ra * (1 - s) + px rb * (s - t) + (px rb + (py rb - py ra)) * t) by ring.
    apply (FIN _ _ _ X2 _ O0); try assumption. apply Rabs_le_inv in Ra, Rb, Sa, Sb. apply Rabs_le. lra.
  - replace (py ra + s * (py rb - py ra) - t * (px rb - px ra)) with (py ra * (1 - s) + py rb * (s - t) + (py rb - (px rb - px ra)) * t) by ring.
    apply (FIN _ _ _ Y2 _ O1); try assumption. apply Rabs_le_inv in Ra, Rb, Sa, Sb. apply Rabs_le. lra.
Qed.
