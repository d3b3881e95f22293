(** C154, C155: the corrections of two and of three stars in IEEE double precision: how far the calibrated orientation is
    from the exact similarity, or from the exact affine map of the triangle.  Every operation is rounded (NumB). *)
From Verif Require Import Base Num M_Linalg M_Helper M_Alignment S_Alignment P_Alignment P_AlignState P_AlignState2 P_AlignR P_Round P_TriIEEE P_NearB P_OneIEEE P_AlignIEEE P_Device Properties_Alignment Properties_SkyIEEE.
From Coq Require Import Permutation Reals Lra.
From Flocq Require Import Core.
Open Scope R_scope.
Notation length := List.length.

(** ** specification *)
(** an orientation of the tube: double numbers, azimuth within a turn, altitude within half a turn *)
Definition tube (p : point NumB) : Prop := is_b64 (px p) /\ is_b64 (py p) /\ Rabs (px p : R) <= 360 /\ Rabs (py p : R) <= 180.
(** a stored direction: the azimuth is at most two turns (it is unwrapped) *)
Definition in_sky (p : point NumB) : Prop := Rabs (px p : R) <= 721 /\ Rabs (py p : R) <= 721.
(** the pair is usable: an orientation and a direction *)
Definition proper (v : vpair NumB) : Prop := tube (actual v) /\ in_sky (reference v).
(** distance of two orientations in the azimuth/altitude plane, in degrees *)
Definition separation (p q : point NumB) : R := sqrt (((px q : R) - px p) ^ 2 + (py q - py p) ^ 2).
(** twice the signed area of the triangle of three orientations, in square degrees *)
Definition doubled_area (a b c : point NumB) : R := ((px b : R) - px a) * (py c - py a) - (py b - py a) * ((px c : R) - px a).
(** the calibrated orientation of [p] is [(x, y)], up to whole turns of the azimuth, within [e] degrees *)
Definition calibrated_within (e : R) (a : align NumB) (p : point NumB) (x y : R) : Prop :=
  exists q (k : Z), getCalibratedOrientation NumB a p = Ok q /\ Rabs ((px q : R) - (x + 360 * IZR k)) <= e /\ Rabs ((py q : R) - y) <= e /\
    - (1 / 10 ^ 8) <= px q <= 360 + 1 / 10 ^ 8.

(** ** C154 *)
(** amplification of the rounding errors by two stars that are [d] degrees apart *)
Definition gain2 (d : R) : R := (1 + 361 / d) * (1 + 181 / d).

Lemma line_any qsort x j ops a v w p : permuting NumB qsort -> reaches NumB qsort x j (ops ++ [Triangulate]) a -> stored a = [v; w] ->
  getTransformationType NumB a p = Ok LINE /\
  getTransformationMatrix NumB a p = Ok (solve NumB x (line_matrix NumB (actual v) (actual w)) (line_matrix NumB (reference v) (reference w))).
Proof.
  intros Hq H Hs. destruct (last_triangulate_any NumB qsort x j ops a Hq H) as (a0 & _ & HW & E & Es & _).
  destruct (triangulate_actual NumB x j a0 HW) as [(a' & E' & HW' & En & Es' & Hpos & H0 & Hm)|(_ & _ & E')]; rewrite E' in E; [|discriminate]. injection E as ->.
  pose proof (stored_length NumB a0 HW) as Hl. rewrite <- Es, Hs in Hl. cbn [length] in Hl.
  assert (Hn : numVertices a0 = 2%Z) by lia.
  destruct Hpos as (Ht & _); [lia|].
  assert (Etr : tris a = []).
  { destruct (tris a) as [|t l]; [reflexivity|]. inversion Ht; subst. exfalso. eapply (no_three_of t 2); [lia|]. rewrite <- Hn. assumption. }
  destruct (type_and_matrix NumB x a p HW' Hm) as (ty & m & Ety & Em & Hc).
  destruct ty.
  - destruct Hc as (Hc & _). congruence.
  - destruct Hc as (_ & v' & Hc & _). congruence.
  - destruct Hc as (_ & v' & w' & r' & Hc & ->). rewrite Hs in Hc. injection Hc as <- <- _. auto.
  - destruct Hc as (Hc & _). congruence.
  - destruct Hc as (k & t & Hc & _). rewrite Etr in Hc. destruct k; discriminate.
Qed.

(** A direction with coordinates [s] along and [t] across the line from the first star to the second is reported at the same
    coordinates with respect to the directions of the stars. *)
Theorem C154_two_stars : forall qsort x j ops a v w, permuting NumB qsort -> reaches NumB qsort x j (ops ++ [Triangulate]) a ->
  stored a = [v; w] -> proper v -> proper w -> forall H L : R, 1 <= H -> Rabs x <= H -> 1 <= L <= 1000 ->
  let d := separation (actual v) (actual w) in let e := L * (gain2 d * H) ^ 2 / 10000000 in 1 <= d -> e <= 1 ->
  forall (p : point NumB) (s t : R), Rabs (1 - s) + Rabs (s - t) + Rabs t <= L ->
    (px p : R) = px (actual v) + s * ((px (actual w) : R) - px (actual v)) + t * (py (actual w) - py (actual v)) ->
    (py p : R) = py (actual v) + s * (py (actual w) - py (actual v)) - t * ((px (actual w) : R) - px (actual v)) ->
    getTransformationType NumB a p = Ok LINE /\
    calibrated_within (e + 1 / 10 ^ 12) a p
      (px (reference v) + s * ((px (reference w) : R) - px (reference v)) + t * (py (reference w) - py (reference v)))
      (py (reference v) + s * (py (reference w) - py (reference v)) - t * ((px (reference w) : R) - px (reference v))).
Proof.
  intros qsort x j ops a v w Hq H Hs [Tv Sv] [Tw Sw] Hh L H1 Hx HL d e Hd He p s t HN Ex Ey.
  destruct (line_any qsort x j ops a v w p Hq H Hs) as [Ety Em]. split; [exact Ety|].
  assert (Ee : e = / 10000000 * L * (gain2 d * Hh) ^ 2) by (unfold e; field).
  destruct (line_map x Hh L s t (actual v) (actual w) (reference v) (reference w) p Tv Tw Sv Sw H1 Hx HL Hd) as [M0 M1]; try assumption.
  { unfold e, d in He. unfold gain2, separation in He. unfold distB. lra. }
  cbv zeta in M0, M1. fold (separation (actual v) (actual w)) in M0, M1. change (distB (actual v) (actual w)) with d in M0, M1. fold (gain2 d) in M0, M1. rewrite <- Ee in M0, M1.
  edestruct (reduced a p _ _ _ e Em (conj M0 M1)) as (q & k & Eq & Q0 & Q1 & Q2); [lra| |].
  { destruct Sv as [V0 V1], Sw as [W0 W1]. change (F NumB) with R in *. clear - HN HL V0 V1 W0 W1. pose proof (Rabs_pos (1 - s)). pose proof (Rabs_pos (s - t)). pose proof (Rabs_pos t).
    set (X0 := px (reference v)) in *. set (X1 := px (reference w)) in *. set (Y0 := py (reference v)) in *. set (Y1 := py (reference w)) in *. clearbody X0 X1 Y0 Y1.
    replace (X0 + s * (X1 - X0) + t * (Y1 - Y0)) with ((1 - s) * X0 + (s - t) * X1 + t * (X1 + Y1 - Y0)) by ring.
    assert (B2 : Rabs (X1 + Y1 - Y0) <= 2163) by (apply Rabs_le_inv in V0, V1, W0, W1; apply Rabs_le; lra).
    pose proof (P_LinIEEE2.Rabs_mul_le (1 - s) X0 _ _ (Rle_refl _) V0). pose proof (P_LinIEEE2.Rabs_mul_le (s - t) X1 _ _ (Rle_refl _) W0). pose proof (P_LinIEEE2.Rabs_mul_le t _ _ _ (Rle_refl _) B2).
    eapply Rle_trans; [apply Rabs_triang|]. eapply Rle_trans; [apply Rplus_le_compat_r, Rabs_triang|]. lra. }
  exists q, k. split; [exact Eq|]. split; [exact Q0|]. split; [eapply Rle_trans; [exact Q1|lra]|exact Q2].
Qed.
Print Assumptions C154_two_stars.

(** Both stars are reported where they stand. *)
Theorem C154_stars_reproduced : forall qsort x j ops a v w, permuting NumB qsort -> reaches NumB qsort x j (ops ++ [Triangulate]) a ->
  stored a = [v; w] -> proper v -> proper w -> forall H : R, 1 <= H -> Rabs x <= H ->
  let d := separation (actual v) (actual w) in let e := (gain2 d * H) ^ 2 / 10000000 in 1 <= d -> e <= 1 ->
  calibrated_within (e + 1 / 10 ^ 12) a (actual v) (px (reference v)) (py (reference v)) /\
  calibrated_within (e + 1 / 10 ^ 12) a (actual w) (px (reference w)) (py (reference w)).
Proof.
  intros qsort x j ops a v w Hq H Hs Pv Pw Hh H1 Hx d e Hd He.
  assert (Ee : e = 1 * (gain2 d * Hh) ^ 2 / 10000000) by (unfold e; field). rewrite Ee in He |- *.
  destruct (C154_two_stars qsort x j ops a v w Hq H Hs Pv Pw Hh 1 H1 Hx ltac:(lra) Hd He (actual v) 0 0) as [_ C0].
  { rewrite !Rminus_0_r, Rabs_R1, !Rabs_R0. lra. }
  { change (F NumB) with R. generalize (px (actual v) : R), (px (actual w) : R), (py (actual v) : R), (py (actual w) : R). intros. ring. }
  { change (F NumB) with R. generalize (px (actual v) : R), (px (actual w) : R), (py (actual v) : R), (py (actual w) : R). intros. ring. }
  destruct (C154_two_stars qsort x j ops a v w Hq H Hs Pv Pw Hh 1 H1 Hx ltac:(lra) Hd He (actual w) 1 0) as [_ C1].
  { rewrite Rminus_0_r, Rminus_diag_eq by reflexivity. rewrite Rabs_R1, !Rabs_R0. lra. }
  { change (F NumB) with R. generalize (px (actual v) : R), (px (actual w) : R), (py (actual v) : R), (py (actual w) : R). intros. ring. }
  { change (F NumB) with R. generalize (px (actual v) : R), (px (actual w) : R), (py (actual v) : R), (py (actual w) : R). intros. ring. }
  fold d in C0, C1. revert C0 C1. change (F NumB) with R. generalize (px (reference v) : R), (px (reference w) : R), (py (reference v) : R), (py (reference w) : R). intros X0 X1 Y0 Y1.
  replace (X0 + 0 * (X1 - X0) + 0 * (Y1 - Y0)) with X0 by ring. replace (Y0 + 0 * (Y1 - Y0) - 0 * (X1 - X0)) with Y0 by ring.
  replace (X0 + 1 * (X1 - X0) + 0 * (Y1 - Y0)) with X1 by ring. replace (Y0 + 1 * (Y1 - Y0) - 0 * (X1 - X0)) with Y1 by ring. auto.
Qed.
Print Assumptions C154_stars_reproduced.

(** Non-vacuity: two stars, 67 degrees apart, 10 degrees off (errors below 0.0001 degrees). *)
Definition tube0 : point NumB := @Pt NumB 100 20.
Definition tube1 : point NumB := @Pt NumB 160 50.
Definition sky0 : point NumB := @Pt NumB 110 25.
Definition sky1 : point NumB := @Pt NumB 171 56.
Lemma small_run qsort x j a p r : permuting NumB qsort -> WF NumB a -> (numVertices a <= 2)%Z -> is_dup NumB a p = false ->
  exists a' r', run NumB qsort (Ok x) (Some j) a [Add p r; Triangulate] = Ok a' /\ WF NumB a' /\ unwrapped NumB r r' /\ stored a' = qsort (stored a ++ [VP p r']) /\ numVertices a' = (numVertices a + 1)%Z.
Proof.
  intros Hq HW Hn Hd. destruct (addVertexPair_new NumB qsort a p r Hq HW Hd) as (a1 & r' & E & W1 & _ & _ & Hu & _ & _ & H63 & _).
  destruct H63 as [N1 S1]; [lia|]. destruct (small_triangulate NumB x j a1 W1 ltac:(lia)) as (a2 & E2).
  destruct (triangulate_actual NumB x j a1 W1) as [(a3 & E3 & HW3 & En & Es & _)|(_ & _ & E3)]; rewrite E2 in E3; [|discriminate]. injection E3 as <-.
  exists a2, r'. cbn [run step]. rewrite E. cbn [bind]. rewrite E2. cbn [bind]. split; [reflexivity|]. split; [exact HW3|]. split; [exact Hu|]. split; [congruence|lia].
Qed.
Lemma gain_67 d : 60 <= d -> 0 <= (gain2 d * 1) ^ 2 / 10000000 <= 8 / 100000.
Proof.
  intros Hd. unfold gain2. assert (I : 0 < / d <= / 60) by (split; [apply Rinv_0_lt_compat; lra|apply Rinv_le; lra]).
  assert (0 <= 1 + 361 / d <= 703 / 100) by (unfold Rdiv; lra). assert (0 <= 1 + 181 / d <= 402 / 100) by (unfold Rdiv; lra).
  set (u := 1 + 361 / d) in *. set (v := 1 + 181 / d) in *. clearbody u v.
  assert (0 <= u * v <= 703 / 100 * (402 / 100)) by (split; [apply Rmult_le_pos; lra|apply Rmult_le_compat; lra]).
  assert (0 <= (u * v * 1) ^ 2 <= (703 / 100 * (402 / 100)) ^ 2) by (split; [apply pow2_ge_0|apply pow_incr; lra]). lra.
Qed.
Example C154_nonvacuous : forall qsort j, permuting NumB qsort ->
  exists a v w, reaches NumB qsort (0 : R) j ([Add tube0 sky0; Triangulate; Add tube1 sky1] ++ [Triangulate]) a /\ stored a = [v; w] /\ proper v /\ proper w /\
    let d := separation (actual v) (actual w) in 1 <= 1 /\ Rabs (0 : R) <= 1 /\ 1 <= d /\ (gain2 d * 1) ^ 2 / 10000000 <= 8 / 100000 /\
    Permutation [actual v; actual w] [tube0; tube1].
Proof.
  intros qsort j Hq.
  assert (T0 : tube tube0). { unfold tube, tube0. cbn [px py]. split; [apply (is_b64_int 100); lia|]. split; [apply (is_b64_int 20); lia|]. split; apply Rabs_le; lra. }
  assert (T1 : tube tube1). { unfold tube, tube1. cbn [px py]. split; [apply (is_b64_int 160); lia|]. split; [apply (is_b64_int 50); lia|]. split; apply Rabs_le; lra. }
  assert (U : forall r r' : point NumB, unwrapped NumB r r' -> - (1 / 10 ^ 8) <= px r <= 360 + 1 / 10 ^ 8 -> Rabs (py r : R) <= 721 -> in_sky r').
  { intros r r' Hu B By. destruct (unwrapped_B r r' Hu B) as (Ey & Bx & _). split; [exact Bx|]. rewrite Ey. exact By. }
  destruct (small_run qsort (0 : R) j (align_init NumB) tube0 sky0 Hq (WF_init NumB) ltac:(cbn; lia) eq_refl) as (a1 & r0 & E1 & W1 & U0 & S1 & N1).
  change (stored (align_init NumB)) with (@nil (vpair NumB)) in S1. cbn [app] in S1.
  assert (S1' : stored a1 = [VP tube0 r0]). { rewrite S1. apply Permutation_length_1_inv. apply Permutation_sym. apply Hq. }
  assert (D1 : is_dup NumB a1 tube1 = false).
  { unfold is_dup. rewrite S1'. cbn [map existsb actual]. unfold same. cbn [px py tube0 tube1 feq NumB]. rewrite Req_bool_false by lra. reflexivity. }
  destruct (small_run qsort (0 : R) j a1 tube1 sky1 Hq W1 ltac:(rewrite N1; cbn; lia) D1) as (a2 & r1 & E2 & W2 & U1 & S2 & N2).
  rewrite S1' in S2. cbn [app] in S2. assert (P2 : Permutation (stored a2) [VP tube0 r0; VP tube1 r1]). { rewrite S2. apply Hq. }
  assert (R : reaches NumB qsort (0 : R) j ([Add tube0 sky0; Triangulate; Add tube1 sky1] ++ [Triangulate]) a2).
  { unfold reaches. change ([Add tube0 sky0; Triangulate; Add tube1 sky1] ++ [Triangulate]) with ([Add tube0 sky0; Triangulate] ++ [Add tube1 sky1; Triangulate]). rewrite run_app, E1. exact E2. }
  assert (K0 : in_sky r0). { apply (U _ _ U0); cbn [sky0 px py]; [lra|apply Rabs_le; lra]. }
  assert (K1 : in_sky r1). { apply (U _ _ U1); cbn [sky1 px py]; [lra|apply Rabs_le; lra]. }
  assert (SQ : forall z, z = 4500 -> 60 <= sqrt z). { intros z ->. rewrite <- (sqrt_pow2 60) by lra. apply sqrt_le_1_alt. lra. }
  assert (A0 : forall u v : point NumB, Permutation [u; v] [tube0; tube1] -> 60 <= separation u v).
  { intros u v P. apply SQ. apply Permutation_sym, Permutation_length_2_inv in P. destruct P as [E|E]; injection E as -> ->; unfold tube0, tube1; cbn [px py]; ring. }
  apply Permutation_sym, Permutation_length_2_inv in P2.
  destruct P2 as [E|E]; eexists a2, _, _; (split; [exact R|]); (split; [exact E|]); cbn [actual].
  - split; [split; assumption|]. split; [split; assumption|]. assert (PP : Permutation [tube0; tube1] [tube0; tube1]) by apply Permutation_refl. pose proof (A0 _ _ PP) as A. pose proof (gain_67 _ A) as G.
    split; [lra|]. split; [rewrite Rabs_R0; lra|]. split; [lra|]. split; [lra|exact PP].
  - split; [split; assumption|]. split; [split; assumption|]. assert (PP : Permutation [tube1; tube0] [tube0; tube1]) by apply perm_swap. pose proof (A0 _ _ PP) as A. pose proof (gain_67 _ A) as G.
    split; [lra|]. split; [rewrite Rabs_R0; lra|]. split; [lra|]. split; [lra|exact PP].
Qed.

(** ** C155 *)
(** the three stars at the corners of a triangle *)
Definition at_corners (a : align NumB) (t : tri) (u v w : vpair NumB) : Prop :=
  nth_error (stored a) (Z.to_nat (t1 t)) = Some u /\ nth_error (stored a) (Z.to_nat (t2 t)) = Some v /\ nth_error (stored a) (Z.to_nat (t3 t)) = Some w.
(** [t] is used for the orientation [p]: either [p] passes the containment test of [t], or it passes that of no triangle *)
Definition chosen (a : align NumB) (p : point NumB) (t : tri) (u v w : vpair NumB) : Prop :=
  In t (tris a) /\ at_corners a t u v w /\
  ((getTransformationType NumB a p = Ok TRIANGLE_IN /\ isInTriangle NumB p (actual u) (actual v) (actual w) = true) \/
   (getTransformationType NumB a p = Ok TRIANGLE_OUT /\ forall t' u' v' w', In t' (tris a) -> at_corners a t' u' v' w' ->
      isInTriangle NumB p (actual u') (actual v') (actual w') = false)).

Lemma stored_rdz (a : align NumB) i v : WF NumB a -> (0 <= i < numVertices a)%Z -> (rdz (verts a) i = Ok v <-> nth_error (stored a) (Z.to_nat i) = Some v).
Proof.
  intros HW Hi. pose proof (stored_length NumB a HW) as Hl.
  unfold rdz. replace (i <? 0)%Z with false by (symmetry; apply Z.ltb_ge; lia). rewrite rd_ok.
  destruct (nth_error (stored a) (Z.to_nat i)) as [w|] eqn:E.
  - rewrite (stored_nth NumB _ _ _ E). reflexivity.
  - apply nth_error_None in E. lia.
Qed.
Lemma nearest_B (a : align NumB) p : WF NumB a -> tris a <> [] -> nearestTriangle NumB a p <> Ok (-1)%Z.
Proof.
  intros (H1 & H2 & H3 & H4 & H5) Hne. unfold nearestTriangle. destruct (tris a) as [|t l]; [contradiction|].
  cbn [nearest_loop]. inversion H4; subst. destruct (three_of_rd NumB 64 (verts a) t ltac:(lia) H6) as (u & v & w & -> & -> & ->). cbn [bind flt_inf NumB].
  match goal with |- context [nearest_loop NumB _ _ _ _ ?b _] => destruct (nearest_range NumB (verts a) p 64 ltac:(lia) l (0 + 1) b 0 H7 ltac:(lia)) as (k & -> & Hk) end.
  intros E. injection E as E. lia.
Qed.

(** among the triangles its centroid is the nearest, up to rounding: squared distances in degrees *)
Definition nearest_of (a : align NumB) (p : point NumB) (u v w : vpair NumB) : Prop :=
  forall t2 u2 v2 w2, In t2 (tris a) -> at_corners a t2 u2 v2 w2 ->
    centroid_dist p (actual u) (actual v) (actual w) <= (1 + 1 / 10 ^ 6) * centroid_dist p (actual u2) (actual v2) (actual w2) + 1 / 10 ^ 6.
Lemma nearest_of_B (a : align NumB) (p : point NumB) k t (u v w : vpair NumB) : WF NumB a -> Forall (three_of (numVertices a)) (tris a) -> (forall v, In v (stored a) -> tube (actual v)) ->
  Rabs (px p : R) <= 1000 -> Rabs (py p : R) <= 1000 -> nearestTriangle NumB a p = Ok (Z.of_nat k) -> nth_error (tris a) k = Some t -> at_corners a t u v w -> nearest_of a p u v w.
Proof.
  intros HW F3 Hall B0 B1 Hk Hn Hc t2 u2 v2 w2 Hin2 Hc2. rewrite Forall_forall in F3.
  assert (DI : forall t u v w, In t (tris a) -> at_corners a t u v w -> dist_to NumB (verts a) p t (centroid_distance NumB p (actual u) (actual v) (actual w)) /\
     Rabs (centroid_distance NumB p (actual u) (actual v) (actual w) - centroid_dist p (actual u) (actual v) (actual w)) <= centroid_dist p (actual u) (actual v) (actual w) / 8000000 + 1 / 10 ^ 7).
  { intros t0 u0 v0 w0 Hin (Eu & Ev & Ew). destruct (F3 t0 Hin) as (K1 & K2 & K3 & _).
    pose proof (Hall _ (nth_error_In _ _ Eu)) as Tu. pose proof (Hall _ (nth_error_In _ _ Ev)) as Tv. pose proof (Hall _ (nth_error_In _ _ Ew)) as Tw.
    apply (stored_rdz a _ _ HW K1) in Eu. apply (stored_rdz a _ _ HW K2) in Ev. apply (stored_rdz a _ _ HW K3) in Ew. split; [exists u0, v0, w0; auto|].
    destruct Tu as (_ & _ & U0 & U1), Tv as (_ & _ & V0 & V1), Tw as (_ & _ & W0 & W1). change (F NumB) with R in *. apply centroid_B; change (F NumB) with R; lra. }
  destruct (DI t u v w (nth_error_In _ _ Hn) Hc) as [D1 Q1]. destruct (DI t2 u2 v2 w2 Hin2 Hc2) as [D2 Q2].
  destruct (nearestTriangle_B a p HW) as (k' & t0 & d0 & Ek & Hn0 & Hd0 & Hall0). { intros E. rewrite E in Hin2. destruct Hin2. }
  rewrite Hk in Ek. injection Ek as Ek. apply Nat2Z.inj in Ek. subst k'. rewrite Hn in Hn0. injection Hn0 as <-.
  assert (E1 : d0 = centroid_distance NumB p (actual u) (actual v) (actual w)).
  { destruct Hd0 as (? & ? & ? & E1 & E2 & E3 & ->). destruct D1 as (? & ? & ? & F1 & F2 & F4 & ->). rewrite E1 in F1. rewrite E2 in F2. rewrite E3 in F4.
    injection F1 as <-. injection F2 as <-. injection F4 as <-. reflexivity. }
  specialize (Hall0 t2 _ Hin2 D2). subst d0. 
  revert Hall0 Q1 Q2. generalize (centroid_distance NumB p (actual u) (actual v) (actual w)), (centroid_distance NumB p (actual u2) (actual v2) (actual w2)). intros m n Hmn Q1 Q2. change (F NumB) with R in *.
  assert (N1 : 0 <= centroid_dist p (actual u) (actual v) (actual w)) by (unfold centroid_dist; apply Rplus_le_le_0_compat; apply pow2_ge_0).
  assert (N2 : 0 <= centroid_dist p (actual u2) (actual v2) (actual w2)) by (unfold centroid_dist; apply Rplus_le_le_0_compat; apply pow2_ge_0).
  apply Rabs_le_inv in Q1, Q2. lra.
Qed.

Lemma chosen_any qsort x j ops (a : align NumB) (p : point NumB) : permuting NumB qsort -> reaches NumB qsort x j (ops ++ [Triangulate]) a -> tris a <> [] -> stored a <> [] ->
  exists t u v w, chosen a p t u v w /\
    (getTransformationType NumB a p = Ok TRIANGLE_OUT -> (forall v, In v (stored a) -> tube (actual v)) -> Rabs (px p : R) <= 1000 -> Rabs (py p : R) <= 1000 -> nearest_of a p u v w) /\
    getTransformationMatrix NumB a p = Ok (solve NumB x (tri_matrix NumB (actual u) (actual v) (actual w)) (tri_matrix NumB (reference u) (reference v) (reference w))).
Proof.
  intros Hq H Ht Hs0. destruct (last_triangulate_any NumB qsort x j ops a Hq H) as (a0 & _ & HW & E & Es & En0).
  destruct (triangulate_actual NumB x j a0 HW) as [(a' & E' & HW' & En & Es' & Hpos & H0 & Hm)|(_ & _ & E')]; rewrite E' in E; [|discriminate]. injection E as ->.
  pose proof (stored_length NumB a HW') as Hl.
  assert (Hn : (0 < numVertices a0)%Z). { rewrite <- En0. destruct (stored a); [contradiction|]. cbn [length] in Hl. lia. }
  destruct (Hpos Hn) as (F3 & _). rewrite <- En in F3. pose proof F3 as F3'. rewrite Forall_forall in F3.
  assert (CO : forall t m, In t (tris a) -> tri_solution NumB x (verts a) t = Ok m -> exists u v w, at_corners a t u v w /\
     rdz (verts a) (t1 t) = Ok u /\ rdz (verts a) (t2 t) = Ok v /\ rdz (verts a) (t3 t) = Ok w /\
     m = solve NumB x (tri_matrix NumB (actual u) (actual v) (actual w)) (tri_matrix NumB (reference u) (reference v) (reference w))).
  { intros t m Hin Hs. destruct (F3 t Hin) as (K1 & K2 & K3 & _). unfold tri_solution in Hs.
    destruct (rdz (verts a) (t1 t)) as [u|] eqn:Eu; [|discriminate]. destruct (rdz (verts a) (t2 t)) as [v|] eqn:Ev; [|discriminate]. destruct (rdz (verts a) (t3 t)) as [w|] eqn:Ew; [|discriminate].
    cbn [bind] in Hs. injection Hs as <-. exists u, v, w. split; [|auto]. 
    apply (stored_rdz a _ _ HW' K1) in Eu. apply (stored_rdz a _ _ HW' K2) in Ev. apply (stored_rdz a _ _ HW' K3) in Ew. repeat split; assumption. }
  destruct (type_and_matrix NumB x a p HW' Hm) as (ty & m & Ety & Em & Hc).
  destruct ty.
  - destruct Hc as (_ & Hc & _). contradiction.
  - destruct Hc as (Hc & _). contradiction.
  - destruct Hc as (Hc & _). contradiction.
  - destruct Hc as (_ & Hno & [(Hc & _)|(k & t & Hkk & Hk & Hsol)]); [exfalso; exact (nearest_B a p HW' Ht Hc)|].
    assert (Hin : In t (tris a)) by (eapply nth_error_In; eauto).
    destruct (CO t m Hin Hsol) as (u & v & w & Hcor & _ & _ & _ & ->). exists t, u, v, w. split; [|split; [intros _ HT C0 C1; exact (nearest_of_B a p k t u v w HW' F3' HT C0 C1 Hkk Hk Hcor)|exact Em]]. split; [exact Hin|]. split; [exact Hcor|]. right. split; [exact Ety|].
    intros t' u' v' w' Hin' (Eu & Ev & Ew). destruct (F3 t' Hin') as (K1 & K2 & K3 & _).
    apply (stored_rdz a _ _ HW' K1) in Eu. apply (stored_rdz a _ _ HW' K2) in Ev. apply (stored_rdz a _ _ HW' K3) in Ew.
    destruct (isInTriangle NumB p (actual u') (actual v') (actual w')) eqn:Ei; [|reflexivity]. exfalso. apply (Hno t' Hin'). exists u', v', w'. auto.
  - destruct Hc as (k & t & Hk & (u' & v' & w' & Eu & Ev & Ew & Hi) & _ & Hsol).
    assert (Hin : In t (tris a)) by (eapply nth_error_In; eauto).
    destruct (CO t m Hin Hsol) as (u & v & w & Hcor & Eu' & Ev' & Ew' & ->). exists t, u, v, w. split; [|split; [intros Eo; rewrite Ety in Eo; discriminate|exact Em]]. split; [exact Hin|]. split; [exact Hcor|]. left. split; [exact Ety|].
    rewrite Eu in Eu'. rewrite Ev in Ev'. rewrite Ew in Ew'. injection Eu' as <-. injection Ev' as <-. injection Ew' as <-. exact Hi.
Qed.

(** A direction with weights [c] with respect to the corners of the triangle in use is reported with the same weights with
    respect to the directions of its stars. *)
Theorem C155_triangle : forall qsort x j ops (a : align NumB) (p : point NumB), permuting NumB qsort -> reaches NumB qsort x j (ops ++ [Triangulate]) a ->
  tris a <> [] -> stored a <> [] -> exists t u v w, chosen a p t u v w /\
  (* outside all triangles: the one whose centroid is nearest *)
  (getTransformationType NumB a p = Ok TRIANGLE_OUT -> (forall v, In v (stored a) -> tube (actual v)) -> Rabs (px p : R) <= 1000 -> Rabs (py p : R) <= 1000 -> nearest_of a p u v w) /\
  (proper u -> proper v -> proper w -> forall H L : R, 1 <= H -> Rabs x <= H -> 1 <= L <= 1000 ->
   let D := doubled_area (actual u) (actual v) (actual w) in let e := 84 * L * (H / D) ^ 2 in D <> 0 -> e <= 1 ->
   forall c1 c2 c3 : R, c1 + c2 + c3 = 1 -> Rabs c1 + Rabs c2 + Rabs c3 <= L ->
    (px p : R) = c1 * px (actual u) + c2 * px (actual v) + c3 * px (actual w) ->
    (py p : R) = c1 * py (actual u) + c2 * py (actual v) + c3 * py (actual w) ->
    calibrated_within (e + 1 / 10 ^ 12) a p
      (c1 * px (reference u) + c2 * px (reference v) + c3 * px (reference w))
      (c1 * py (reference u) + c2 * py (reference v) + c3 * py (reference w))).
Proof.
  intros qsort x j ops a p Hq H Ht Hs. destruct (chosen_any qsort x j ops a p Hq H Ht Hs) as (t & u & v & w & Hc & Hne & Em).
  exists t, u, v, w. split; [exact Hc|]. split; [exact Hne|]. intros [Tu Su] [Tv Sv] [Tw Sw] Hh L H1 Hx HL D e HD He c1 c2 c3 Hsum HN Ex Ey.
  assert (PD : 0 < Rabs D) by (apply Rabs_pos_lt; exact HD).
  assert (Q : Rabs (Hh / D) <= 1).
  { destruct (Rle_or_lt (Rabs (Hh / D)) 1) as [Z|Z]; [exact Z|]. exfalso. assert (1 <= (Hh / D) ^ 2). { rewrite <- pow2_abs. assert (1 * 1 <= Rabs (Hh / D) * Rabs (Hh / D)) by (apply Rmult_le_compat; lra). simpl. lra. }
    assert (1 * 1 <= L * (Hh / D) ^ 2) by (apply Rmult_le_compat; lra). unfold e in He. lra. }
  assert (HHD : Hh <= Rabs D).
  { unfold Rdiv in Q. rewrite Rabs_mult, Rabs_inv, (Rabs_pos_eq Hh) in Q by lra. apply Rmult_le_compat_r with (r := Rabs D) in Q; [|lra]. rewrite Rmult_assoc, Rinv_l in Q by lra. lra. }
  assert (DU : Rabs D <= 1000000).
  { destruct Tu as (_ & _ & U0 & U1), Tv as (_ & _ & V0 & V1), Tw as (_ & _ & W0 & W1). unfold D, doubled_area. change (F NumB) with R in *. clear - U0 U1 V0 V1 W0 W1.
    assert (T : forall a b c d : R, Rabs a <= 360 -> Rabs b <= 360 -> Rabs c <= 180 -> Rabs d <= 180 -> Rabs ((a - b) * (c - d)) <= 720 * 360).
    { intros a' b c d Ha Hb Hc Hd. apply P_LinIEEE2.Rabs_mul_le; [apply Rabs_le_inv in Ha, Hb|apply Rabs_le_inv in Hc, Hd]; apply Rabs_le; lra. }
    unfold Rminus at 1. eapply Rle_trans; [apply Rabs_triang|]. rewrite Rabs_Ropp. rewrite (Rmult_comm (py (actual v) - py (actual u))).
    pose proof (T _ _ _ _ V0 U0 W1 U1). pose proof (T _ _ _ _ W0 U0 V1 U1). lra. }
  destruct (tri_map x Hh L c1 c2 c3 (actual u) (actual v) (actual w) (reference u) (reference v) (reference w) p Tu Tv Tw Su Sv Sw H1 Hx) as [M0 M1]; try assumption; try lra.
  { change (crossB (actual u) (actual v) (actual w)) with D. lra. }
  cbv zeta in M0, M1. change (crossB (actual u) (actual v) (actual w)) with D in M0, M1. fold e in M0, M1.
  edestruct (reduced a p _ _ _ e Em (conj M0 M1)) as (q & k & Eq & Q0 & Q1 & Q2); [lra| |].
  { destruct Su as [U0 _], Sv as [V0 _], Sw as [W0 _]. change (F NumB) with R in *. clear - HN HL U0 V0 W0.
    pose proof (Rabs_pos c1). pose proof (Rabs_pos c2). pose proof (Rabs_pos c3).
    pose proof (P_LinIEEE2.Rabs_mul_le c1 _ _ _ (Rle_refl _) U0). pose proof (P_LinIEEE2.Rabs_mul_le c2 _ _ _ (Rle_refl _) V0). pose proof (P_LinIEEE2.Rabs_mul_le c3 _ _ _ (Rle_refl _) W0).
    eapply Rle_trans; [apply Rabs_triang|]. eapply Rle_trans; [apply Rplus_le_compat_r, Rabs_triang|]. lra. }
  exists q, k. split; [exact Eq|]. split; [exact Q0|]. split; [eapply Rle_trans; [exact Q1|lra]|exact Q2].
Qed.
Print Assumptions C155_triangle.

Lemma area_swap (H : R) a b c a' b' c' : (doubled_area a' b' c' = doubled_area a b c \/ doubled_area a' b' c' = - doubled_area a b c) ->
  doubled_area a b c <> 0 -> doubled_area a' b' c' <> 0 /\ (H / doubled_area a' b' c') ^ 2 = (H / doubled_area a b c) ^ 2.
Proof.
  intros [-> | ->] Hd; [auto|]. split; [lra|]. field. exact Hd.
Qed.

(** Three stars that form a triangle are all reported where they stand. *)
Theorem C155_three_stars_reproduced : forall qsort x j ops a s1 s2 s3, permuting NumB qsort -> reaches NumB qsort x j (ops ++ [Triangulate]) a ->
  stored a = [s1; s2; s3] -> tris a <> [] -> proper s1 -> proper s2 -> proper s3 -> forall H : R, 1 <= H -> Rabs x <= H ->
  let D := doubled_area (actual s1) (actual s2) (actual s3) in let e := 84 * (H / D) ^ 2 in D <> 0 -> e <= 1 ->
  forall s, In s [s1; s2; s3] -> calibrated_within (e + 1 / 10 ^ 12) a (actual s) (px (reference s)) (py (reference s)).
Proof.
  intros qsort x j ops a s1 s2 s3 Hq H Hs Ht P1 P2 P3 Hh H1 Hx D e HD He s Hin.
  assert (Hne : stored a <> []) by (rewrite Hs; discriminate).
  destruct (C155_triangle qsort x j ops a (actual s) Hq H Ht Hne) as (t & u & v & w & (Hit & (Eu & Ev & Ew) & _) & _ & K).
  assert (T3 : three_of 3 t).
  { destruct (last_triangulate_any NumB qsort x j ops a Hq H) as (a0 & _ & HW & E & Es & En0).
    destruct (triangulate_actual NumB x j a0 HW) as [(a' & E' & HW' & En & Es' & Hpos & H0 & Hm)|(_ & _ & E')]; rewrite E' in E; [|discriminate]. injection E as ->.
    pose proof (stored_length NumB a HW') as Hl. rewrite Hs in Hl. cbn [length] in Hl.
    assert (Hn : numVertices a0 = 3%Z) by lia. destruct Hpos as (F3 & _); [lia|]. rewrite Hn in F3. rewrite Forall_forall in F3. exact (F3 t Hit). }
  assert (GO : proper u -> proper v -> proper w -> (s = u \/ s = v \/ s = w) ->
     (doubled_area (actual u) (actual v) (actual w) = D \/ doubled_area (actual u) (actual v) (actual w) = - D) ->
     calibrated_within (e + 1 / 10 ^ 12) a (actual s) (px (reference s)) (py (reference s))).
  { intros Pu Pv Pw Hsu HA. destruct (area_swap Hh _ _ _ _ _ _ HA HD) as [HD' EQ].
    specialize (K Pu Pv Pw Hh 1 H1 Hx ltac:(lra)). cbv zeta in K. rewrite EQ in K. fold D in K. replace (84 * 1 * (Hh / D) ^ 2) with e in K by (unfold e; ring). specialize (K HD' He).
    destruct Hsu as [ -> | [ -> | -> ]].
    - specialize (K 1 0 0 ltac:(lra) ltac:(rewrite Rabs_R1, Rabs_R0; lra)). rewrite !Rmult_1_l, !Rmult_0_l, !Rplus_0_r in K. apply K; reflexivity.
    - specialize (K 0 1 0 ltac:(lra) ltac:(rewrite Rabs_R1, Rabs_R0; lra)). rewrite !Rmult_1_l, !Rmult_0_l, !Rplus_0_r, !Rplus_0_l in K. apply K; reflexivity.
    - specialize (K 0 0 1 ltac:(lra) ltac:(rewrite Rabs_R1, Rabs_R0; lra)). rewrite !Rmult_1_l, !Rmult_0_l, !Rplus_0_r, !Rplus_0_l in K. apply K; reflexivity. }
  clear K. rewrite Hs in Eu, Ev, Ew. destruct T3 as (K1 & K2 & K3 & N1 & N2 & N3).
  assert (I3 : forall i, (0 <= i < 3)%Z -> (i = 0 \/ i = 1 \/ i = 2)%Z) by (intros; lia).
  destruct (I3 _ K1) as [T1 | [T1 | T1]], (I3 _ K2) as [T2 | [T2 | T2]], (I3 _ K3) as [T4 | [T4 | T4]]; try (exfalso; congruence);
    rewrite T1 in Eu; rewrite T2 in Ev; rewrite T4 in Ew; cbn in Eu, Ev, Ew; injection Eu as <-; injection Ev as <-; injection Ew as <-;
    (apply GO; [assumption|assumption|assumption|cbn [In] in Hin; clear - Hin; intuition congruence|]);
    unfold D, doubled_area; change (F NumB) with R;
    generalize (px (actual s1) : R), (px (actual s2) : R), (px (actual s3) : R), (py (actual s1) : R), (py (actual s2) : R), (py (actual s3) : R); intros;
    first [left; ring | right; ring].
Qed.
Print Assumptions C155_three_stars_reproduced.

(** Non-vacuity: the size hypotheses hold for three stars that are tens of degrees apart ... *)
Definition tube2 : point NumB := @Pt NumB 130 70.
Example C155_nonvacuous : tube tube0 /\ tube tube1 /\ tube tube2 /\ in_sky sky0 /\ in_sky sky1 /\
  let D := doubled_area tube0 tube1 tube2 in D <> 0 /\ 84 * (1 / D) ^ 2 <= 2 / 100000.
Proof.
  unfold tube, in_sky, doubled_area, tube0, tube1, tube2, sky0, sky1. cbn [px py].
  split. { split; [apply (is_b64_int 100); lia|]. split; [apply (is_b64_int 20); lia|]. split; apply Rabs_le; lra. }
  split. { split; [apply (is_b64_int 160); lia|]. split; [apply (is_b64_int 50); lia|]. split; apply Rabs_le; lra. }
  split. { split; [apply (is_b64_int 130); lia|]. split; [apply (is_b64_int 70); lia|]. split; apply Rabs_le; lra. }
  split; [split; apply Rabs_le; lra|]. split; [split; apply Rabs_le; lra|]. cbv zeta.
  replace ((160 - 100) * (70 - 20) - (50 - 20) * (130 - 100)) with 2100 by ring. split; lra.
Qed.
(** ... and three such stars do give a triangle; executable arithmetic: number of stars and triangles, kind of correction at the
    second star, and that it is reported within a millionth of a degree of its direction (171, 56). *)
From Verif Require Import P_AlignWitness.
Definition three_syncs : list (op NumSF) := [mkadd (fz 100) (fz 20) (fz 110) (fz 25); mkadd (fz 160) (fz 50) (fz 171) (fz 56); mkadd (fz 130) (fz 70) (fz 139) (fz 74)].
Definition micro (z : Z) : F NumSF := fq NumSF z 1000000.
Example C155_session_nonvacuous :
  count (runSF (three_syncs ++ [Triangulate])) = Some (3, 1)%Z /\
  show_type (runSF (three_syncs ++ [Triangulate])) (Pt (fz 160) (fz 50)) = Some TRIANGLE_IN /\
  match show_cal (runSF (three_syncs ++ [Triangulate])) (Pt (fz 160) (fz 50)) with
  | Some (az, alt) => (SpecFloat.SFltb (micro 170999999) az && SpecFloat.SFltb az (micro 171000001) && SpecFloat.SFltb (micro 55999999) alt && SpecFloat.SFltb alt (micro 56000001))%bool = true
  | None => False
  end.
Proof. vm_compute. auto. Qed.
