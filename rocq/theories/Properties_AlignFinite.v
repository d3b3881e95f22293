(** C161, C162: the corrections of two and of three stars on actual IEEE doubles (signed zeros, infinities, NaN): the calibrated
    orientation consists of finite doubles and is as accurate as C154/C155 say. *)
From Verif Require Import Base Num M_Linalg M_Helper M_Alignment S_Alignment P_Alignment P_AlignState P_AlignState2 P_AlignR P_Round P_Helper2 P_LinIEEE4 P_TriIEEE P_NearB P_OneIEEE P_AlignIEEE P_Device Properties_Alignment Properties_SkyIEEE S_Libm P_Libm P_NumCorr P_Finite P_LstFinite P_LinFinite P_AlignFinite Properties_AlignIEEE Properties_FiniteDevice.
From Coq Require Import Permutation Reals Lra Lia Floats.SpecFloat.
From Flocq Require Import Core.
Open Scope R_scope.
Notation length := List.length.

(** ** specification *)
(** the pair [p] of doubles is finite and has the values [q] *)
Definition valued (p : point NumSF) (q : point NumB) : Prop := is_double (px p) (px q) /\ is_double (py p) (py q).
Definition valued_pair (v : vpair NumSF) (w : vpair NumB) : Prop := valued (actual v) (actual w) /\ valued (reference v) (reference w).
(** the calibrated orientation of [p] consists of finite doubles; it is [(x, y)], up to whole turns of the azimuth, within [e] degrees *)
Definition doubles_within (e : R) (a : align NumSF) (p : point NumSF) (x y : R) : Prop :=
  exists q (QX QY : R) (k : Z), getCalibratedOrientation NumSF a p = Ok q /\ is_double (px q) QX /\ is_double (py q) QY /\
    Rabs (QX - (x + 360 * IZR k)) <= e /\ Rabs (QY - y) <= e /\ - (1 / 10 ^ 8) <= QX <= 360 + 1 / 10 ^ 8.

(** ** any arithmetic *)
Section AnyN.
Context (N : Num) (qsort : list (vpair N) -> list (vpair N)) (x : F N) (j : F N * F N).
Lemma line_in ops a v w p : permuting N qsort -> reaches N qsort x j (ops ++ [Triangulate]) a -> stored a = [v; w] ->
  getTransformationType N a p = Ok LINE /\
  getTransformationMatrix N a p = Ok (solve N x (line_matrix N (actual v) (actual w)) (line_matrix N (reference v) (reference w))).
Proof.
  intros Hq H Hs. destruct (last_triangulate_any N qsort x j ops a Hq H) as (a0 & _ & HW & E & Es & _).
  destruct (triangulate_actual N x j a0 HW) as [(a' & E' & HW' & En & Es' & Hpos & H0 & Hm)|(_ & _ & E')]; rewrite E' in E; [|discriminate]. injection E as ->.
  pose proof (stored_length N a0 HW) as Hl. rewrite <- Es, Hs in Hl. cbn [length] in Hl.
  assert (Hn : numVertices a0 = 2%Z) by lia.
  destruct Hpos as (Ht & _); [lia|].
  assert (Etr : tris a = []).
  { destruct (tris a) as [|t l]; [reflexivity|]. inversion Ht; subst. exfalso. eapply (no_three_of t 2); [lia|]. rewrite <- Hn. assumption. }
  destruct (type_and_matrix N x a p HW' Hm) as (ty & m & Ety & Em & Hc).
  destruct ty.
  - destruct Hc as (Hc & _). congruence.
  - destruct Hc as (_ & v' & Hc & _). congruence.
  - destruct Hc as (_ & v' & w' & r' & Hc & ->). rewrite Hs in Hc. injection Hc as <- <- _. auto.
  - destruct Hc as (Hc & _). congruence.
  - destruct Hc as (k & t & Hc & _). rewrite Etr in Hc. destruct k; discriminate.
Qed.
Definition at_corners_in (a : align N) (t : tri) (u v w : vpair N) : Prop :=
  nth_error (stored a) (Z.to_nat (t1 t)) = Some u /\ nth_error (stored a) (Z.to_nat (t2 t)) = Some v /\ nth_error (stored a) (Z.to_nat (t3 t)) = Some w.
Definition chosen_in (a : align N) (p : point N) (t : tri) (u v w : vpair N) : Prop :=
  In t (tris a) /\ at_corners_in a t u v w /\
  ((getTransformationType N a p = Ok TRIANGLE_IN /\ isInTriangle N p (actual u) (actual v) (actual w) = true) \/
   (getTransformationType N a p = Ok TRIANGLE_OUT /\ forall t' u' v' w', In t' (tris a) -> at_corners_in a t' u' v' w' ->
      isInTriangle N p (actual u') (actual v') (actual w') = false)).
Lemma stored_rdz_in (a : align N) i v : WF N a -> (0 <= i < numVertices a)%Z -> (rdz (verts a) i = Ok v <-> nth_error (stored a) (Z.to_nat i) = Some v).
Proof.
  intros HW Hi. pose proof (stored_length N a HW) as Hl.
  unfold rdz. replace (i <? 0)%Z with false by (symmetry; apply Z.ltb_ge; lia). rewrite rd_ok.
  destruct (nth_error (stored a) (Z.to_nat i)) as [w|] eqn:E.
  - rewrite (stored_nth N _ _ _ E). reflexivity.
  - apply nth_error_None in E. lia.
Qed.
Lemma nearest_in (a : align N) p : WF N a -> tris a <> [] ->
  (forall t u v w, In t (tris a) -> rdz (verts a) (t1 t) = Ok u -> rdz (verts a) (t2 t) = Ok v -> rdz (verts a) (t3 t) = Ok w -> flt_inf N (centroid_distance N p (actual u) (actual v) (actual w)) = true) ->
  nearestTriangle N a p <> Ok (-1)%Z.
Proof.
  intros (H1 & H2 & H3 & H4 & H5) Hne Hinf. unfold nearestTriangle. destruct (tris a) as [|t l]; [contradiction|].
  cbn [nearest_loop]. inversion H4; subst. destruct (three_of_rd N 64 (verts a) t ltac:(lia) H6) as (u & v & w & E1 & E2 & E3). 
  pose proof (Hinf t u v w (or_introl eq_refl) E1 E2 E3) as Hi. rewrite E1, E2, E3. cbn [bind]. rewrite Hi.
  match goal with |- context [nearest_loop N _ _ _ _ ?b _] => destruct (nearest_range N (verts a) p 64 ltac:(lia) l (0 + 1) b 0 H7 ltac:(lia)) as (k & -> & Hk) end.
  intros E. injection E as E. lia.
Qed.
Lemma chosen_matrix ops a p : permuting N qsort -> reaches N qsort x j (ops ++ [Triangulate]) a -> tris a <> [] -> stored a <> [] ->
  (forall u v w, In u (stored a) -> In v (stored a) -> In w (stored a) -> flt_inf N (centroid_distance N p (actual u) (actual v) (actual w)) = true) ->
  exists t u v w, chosen_in a p t u v w /\ (getTransformationType N a p = Ok TRIANGLE_OUT -> exists k, nearestTriangle N a p = Ok (Z.of_nat k) /\ nth_error (tris a) k = Some t) /\
    Forall (three_of (numVertices a)) (tris a) /\ WF N a /\
    getTransformationMatrix N a p = Ok (solve N x (tri_matrix N (actual u) (actual v) (actual w)) (tri_matrix N (reference u) (reference v) (reference w))).
Proof.
  intros Hq H Ht Hs0 Hfin. destruct (last_triangulate_any N qsort x j ops a Hq H) as (a0 & _ & HW & E & Es & En0).
  destruct (triangulate_actual N x j a0 HW) as [(a' & E' & HW' & En & Es' & Hpos & H0 & Hm)|(_ & _ & E')]; rewrite E' in E; [|discriminate]. injection E as ->.
  pose proof (stored_length N a HW') as Hl.
  assert (Hn : (0 < numVertices a0)%Z). { rewrite <- En0. destruct (stored a); [contradiction|]. cbn [length] in Hl. lia. }
  destruct (Hpos Hn) as (F3 & _). rewrite <- En in F3. rewrite Forall_forall in F3.
  assert (CO : forall t m, In t (tris a) -> tri_solution N x (verts a) t = Ok m -> exists u v w, at_corners_in a t u v w /\
     rdz (verts a) (t1 t) = Ok u /\ rdz (verts a) (t2 t) = Ok v /\ rdz (verts a) (t3 t) = Ok w /\
     m = solve N x (tri_matrix N (actual u) (actual v) (actual w)) (tri_matrix N (reference u) (reference v) (reference w))).
  { intros t m Hin Hs. destruct (F3 t Hin) as (K1 & K2 & K3 & _). unfold tri_solution in Hs.
    destruct (rdz (verts a) (t1 t)) as [u|] eqn:Eu; [|discriminate]. destruct (rdz (verts a) (t2 t)) as [v|] eqn:Ev; [|discriminate]. destruct (rdz (verts a) (t3 t)) as [w|] eqn:Ew; [|discriminate].
    cbn [bind] in Hs. injection Hs as <-. exists u, v, w. split; [|auto]. 
    apply (stored_rdz_in a _ _ HW' K1) in Eu. apply (stored_rdz_in a _ _ HW' K2) in Ev. apply (stored_rdz_in a _ _ HW' K3) in Ew. repeat split; assumption. }
  destruct (type_and_matrix N x a p HW' Hm) as (ty & m & Ety & Em & Hc).
  destruct ty.
  - destruct Hc as (_ & Hc & _). contradiction.
  - destruct Hc as (Hc & _). contradiction.
  - destruct Hc as (Hc & _). contradiction.
  - destruct Hc as (_ & Hno & [(Hc & _)|(k & t & Hnk & Hk & Hsol)]).
    { exfalso. revert Hc. apply nearest_in; [exact HW'|exact Ht|]. intros t u v w Hin Eu Ev Ew. destruct (F3 t Hin) as (K1 & K2 & K3 & _).
      apply (stored_rdz_in a _ _ HW' K1) in Eu. apply (stored_rdz_in a _ _ HW' K2) in Ev. apply (stored_rdz_in a _ _ HW' K3) in Ew. apply Hfin; eapply nth_error_In; eassumption. }
    assert (Hin : In t (tris a)) by (eapply nth_error_In; eauto).
    destruct (CO t m Hin Hsol) as (u & v & w & Hcor & _ & _ & _ & ->). exists t, u, v, w. split; [|split; [intros _; exists k; auto|split; [apply Forall_forall; exact F3|split; [exact HW'|exact Em]]]]. split; [exact Hin|]. split; [exact Hcor|]. right. split; [exact Ety|].
    intros t' u' v' w' Hin' (Eu & Ev & Ew). destruct (F3 t' Hin') as (K1 & K2 & K3 & _).
    apply (stored_rdz_in a _ _ HW' K1) in Eu. apply (stored_rdz_in a _ _ HW' K2) in Ev. apply (stored_rdz_in a _ _ HW' K3) in Ew.
    destruct (isInTriangle N p (actual u') (actual v') (actual w')) eqn:Ei; [|reflexivity]. exfalso. apply (Hno t' Hin'). exists u', v', w'. auto.
  - destruct Hc as (k & t & Hk & (u' & v' & w' & Eu & Ev & Ew & Hi) & _ & Hsol).
    assert (Hin : In t (tris a)) by (eapply nth_error_In; eauto).
    destruct (CO t m Hin Hsol) as (u & v & w & Hcor & Eu' & Ev' & Ew' & ->). exists t, u, v, w. split; [|split; [intros Hout; congruence|split; [apply Forall_forall; exact F3|split; [exact HW'|exact Em]]]]. split; [exact Hin|]. split; [exact Hcor|]. left. split; [exact Ety|].
    rewrite Eu in Eu'. rewrite Ev in Ev'. rewrite Ew in Ew'. injection Eu' as <-. injection Ev' as <-. injection Ew' as <-. exact Hi.
Qed.
End AnyN.

(** ** finite doubles in, finite doubles out *)
Lemma valued_mb (n : Z) (p : point NumSF) (q : point NumB) (B : R) : valued p q -> Rabs (px q : R) <= B -> Rabs (py q : R) <= B -> B <= bpow radix2 n -> mb n (px p) (px q) /\ mb n (py p) (py q).
Proof. intros [H0 H1] B0 B1 HB. apply double_means in H0, H1. split; split; try assumption; lra. Qed.
Lemma tube_mb (p : point NumSF) (q : point NumB) : valued p q -> tube q -> mb 10 (px p) (px q) /\ mb 10 (py p) (py q).
Proof. intros V (_ & _ & B0 & B1). change (F NumB) with R in *. apply (valued_mb 10 p q 360 V); [exact B0|lra|simpl bpow; lra]. Qed.
Lemma sky_mb (p : point NumSF) (q : point NumB) : valued p q -> in_sky q -> mb 10 (px p) (px q) /\ mb 10 (py p) (py q).
Proof. intros V (B0 & B1). apply (valued_mb 10 p q 721 V B0 B1). simpl bpow. lra. Qed.
Lemma line_rel (a b : point NumSF) (a' b' : point NumB) : mb 10 (px a) (px a') -> mb 10 (py a) (py a') -> mb 10 (px b) (px b') -> mb 10 (py b) (py b') -> relm 20 (line_matrix NumSF a b) (line_matrix NumB a' b').
Proof. intros. unfold line_matrix. constructor; within. Qed.
Lemma tri_rel (a b c : point NumSF) (a' b' c' : point NumB) : mb 10 (px a) (px a') -> mb 10 (py a) (py a') -> mb 10 (px b) (px b') -> mb 10 (py b) (py b') -> mb 10 (px c) (px c') -> mb 10 (py c) (py c') ->
  relm 20 (tri_matrix NumSF a b c) (tri_matrix NumB a' b' c').
Proof. intros. unfold tri_matrix. constructor; within. Qed.
Lemma sum3 (c0 c1 c2 u0 u1 u2 L B : R) : Rabs c0 + Rabs c1 + Rabs c2 <= L -> Rabs u0 <= B -> Rabs u1 <= B -> Rabs u2 <= B -> 0 <= B -> Rabs (c0 * u0 + c1 * u1 + c2 * u2) <= L * B.
Proof.
  intros HL H0 H1 H2 HB. eapply Rle_trans; [apply Rabs_triang|]. eapply Rle_trans; [apply Rplus_le_compat_r, Rabs_triang|].
  pose proof (P_LinIEEE2.Rabs_mul_le c0 u0 _ _ (Rle_refl _) H0). pose proof (P_LinIEEE2.Rabs_mul_le c1 u1 _ _ (Rle_refl _) H1). pose proof (P_LinIEEE2.Rabs_mul_le c2 u2 _ _ (Rle_refl _) H2).
  assert ((Rabs c0 + Rabs c1 + Rabs c2) * B <= L * B) by (apply Rmult_le_compat_r; assumption). lra.
Qed.

(** the corrected orientation on doubles, from that on rounded reals *)
Lemma transfer (x : spec_float) (X : R) (A B : mat NumSF) (A' B' : matB) (a : align NumSF) (p : point NumSF) (p' : point NumB) (u v e : R) : is_double x X -> Rabs X <= 1000000 -> solvable X A' -> relm 20 A A' -> relm 20 B B' ->
  getTransformationMatrix NumSF a p = Ok (solve NumSF x A B) -> valued p p' -> Rabs (px p' : R) <= 1000000 -> Rabs (py p' : R) <= 1000000 ->
  (let out := mvmul NumB (solve NumB X A' B') (BVec (px p') (py p') (fZ NumB 1)) in Rabs (v0 out - u) <= e /\ Rabs (v1 out - v) <= e) -> e <= 1000 -> Rabs u <= 13000000 ->
  doubles_within (e + 1 / 10 ^ 12) a p u v.
Proof.
  intros Mx BX (k & FA & HS & WC & Hk) RA RB Em Vp B0 B1 HO He Hu.
  assert (M : relm 450 (solve NumSF x A B) (solve NumB X A' B')).
  { apply (solution_agrees A B A' B' x X k); try assumption. split; [apply double_means; exact Mx|simpl bpow; lra]. }
  destruct (valued_mb 20 p p' 1000000 Vp B0 B1) as [P0 P1]; [simpl bpow; lra|].
  destruct (mapped_agrees _ _ p p' M P0 P1) as [Q0 Q1].
  destruct (reduced' _ p' u v e HO He Hu) as (z & K0 & K1 & K2).
  exists (mapped NumSF (solve NumSF x A B) p), (px (mapped NumB (solve NumB X A' B') p')), (py (mapped NumB (solve NumB X A' B') p')), z.
  split; [apply mapped_eq; exact Em|]. split; [apply double_means; exact Q0|]. split; [apply double_means; exact Q1|].
  change (F NumB) with R in *. split; [exact K0|]. split; [lra|exact K2].
Qed.

(** ** C161 *)
(** C154 on doubles: coordinates along and across the line of two stars are kept; nothing becomes infinite or NaN. *)
Theorem C161_two_stars : forall qsort x j ops a v w, permuting NumSF qsort -> reaches NumSF qsort x j (ops ++ [Triangulate]) a -> stored a = [v; w] ->
  forall (X : R) v' w', is_double x X -> valued_pair v v' -> valued_pair w w' -> proper v' -> proper w' ->
  forall H L : R, 1 <= H -> Rabs X <= H -> 1 <= L <= 1000 ->
  let d := separation (actual v') (actual w') in let e := L * (gain2 d * H) ^ 2 / 10000000 in 1 <= d -> e <= 1 ->
  forall p p' (s t : R), valued p p' -> Rabs (1 - s) + Rabs (s - t) + Rabs t <= L ->
    (px p' : R) = px (actual v') + s * ((px (actual w') : R) - px (actual v')) + t * (py (actual w') - py (actual v')) ->
    (py p' : R) = py (actual v') + s * (py (actual w') - py (actual v')) - t * ((px (actual w') : R) - px (actual v')) ->
    getTransformationType NumSF a p = Ok LINE /\
    doubles_within (e + 1 / 10 ^ 12) a p
      (px (reference v') + s * ((px (reference w') : R) - px (reference v')) + t * (py (reference w') - py (reference v')))
      (py (reference v') + s * (py (reference w') - py (reference v')) - t * ((px (reference w') : R) - px (reference v'))).
Proof.
  intros qsort x j ops a v w Hq Hr Hs X v' w' Mx [Va Vb] [Wa Wb] [Tv Sv] [Tw Sw] H L H1 HX HL d e Hd He p p' s t Vp HN Ex Ey.
  destruct (line_in NumSF qsort x j ops a v w p Hq Hr Hs) as [Ety Em]. split; [exact Ety|].
  assert (Ee : e = / 10000000 * L * (gain2 d * H) ^ 2) by (unfold e; field).
  destruct (line_map X H L s t (actual v') (actual w') (reference v') (reference w') p' Tv Tw Sv Sw H1 HX HL Hd) as [M0 M1]; try assumption.
  { unfold e, d in He. unfold gain2, separation in He. unfold distB. lra. }
  cbv zeta in M0, M1. fold (separation (actual v') (actual w')) in M0, M1. change (distB (actual v') (actual w')) with d in M0, M1. fold (gain2 d) in M0, M1. rewrite <- Ee in M0, M1.
  assert (GH : gain2 d * H <= 4000).
  { assert (G1 : 1 <= gain2 d).
    { unfold gain2. assert (0 <= 361 / d) by (apply Rlt_le, Rdiv_lt_0_compat; lra). assert (0 <= 181 / d) by (apply Rlt_le, Rdiv_lt_0_compat; lra).
      assert (1 * 1 <= (1 + 361 / d) * (1 + 181 / d)) by (apply Rmult_le_compat; lra). lra. }
    assert (0 < gain2 d * H) by (apply Rmult_lt_0_compat; lra).
    destruct (Rle_or_lt (gain2 d * H) 4000) as [Z|Z]; [exact Z|]. exfalso. assert (4000 * 4000 <= (gain2 d * H) * (gain2 d * H)) by (apply Rmult_le_compat; lra).
    assert (1 * (4000 * 4000) <= L * (gain2 d * H) ^ 2) by (apply Rmult_le_compat; [lra|lra|lra|simpl; lra]). unfold e in He. lra. }
  assert (H4 : H <= 4000).
  { assert (G1 : 1 <= gain2 d).
    { unfold gain2. assert (0 <= 361 / d) by (apply Rlt_le, Rdiv_lt_0_compat; lra). assert (0 <= 181 / d) by (apply Rlt_le, Rdiv_lt_0_compat; lra).
      assert (1 * 1 <= (1 + 361 / d) * (1 + 181 / d)) by (apply Rmult_le_compat; lra). lra. }
    assert (1 * H <= gain2 d * H) by (apply Rmult_le_compat_r; lra). lra. }
  destruct (tube_mb _ _ Va Tv) as [A0 A1]. destruct (sky_mb _ _ Vb Sv) as [A2 A3]. destruct (tube_mb _ _ Wa Tw) as [A4 A5]. destruct (sky_mb _ _ Wb Sw) as [A6 A7].
  destruct Tv as (Fv0 & Fv1 & V0 & V1), Tw as (Fw0 & Fw1 & W0 & W1), Sv as [V2 V3], Sw as [W2 W3].
  refine (transfer x X _ _ (line_matrix NumB (actual v') (actual w')) (line_matrix NumB (reference v') (reference w')) a p p' _ _ e Mx _ _ _ _ Em Vp _ _ (conj M0 M1) _ _).
  - lra.
  - apply (line_solvable X H); try assumption; repeat split; assumption.
  - apply line_rel; assumption.
  - apply line_rel; assumption.
  - rewrite Ex. replace (px (actual v') + s * ((px (actual w') : R) - px (actual v')) + t * (py (actual w') - py (actual v'))) with
      ((1 - s) * px (actual v') + (s - t) * (px (actual w') : R) + t * (px (actual w') + (py (actual w') - py (actual v')))).
    2:{ change (F NumB) with R. generalize (px (actual v') : R), (px (actual w') : R), (py (actual v') : R), (py (actual w') : R). intros. ring. }
    change (F NumB) with R in *. eapply Rle_trans; [apply (sum3 _ _ _ _ _ _ L 1000 HN)|lra]; [lra|lra|apply Rabs_le_inv in W0, W1, V1; apply Rabs_le; lra|lra].
  - rewrite Ey. replace (py (actual v') + s * (py (actual w') - py (actual v')) - t * ((px (actual w') : R) - px (actual v'))) with
      ((1 - s) * py (actual v') + (s - t) * (py (actual w') : R) + t * (py (actual w') - (px (actual w') - px (actual v')))).
    2:{ change (F NumB) with R. generalize (px (actual v') : R), (px (actual w') : R), (py (actual v') : R), (py (actual w') : R). intros. ring. }
    change (F NumB) with R in *. eapply Rle_trans; [apply (sum3 _ _ _ _ _ _ L 1000 HN)|lra]; [lra|lra|apply Rabs_le_inv in W0, W1, V0; apply Rabs_le; lra|lra].
  - lra.
  - replace (px (reference v') + s * ((px (reference w') : R) - px (reference v')) + t * (py (reference w') - py (reference v'))) with
      ((1 - s) * px (reference v') + (s - t) * (px (reference w') : R) + t * (px (reference w') + (py (reference w') - py (reference v')))).
    2:{ change (F NumB) with R. generalize (px (reference v') : R), (px (reference w') : R), (py (reference v') : R), (py (reference w') : R). intros. ring. }
    change (F NumB) with R in *. eapply Rle_trans; [apply (sum3 _ _ _ _ _ _ L 3000 HN)|lra]; [lra|lra|apply Rabs_le_inv in W2, W3, V3; apply Rabs_le; lra|lra].
Qed.
Print Assumptions C161_two_stars.

(** Both stars are reported where they stand. *)
Theorem C161_stars_reproduced : forall qsort x j ops a v w, permuting NumSF qsort -> reaches NumSF qsort x j (ops ++ [Triangulate]) a -> stored a = [v; w] ->
  forall (X : R) v' w', is_double x X -> valued_pair v v' -> valued_pair w w' -> proper v' -> proper w' -> forall H : R, 1 <= H -> Rabs X <= H ->
  let d := separation (actual v') (actual w') in let e := (gain2 d * H) ^ 2 / 10000000 in 1 <= d -> e <= 1 ->
  doubles_within (e + 1 / 10 ^ 12) a (actual v) (px (reference v')) (py (reference v')) /\
  doubles_within (e + 1 / 10 ^ 12) a (actual w) (px (reference w')) (py (reference w')).
Proof.
  intros qsort x j ops a v w Hq Hr Hs X v' w' Mx Vv Vw Pv Pw H H1 HX d e Hd He.
  assert (Ee : e = 1 * (gain2 d * H) ^ 2 / 10000000) by (unfold e; field). rewrite Ee in He |- *.
  destruct (C161_two_stars qsort x j ops a v w Hq Hr Hs X v' w' Mx Vv Vw Pv Pw H 1 H1 HX ltac:(lra) Hd He (actual v) (actual v') 0 0 (proj1 Vv)) as [_ C0].
  { rewrite !Rminus_0_r, Rabs_R1, !Rabs_R0. lra. }
  { change (F NumB) with R. generalize (px (actual v') : R), (px (actual w') : R), (py (actual v') : R), (py (actual w') : R). intros. ring. }
  { change (F NumB) with R. generalize (px (actual v') : R), (px (actual w') : R), (py (actual v') : R), (py (actual w') : R). intros. ring. }
  destruct (C161_two_stars qsort x j ops a v w Hq Hr Hs X v' w' Mx Vv Vw Pv Pw H 1 H1 HX ltac:(lra) Hd He (actual w) (actual w') 1 0 (proj1 Vw)) as [_ C1].
  { rewrite Rminus_0_r, Rminus_diag_eq by reflexivity. rewrite Rabs_R1, !Rabs_R0. lra. }
  { change (F NumB) with R. generalize (px (actual v') : R), (px (actual w') : R), (py (actual v') : R), (py (actual w') : R). intros. ring. }
  { change (F NumB) with R. generalize (px (actual v') : R), (px (actual w') : R), (py (actual v') : R), (py (actual w') : R). intros. ring. }
  fold d in C0, C1. revert C0 C1. change (F NumB) with R. generalize (px (reference v') : R), (px (reference w') : R), (py (reference v') : R), (py (reference w') : R). intros X0 X1 Y0 Y1.
  replace (X0 + 0 * (X1 - X0) + 0 * (Y1 - Y0)) with X0 by ring. replace (Y0 + 0 * (Y1 - Y0) - 0 * (X1 - X0)) with Y0 by ring.
  replace (X0 + 1 * (X1 - X0) + 0 * (Y1 - Y0)) with X1 by ring. replace (Y0 + 1 * (Y1 - Y0) - 0 * (X1 - X0)) with Y1 by ring. auto.
Qed.
Print Assumptions C161_stars_reproduced.

(** ** C162 *)
Lemma A_three n a x : mb n a x -> (0 <= n <= 900)%Z -> mb n (fdiv NumSF a (fZ NumSF 3)) (fdiv NumB x (fZ NumB 3)).
Proof. intros M H. apply mb_divZ; [exact H|exact M|lia]. Qed.
Lemma centroid_finite (p a b c : point NumSF) (p' a' b' c' : point NumB) : mb 20 (px p) (px p') -> mb 20 (py p) (py p') -> mb 10 (px a) (px a') -> mb 10 (py a) (py a') ->
  mb 10 (px b) (px b') -> mb 10 (py b) (py b') -> mb 10 (px c) (px c') -> mb 10 (py c) (py c') -> flt_inf NumSF (centroid_distance NumSF p a b c) = true.
Proof.
  intros. unfold centroid_distance. cbv zeta.
  assert (A : mb 12 (fdiv NumSF (fadd NumSF (fadd NumSF (px a) (px b)) (px c)) (fZ NumSF 3)) (fdiv NumB (fadd NumB (fadd NumB (px a') (px b')) (px c')) (fZ NumB 3))) by (apply A_three; [within|lia]).
  assert (B : mb 12 (fdiv NumSF (fadd NumSF (fadd NumSF (py a) (py b)) (py c)) (fZ NumSF 3)) (fdiv NumB (fadd NumB (fadd NumB (py a') (py b')) (py c')) (fZ NumB 3))) by (apply A_three; [within|lia]).
  revert A B. generalize (fdiv NumSF (fadd NumSF (fadd NumSF (px a) (px b)) (px c)) (fZ NumSF 3)), (fdiv NumSF (fadd NumSF (fadd NumSF (py a) (py b)) (py c)) (fZ NumSF 3)).
  generalize (fdiv NumB (fadd NumB (fadd NumB (px a') (px b')) (px c')) (fZ NumB 3)), (fdiv NumB (fadd NumB (fadd NumB (py a') (py b')) (py c')) (fZ NumB 3)).
  intros y1 y2 x1 x2 A B.
  match goal with |- flt_inf NumSF (f32 NumSF ?s) = true => assert (M : exists y, mb 60 s y) by (eexists; within) end.
  destruct M as (y & M). apply mb_f32 in M; [|lia]. exact (means_inf _ _ (proj1 M)).
Qed.

Lemma centroid_means (p a b c : point NumSF) (p' a' b' c' : point NumB) : mb 20 (px p) (px p') -> mb 20 (py p) (py p') -> mb 10 (px a) (px a') -> mb 10 (py a) (py a') ->
  mb 10 (px b) (px b') -> mb 10 (py b) (py b') -> mb 10 (px c) (px c') -> mb 10 (py c) (py c') -> means (centroid_distance NumSF p a b c) (centroid_distance NumB p' a' b' c').
Proof.
  intros. unfold centroid_distance. cbv zeta.
  assert (A : mb 12 (fdiv NumSF (fadd NumSF (fadd NumSF (px a) (px b)) (px c)) (fZ NumSF 3)) (fdiv NumB (fadd NumB (fadd NumB (px a') (px b')) (px c')) (fZ NumB 3))) by (apply A_three; [within|lia]).
  assert (B : mb 12 (fdiv NumSF (fadd NumSF (fadd NumSF (py a) (py b)) (py c)) (fZ NumSF 3)) (fdiv NumB (fadd NumB (fadd NumB (py a') (py b')) (py c')) (fZ NumB 3))) by (apply A_three; [within|lia]).
  revert A B. generalize (fdiv NumSF (fadd NumSF (fadd NumSF (px a) (px b)) (px c)) (fZ NumSF 3)), (fdiv NumSF (fadd NumSF (fadd NumSF (py a) (py b)) (py c)) (fZ NumSF 3)).
  generalize (fdiv NumB (fadd NumB (fadd NumB (px a') (px b')) (px c')) (fZ NumB 3)), (fdiv NumB (fadd NumB (fadd NumB (py a') (py b')) (py c')) (fZ NumB 3)).
  intros y1 y2 x1 x2 A B.
  match goal with |- means (f32 NumSF ?s) (f32 NumB ?t) => assert (M : mb 60 s t) by within end.
  apply mb_f32 in M; [|lia]. exact (proj1 M).
Qed.
Lemma sf_unique s (u v : R) : is_double s u -> is_double s v -> u = v.
Proof. intros A B. apply double_means in A, B. exact (means_unique s u v A B). Qed.
(** ... in the loop: the first triangle whose computed distance is smallest *)
Definition dist_SF (vs : list (vpair NumSF)) (p : point NumSF) (t : tri) (d : R) : Prop := exists a b c,
  rdz vs (t1 t) = Ok a /\ rdz vs (t2 t) = Ok b /\ rdz vs (t3 t) = Ok c /\ means (centroid_distance NumSF p (actual a) (actual b) (actual c)) d.
Lemma nearest_loop_SF vs p : forall ts i (best : option (F NumSF)) idx, Forall (fun t => exists d, dist_SF vs p t d) ts -> (forall m, best = Some m -> exists M, means m M) ->
  exists k, nearest_loop NumSF vs p ts i best idx = Ok k /\
    ((k = idx /\ (forall t d, In t ts -> dist_SF vs p t d -> exists m M, best = Some m /\ means m M /\ M <= d)) \/
     exists j t d, k = (i + Z.of_nat j)%Z /\ nth_error ts j = Some t /\ dist_SF vs p t d /\
       (forall m M, best = Some m -> means m M -> d < M) /\
       (forall t' d', In t' ts -> dist_SF vs p t' d' -> d <= d')).
Proof.
  induction ts as [|t ts IH]; intros i best idx Ht Hb; cbn [nearest_loop].
  - exists idx. split; [reflexivity|]. left. split; [reflexivity|]. intros t d [].
  - inversion Ht as [|? ? Hd Ht']; subst. destruct Hd as (d0 & a & b & c & Ea & Eb & Ec & Md).
    rewrite Ea, Eb, Ec. cbn [bind]. set (s0 := centroid_distance NumSF p (actual a) (actual b) (actual c)) in *.
    assert (Hd0 : forall d, dist_SF vs p t d <-> d = d0).
    { intros d. split.
      - intros (a' & b' & c' & Ea' & Eb' & Ec' & M'). rewrite Ea in Ea'. rewrite Eb in Eb'. rewrite Ec in Ec'.
        injection Ea' as <-. injection Eb' as <-. injection Ec' as <-. apply double_means in Md. apply double_means in M'. exact (sf_unique _ _ _ M' Md).
      - intros ->. exists a, b, c. auto. }
    assert (Hcase : (match best with None => flt_inf NumSF s0 | Some m => flt NumSF s0 m end) = true /\
                      (forall m M, best = Some m -> means m M -> d0 < M) \/
                    (match best with None => flt_inf NumSF s0 | Some m => flt NumSF s0 m end) = false /\
                      exists m M, best = Some m /\ means m M /\ M <= d0).
    { destruct best as [m|].
      - destruct (Hb m eq_refl) as (M & HM). change (flt NumSF s0 m) with (SFltb s0 m). rewrite (means_lt _ _ _ _ Md HM).
        destruct (Rlt_bool_spec d0 M) as [L|L]; [left|right; split; [reflexivity|exists m, M; auto]].
        split; [reflexivity|]. intros m' M' E HM'. injection E as <-. apply double_means in HM, HM'. rewrite (sf_unique _ _ _ HM' HM). exact L.
      - left. split; [exact (means_inf _ _ Md)|discriminate]. }
    clearbody s0. destruct Hcase as [[E Hm]|[E (m & M & Em & HM & Hle)]]; rewrite E.
    + destruct (IH (i + 1)%Z (Some s0) i Ht') as (k & Ek & [(-> & Hall)|(jj & t' & d' & -> & Hn & Hd & Hb' & Hall)]).
      { intros m Em. injection Em as <-. eauto. }
      * exists i. split; [exact Ek|]. right. exists 0%nat, t, d0. split; [lia|]. split; [reflexivity|].
        split; [apply Hd0; reflexivity|]. split; [exact Hm|].
        intros t' d' [<-|Hin] Hd'; [apply Hd0 in Hd'; lra|].
        destruct (Hall t' d' Hin Hd') as (m' & M' & E' & HM' & Hle'). injection E' as <-. apply double_means in Md, HM'. rewrite (sf_unique _ _ _ Md HM'). exact Hle'.
      * exists (i + 1 + Z.of_nat jj)%Z. split; [exact Ek|]. right. exists (S jj), t', d'. split; [lia|].
        split; [exact Hn|]. split; [exact Hd|]. specialize (Hb' s0 d0 eq_refl Md). split.
        { intros m M Em HM. specialize (Hm m M Em HM). lra. }
        intros t'' d'' [<-|Hin] Hd''; [apply Hd0 in Hd''; lra|eauto].
    + destruct (IH (i + 1)%Z best idx Ht' Hb) as (k & Ek & [(-> & Hall)|(jj & t' & d' & -> & Hn & Hd & Hb' & Hall)]).
      * exists idx. split; [exact Ek|]. left. split; [reflexivity|].
        intros t' d' [<-|Hin] Hd'; [apply Hd0 in Hd'; subst; eauto|eauto].
      * exists (i + 1 + Z.of_nat jj)%Z. split; [exact Ek|]. right. exists (S jj), t', d'. split; [lia|].
        split; [exact Hn|]. split; [exact Hd|]. split; [exact Hb'|].
        intros t'' d'' [<-|Hin] Hd''; [apply Hd0 in Hd''; specialize (Hb' m M Em HM); lra|eauto].
Qed.

Lemma point_unique p (q q' : point NumB) : valued p q -> valued p q' -> q = q'.
Proof. intros [A B] [A' B']. destruct q as [u v], q' as [u' v']. cbn [px py] in *. f_equal; eapply sf_unique; eassumption. Qed.
Definition nearest_among (a : align NumSF) (p : point NumSF) (p' : point NumB) (u v w : vpair NumSF) : Prop :=
  forall t2 u2 v2 w2, In t2 (tris a) -> at_corners_in NumSF a t2 u2 v2 w2 ->
  forall u' v' w' x' y' z' : point NumB, valued (actual u) u' -> valued (actual v) v' -> valued (actual w) w' -> valued (actual u2) x' -> valued (actual v2) y' -> valued (actual w2) z' ->
    centroid_dist p' u' v' w' <= (1 + 1 / 10 ^ 6) * centroid_dist p' x' y' z' + 1 / 10 ^ 6.
Lemma nearest_used (a : align NumSF) p p' k t u v w : WF NumSF a -> Forall (three_of (numVertices a)) (tris a) -> (forall v, In v (stored a) -> exists v', valued_pair v v' /\ proper v') ->
  valued p p' -> Rabs (px p' : R) <= 1000 -> Rabs (py p' : R) <= 1000 -> nearestTriangle NumSF a p = Ok (Z.of_nat k) -> nth_error (tris a) k = Some t -> at_corners_in NumSF a t u v w ->
  nearest_among a p p' u v w.
Proof.
  intros HW F3 Hall Vp B0 B1 Hk Hn Hc. rewrite Forall_forall in F3.
  destruct (valued_mb 20 p p' 1000 Vp B0 B1) as [P0 P1]; [simpl bpow; lra|].
  assert (CO : forall t u v w, In t (tris a) -> at_corners_in NumSF a t u v w -> rdz (verts a) (t1 t) = Ok u /\ rdz (verts a) (t2 t) = Ok v /\ rdz (verts a) (t3 t) = Ok w /\ In u (stored a) /\ In v (stored a) /\ In w (stored a)).
  { intros t0 u0 v0 w0 Hin (Eu & Ev & Ew). destruct (F3 t0 Hin) as (K1 & K2 & K3 & _).
    pose proof (nth_error_In _ _ Eu). pose proof (nth_error_In _ _ Ev). pose proof (nth_error_In _ _ Ew).
    apply (stored_rdz_in NumSF a _ _ HW K1) in Eu. apply (stored_rdz_in NumSF a _ _ HW K2) in Ev. apply (stored_rdz_in NumSF a _ _ HW K3) in Ew. repeat split; assumption. }
  assert (DI : forall t u v w, In t (tris a) -> at_corners_in NumSF a t u v w -> forall u' v' w' : point NumB, valued (actual u) u' -> valued (actual v) v' -> valued (actual w) w' ->
     dist_SF (verts a) p t (centroid_distance NumB p' u' v' w') /\ Rabs (centroid_distance NumB p' u' v' w' - centroid_dist p' u' v' w') <= centroid_dist p' u' v' w' / 8000000 + 1 / 10 ^ 7).
  { intros t0 u0 v0 w0 Hin Hc0 u' v' w' Vu Vv Vw. destruct (CO t0 u0 v0 w0 Hin Hc0) as (Eu & Ev & Ew & Iu & Iv & Iw).
    destruct (Hall _ Iu) as (u1 & [Vu1 _] & [Tu _]). destruct (Hall _ Iv) as (v1 & [Vv1 _] & [Tv _]). destruct (Hall _ Iw) as (w1 & [Vw1 _] & [Tw _]).
    rewrite <- (point_unique _ _ _ Vu Vu1) in Tu. rewrite <- (point_unique _ _ _ Vv Vv1) in Tv. rewrite <- (point_unique _ _ _ Vw Vw1) in Tw.
    destruct (tube_mb _ _ Vu Tu) as [A0 A1]. destruct (tube_mb _ _ Vv Tv) as [A2 A3]. destruct (tube_mb _ _ Vw Tw) as [A4 A5]. split.
    - exists u0, v0, w0. split; [exact Eu|]. split; [exact Ev|]. split; [exact Ew|]. apply centroid_means; assumption.
    - destruct Tu as (_ & _ & U0 & U1), Tv as (_ & _ & V0 & V1), Tw as (_ & _ & W0 & W1). change (F NumB) with R in *. apply centroid_B; change (F NumB) with R; lra. }
  intros t2 u2 v2 w2 Hin2 Hc2 u' v' w' x' y' z' Vu Vv Vw Vx Vy Vz.
  destruct (DI t u v w (nth_error_In _ _ Hn) Hc u' v' w' Vu Vv Vw) as [D1 Q1]. destruct (DI t2 u2 v2 w2 Hin2 Hc2 x' y' z' Vx Vy Vz) as [D2 Q2].
  unfold nearestTriangle in Hk. destruct (nearest_loop_SF (verts a) p (tris a) 0 None (-1)) as (k' & Ek & [(-> & _)|(jj & t0 & d0 & -> & Hn0 & Hd0 & _ & Hall0)]).
  - apply Forall_forall. intros t0 Hin. destruct (F3 t0 Hin) as (K1 & K2 & K3 & _). pose proof (stored_length NumSF a HW) as Hl.
    assert (NE : forall i, (0 <= i < numVertices a)%Z -> exists v, nth_error (stored a) (Z.to_nat i) = Some v).
    { intros i Hi. destruct (nth_error (stored a) (Z.to_nat i)) eqn:E; [eauto|]. apply nth_error_None in E. lia. }
    destruct (NE _ K1) as (u0 & Eu), (NE _ K2) as (v0 & Ev), (NE _ K3) as (w0 & Ew).
    destruct (Hall _ (nth_error_In _ _ Eu)) as (u1 & [Vu1 _] & _). destruct (Hall _ (nth_error_In _ _ Ev)) as (v1 & [Vv1 _] & _). destruct (Hall _ (nth_error_In _ _ Ew)) as (w1 & [Vw1 _] & _).
    exists (centroid_distance NumB p' (actual u1) (actual v1) (actual w1)). apply (DI t0 u0 v0 w0 Hin (conj Eu (conj Ev Ew)) _ _ _ Vu1 Vv1 Vw1).
  - discriminate.
  - rewrite Hk in Ek. injection Ek as Ek. lia.
  - rewrite Hk in Ek. injection Ek as Ek. assert (jj = k) by lia. subst jj. rewrite Hn in Hn0. injection Hn0 as <-.
    assert (E1 : d0 = centroid_distance NumB p' u' v' w').
    { destruct Hd0 as (? & ? & ? & E1 & E2 & E3 & M1). destruct D1 as (? & ? & ? & F1 & F2 & F4 & M2). rewrite E1 in F1. rewrite E2 in F2. rewrite E3 in F4.
      injection F1 as <-. injection F2 as <-. injection F4 as <-. exact (means_unique _ _ _ M1 M2). }
    specialize (Hall0 t2 _ Hin2 D2). subst d0. change (F NumB) with R in *.
    revert Hall0 Q1 Q2. generalize (centroid_distance NumB p' u' v' w'), (centroid_distance NumB p' x' y' z'). intros m n Hmn Q1 Q2. change (F NumB) with R in *.
    assert (N1 : 0 <= centroid_dist p' u' v' w') by (unfold centroid_dist; apply Rplus_le_le_0_compat; apply pow2_ge_0).
    assert (N2 : 0 <= centroid_dist p' x' y' z') by (unfold centroid_dist; apply Rplus_le_le_0_compat; apply pow2_ge_0).
    apply Rabs_le_inv in Q1, Q2. lra.
Qed.

(** C155 on doubles: weights with respect to the corners of the triangle in use are kept; nothing becomes infinite or NaN. *)
Theorem C162_triangle : forall qsort x j ops a p, permuting NumSF qsort -> reaches NumSF qsort x j (ops ++ [Triangulate]) a ->
  tris a <> [] -> stored a <> [] -> (forall v, In v (stored a) -> exists v', valued_pair v v' /\ proper v') ->
  forall (X : R) p', is_double x X -> valued p p' -> Rabs (px p' : R) <= 1000000 -> Rabs (py p' : R) <= 1000000 ->
  exists t u v w, chosen_in NumSF a p t u v w /\
  (* outside all triangles: the one whose centroid is nearest *)
  (getTransformationType NumSF a p = Ok TRIANGLE_OUT -> Rabs (px p' : R) <= 1000 -> Rabs (py p' : R) <= 1000 -> nearest_among a p p' u v w) /\
  forall u' v' w', valued_pair u u' -> valued_pair v v' -> valued_pair w w' -> proper u' -> proper v' -> proper w' ->
  forall H L : R, 1 <= H -> Rabs X <= H -> 1 <= L <= 1000 ->
   let D := doubled_area (actual u') (actual v') (actual w') in let e := 84 * L * (H / D) ^ 2 in D <> 0 -> e <= 1 ->
   forall c1 c2 c3 : R, c1 + c2 + c3 = 1 -> Rabs c1 + Rabs c2 + Rabs c3 <= L ->
    (px p' : R) = c1 * px (actual u') + c2 * px (actual v') + c3 * px (actual w') ->
    (py p' : R) = c1 * py (actual u') + c2 * py (actual v') + c3 * py (actual w') ->
    doubles_within (e + 1 / 10 ^ 12) a p
      (c1 * px (reference u') + c2 * px (reference v') + c3 * px (reference w'))
      (c1 * py (reference u') + c2 * py (reference v') + c3 * py (reference w')).
Proof.
  intros qsort x j ops a p Hq Hr Ht Hs Hall X p' Mx Vp Bp0 Bp1.
  destruct (valued_mb 20 p p' 1000000 Vp Bp0 Bp1) as [P0 P1]; [simpl bpow; lra|].
  destruct (chosen_matrix NumSF qsort x j ops a p Hq Hr Ht Hs) as (t & u & v & w & Hc & Hout & F3 & HW & Em).
  { intros u v w Hu Hv Hw. destruct (Hall u Hu) as (u' & [Vu _] & [Tu _]). destruct (Hall v Hv) as (v' & [Vv _] & [Tv _]). destruct (Hall w Hw) as (w' & [Vw _] & [Tw _]).
    destruct (tube_mb _ _ Vu Tu). destruct (tube_mb _ _ Vv Tv). destruct (tube_mb _ _ Vw Tw).
    apply (centroid_finite p (actual u) (actual v) (actual w) p' (actual u') (actual v') (actual w')); assumption. }
  exists t, u, v, w. split; [exact Hc|]. split.
  { intros Ho C0 C1. destruct (Hout Ho) as (k & Hk & Hn). apply (nearest_used a p p' k t); try assumption. apply Hc. }
  intros u' v' w' [Ua Ub] [Va Vb] [Wa Wb] [Tu Su] [Tv Sv] [Tw Sw] H L H1 HX HL D e HD He c1 c2 c3 Hsum HN Ex Ey.
  assert (PD : 0 < Rabs D) by (apply Rabs_pos_lt; exact HD).
  assert (Q : Rabs (H / D) <= 1).
  { destruct (Rle_or_lt (Rabs (H / D)) 1) as [Z|Z]; [exact Z|]. exfalso. assert (1 <= (H / D) ^ 2). { rewrite <- pow2_abs. assert (1 * 1 <= Rabs (H / D) * Rabs (H / D)) by (apply Rmult_le_compat; lra). simpl. lra. }
    assert (1 * 1 <= L * (H / D) ^ 2) by (apply Rmult_le_compat; lra). unfold e in He. lra. }
  assert (HHD : H <= Rabs D).
  { unfold Rdiv in Q. rewrite Rabs_mult, Rabs_inv, (Rabs_pos_eq H) in Q by lra. apply Rmult_le_compat_r with (r := Rabs D) in Q; [|lra]. rewrite Rmult_assoc, Rinv_l in Q by lra. lra. }
  assert (DU : Rabs D <= 1000000).
  { destruct Tu as (_ & _ & U0 & U1), Tv as (_ & _ & V0 & V1), Tw as (_ & _ & W0 & W1). unfold D, doubled_area. change (F NumB) with R in *. clear - U0 U1 V0 V1 W0 W1.
    assert (T : forall a b c d : R, Rabs a <= 360 -> Rabs b <= 360 -> Rabs c <= 180 -> Rabs d <= 180 -> Rabs ((a - b) * (c - d)) <= 720 * 360).
    { intros a' b c d Ha Hb Hc Hd. apply P_LinIEEE2.Rabs_mul_le; [apply Rabs_le_inv in Ha, Hb|apply Rabs_le_inv in Hc, Hd]; apply Rabs_le; lra. }
    unfold Rminus at 1. eapply Rle_trans; [apply Rabs_triang|]. rewrite Rabs_Ropp. rewrite (Rmult_comm (py (actual v') - py (actual u'))).
    pose proof (T _ _ _ _ V0 U0 W1 U1). pose proof (T _ _ _ _ W0 U0 V1 U1). lra. }
  destruct (tri_map X H L c1 c2 c3 (actual u') (actual v') (actual w') (reference u') (reference v') (reference w') p' Tu Tv Tw Su Sv Sw H1 HX) as [M0 M1]; try assumption; try lra.
  { change (crossB (actual u') (actual v') (actual w')) with D. lra. }
  cbv zeta in M0, M1. change (crossB (actual u') (actual v') (actual w')) with D in M0, M1. fold e in M0, M1.
  destruct (tube_mb _ _ Ua Tu) as [A0 A1]. destruct (sky_mb _ _ Ub Su) as [A2 A3]. destruct (tube_mb _ _ Va Tv) as [A4 A5]. destruct (sky_mb _ _ Vb Sv) as [A6 A7]. destruct (tube_mb _ _ Wa Tw) as [A8 A9]. destruct (sky_mb _ _ Wb Sw) as [A10 A11].
  refine (transfer x X _ _ (tri_matrix NumB (actual u') (actual v') (actual w')) (tri_matrix NumB (reference u') (reference v') (reference w')) a p p' _ _ e Mx _ _ _ _ Em Vp Bp0 Bp1 (conj M0 M1) _ _).
  - lra.
  - apply (tri_solvable X H); try assumption; try lra. change (crossB (actual u') (actual v') (actual w')) with D. lra.
  - apply tri_rel; assumption.
  - apply tri_rel; assumption.
  - lra.
  - destruct Su as [U0 _], Sv as [V0 _], Sw as [W0 _]. change (F NumB) with R in *. eapply Rle_trans; [apply (sum3 _ _ _ _ _ _ L 721 HN U0 V0 W0)|]; lra.
Qed.
Print Assumptions C162_triangle.

(** Three stars that form a triangle are all reported where they stand. *)
Theorem C162_three_stars_reproduced : forall qsort x j ops a s1 s2 s3, permuting NumSF qsort -> reaches NumSF qsort x j (ops ++ [Triangulate]) a ->
  stored a = [s1; s2; s3] -> tris a <> [] -> forall (X : R) s1' s2' s3', is_double x X -> valued_pair s1 s1' -> valued_pair s2 s2' -> valued_pair s3 s3' ->
  proper s1' -> proper s2' -> proper s3' -> forall H : R, 1 <= H -> Rabs X <= H ->
  let D := doubled_area (actual s1') (actual s2') (actual s3') in let e := 84 * (H / D) ^ 2 in D <> 0 -> e <= 1 ->
  forall s s', In (s, s') [(s1, s1'); (s2, s2'); (s3, s3')] -> doubles_within (e + 1 / 10 ^ 12) a (actual s) (px (reference s')) (py (reference s')).
Proof.
  intros qsort x j ops a s1 s2 s3 Hq Hr Hs Ht X s1' s2' s3' Mx V1 V2 V3 P1 P2 P3 H H1 HX D e HD He s s' Hin.
  assert (Hne : stored a <> []) by (rewrite Hs; discriminate).
  assert (Hall : forall v, In v (stored a) -> exists v', valued_pair v v' /\ proper v').
  { intros v. rewrite Hs. intros [<-|[<-|[<-|[]]]]; eexists; split; eassumption. }
  assert (Vs : valued (actual s) (actual s') /\ tube (actual s')).
  { destruct Hin as [E|[E|[E|[]]]]; injection E as <- <-; (split; [eapply proj1; eassumption|eapply proj1; eassumption]). }
  destruct Vs as (Vs & _ & _ & B0 & B1). change (F NumB) with R in B0, B1.
  destruct (C162_triangle qsort x j ops a (actual s) Hq Hr Ht Hne Hall X (actual s') Mx Vs ltac:(change (F NumB) with R; lra) ltac:(change (F NumB) with R; lra)) as (t & u & v & w & (Hit & (Eu & Ev & Ew) & _) & _ & K).
  assert (T3 : three_of 3 t).
  { destruct (last_triangulate_any NumSF qsort x j ops a Hq Hr) as (a0 & _ & HW & E & Es & En0).
    destruct (triangulate_actual NumSF x j a0 HW) as [(a' & E' & HW' & En & Es' & Hpos & H0 & Hm)|(_ & _ & E')]; rewrite E' in E; [|discriminate]. injection E as ->.
    pose proof (stored_length NumSF a HW') as Hl. rewrite Hs in Hl. cbn [length] in Hl.
    assert (Hn : numVertices a0 = 3%Z) by lia. destruct Hpos as (F3 & _); [lia|]. rewrite Hn in F3. rewrite Forall_forall in F3. exact (F3 t Hit). }
  assert (GO : forall u' v' w', valued_pair u u' -> valued_pair v v' -> valued_pair w w' -> proper u' -> proper v' -> proper w' -> (s' = u' \/ s' = v' \/ s' = w') ->
     (doubled_area (actual u') (actual v') (actual w') = D \/ doubled_area (actual u') (actual v') (actual w') = - D) ->
     doubles_within (e + 1 / 10 ^ 12) a (actual s) (px (reference s')) (py (reference s'))).
  { intros u' v' w' Vu Vv Vw Pu Pv Pw Hsu HA. destruct (area_swap H _ _ _ _ _ _ HA HD) as [HD' EQ].
    specialize (K u' v' w' Vu Vv Vw Pu Pv Pw H 1 H1 HX ltac:(lra)). cbv zeta in K. rewrite EQ in K. fold D in K. replace (84 * 1 * (H / D) ^ 2) with e in K by (unfold e; ring). specialize (K HD' He).
    destruct Hsu as [ -> | [ -> | -> ]].
    - specialize (K 1 0 0 ltac:(lra) ltac:(rewrite Rabs_R1, Rabs_R0; lra)). rewrite !Rmult_1_l, !Rmult_0_l, !Rplus_0_r in K. apply K; reflexivity.
    - specialize (K 0 1 0 ltac:(lra) ltac:(rewrite Rabs_R1, Rabs_R0; lra)). rewrite !Rmult_1_l, !Rmult_0_l, !Rplus_0_r, !Rplus_0_l in K. apply K; reflexivity.
    - specialize (K 0 0 1 ltac:(lra) ltac:(rewrite Rabs_R1, Rabs_R0; lra)). rewrite !Rmult_1_l, !Rmult_0_l, !Rplus_0_r, !Rplus_0_l in K. apply K; reflexivity. }
  clear K. rewrite Hs in Eu, Ev, Ew. destruct T3 as (K1 & K2 & K3 & N1 & N2 & N3).
  assert (I3 : forall i, (0 <= i < 3)%Z -> (i = 0 \/ i = 1 \/ i = 2)%Z) by (intros; lia).
  assert (Hin' : s' = s1' \/ s' = s2' \/ s' = s3') by (destruct Hin as [E|[E|[E|[]]]]; injection E as <- <-; auto).
  destruct (I3 _ K1) as [T1 | [T1 | T1]], (I3 _ K2) as [T2 | [T2 | T2]], (I3 _ K3) as [T4 | [T4 | T4]]; try (exfalso; congruence);
    rewrite T1 in Eu; rewrite T2 in Ev; rewrite T4 in Ew; cbn in Eu, Ev, Ew; injection Eu as <-; injection Ev as <-; injection Ew as <-;
    (eapply GO; [eassumption|eassumption|eassumption|eassumption|eassumption|eassumption|clear - Hin'; intuition congruence|]);
    unfold D, doubled_area; change (F NumB) with R;
    generalize (px (actual s1') : R), (px (actual s2') : R), (px (actual s3') : R), (py (actual s1') : R), (py (actual s2') : R), (py (actual s3') : R); intros;
    first [left; ring | right; ring].
Qed.
Print Assumptions C162_three_stars_reproduced.

(** Non-vacuity: sessions on doubles with two and with three syncs, tens of degrees apart; [flat] shows the stored pairs. *)
From Verif Require Import P_AlignWitness.
Open Scope R_scope.
Definition flat (r : res (align NumSF)) : list (spec_float * spec_float * spec_float * spec_float) :=
  match r with Ok a => map (fun v => (px (actual v), py (actual v), px (reference v), py (reference v))) (stored a) | UB _ => [] end.
Definition two_syncs : list (op NumSF) := [mkadd (fz 100) (fz 20) (fz 110) (fz 25); mkadd (fz 160) (fz 50) (fz 171) (fz 56)].
Lemma two_flat : flat (runSF (two_syncs ++ [Triangulate])) = [(fz 100, fz 20, fz 110, fz 25); (fz 160, fz 50, fz 171, fz 56)].
Proof. vm_compute. reflexivity. Qed.
Lemma three_flat : flat (runSF (three_syncs ++ [Triangulate])) = [(fz 100, fz 20, fz 110, fz 25); (fz 130, fz 70, fz 139, fz 74); (fz 160, fz 50, fz 171, fz 56)].
Proof. vm_compute. reflexivity. Qed.
Definition quad (v : vpair NumSF) := (px (actual v), py (actual v), px (reference v), py (reference v)).
Lemma flat_ok r l : flat r = l -> l <> [] -> exists a, r = Ok a /\ map quad (stored a) = l.
Proof. destruct r as [a|u]; cbn [flat]; intros H Hne; [exists a; auto|congruence]. Qed.
Definition whole (a b c d : Z) : vpair NumB := VP (@Pt NumB (IZR a) (IZR b)) (@Pt NumB (IZR c) (IZR d)).
Lemma quad_whole v a b c d : quad v = (fz a, fz b, fz c, fz d) -> (0 <= a <= 360)%Z -> (0 <= b <= 180)%Z -> (0 <= c <= 721)%Z -> (0 <= d <= 721)%Z ->
  valued_pair v (whole a b c d) /\ proper (whole a b c d).
Proof.
  intros E Ha Hb Hc Hd. unfold quad in E. injection E as E1 E2 E3 E4.
  split; [split; split; cbn [whole actual reference px py]; rewrite ?E1, ?E2, ?E3, ?E4; apply int_double; lia|].
  split; [split; [apply is_b64_int; lia|split; [apply is_b64_int; lia|]]|]; cbn [whole actual reference px py]; (split; rewrite Rabs_pos_eq by (apply IZR_le; lia); apply IZR_le; lia).
Qed.
Lemma sizes_67 : 60 <= separation (actual (whole 100 20 110 25)) (actual (whole 160 50 171 56)).
Proof. unfold separation. cbn [whole actual px py]. rewrite <- (sqrt_pow2 60) by lra. apply sqrt_le_1_alt. lra. Qed.
Example C161_nonvacuous : exists a v w, reaches NumSF (insertion_sort NumSF) (fz 0) (fz 0, fz 0) (two_syncs ++ [Triangulate]) a /\ permuting NumSF (insertion_sort NumSF) /\
  stored a = [v; w] /\ is_double (fz 0) 0 /\ exists v' w', valued_pair v v' /\ valued_pair w w' /\ proper v' /\ proper w' /\
  let d := separation (actual v') (actual w') in 1 <= d /\ (gain2 d * 1) ^ 2 / 10000000 <= 8 / 100000 /\
  doubles_within (1 / 10 ^ 4) a (actual w) 171 56.
Proof.
  destruct (flat_ok _ _ two_flat) as (a & E & S); [discriminate|]. destruct (stored a) as [|v [|w [|z l]]] eqn:Es; try discriminate S.
  assert (Rr : reaches NumSF (insertion_sort NumSF) (fz 0) (fz 0, fz 0) (two_syncs ++ [Triangulate]) a) by exact E.
  destruct (quad_whole v 100 20 110 25) as [Vv Pv]; [exact (f_equal (fun l => nth 0 l (quad v)) S)|lia|lia|lia|lia|].
  destruct (quad_whole w 160 50 171 56) as [Vw Pw]; [exact (f_equal (fun l => nth 1 l (quad v)) S)|lia|lia|lia|lia|].
  exists a, v, w. split; [exact Rr|]. split; [apply insertion_sort_permuting|]. split; [exact Es|]. split; [apply (int_double 0); lia|].
  exists (whole 100 20 110 25), (whole 160 50 171 56). split; [exact Vv|]. split; [exact Vw|]. split; [exact Pv|]. split; [exact Pw|].
  cbv zeta. pose proof sizes_67 as S67. pose proof (gain_67 _ S67) as G. split; [lra|]. split; [lra|].
  destruct (C161_stars_reproduced _ (fz 0) (fz 0, fz 0) two_syncs a v w (insertion_sort_permuting NumSF) Rr Es 0 (whole 100 20 110 25) (whole 160 50 171 56)
    (int_double 0 ltac:(lia)) Vv Vw Pv Pw 1 ltac:(lra) ltac:(rewrite Rabs_R0; lra) ltac:(lra) ltac:(lra)) as [_ (q & QX & QY & k & Eq & D0 & D1 & B0 & B1 & B2)].
  exists q, QX, QY, k. cbn [whole reference px py] in B0, B1. split; [exact Eq|]. split; [exact D0|]. split; [exact D1|]. split; [lra|]. split; [lra|exact B2].
Qed.
Example C162_nonvacuous : exists a u v w, reaches NumSF (insertion_sort NumSF) (fz 0) (fz 0, fz 0) (three_syncs ++ [Triangulate]) a /\
  stored a = [u; v; w] /\ tris a <> [] /\ exists u' v' w', valued_pair u u' /\ valued_pair v v' /\ valued_pair w w' /\ proper u' /\ proper v' /\ proper w' /\
  let D := doubled_area (actual u') (actual v') (actual w') in D <> 0 /\ 84 * (1 / D) ^ 2 <= 2 / 100000 /\
  doubles_within (1 / 10 ^ 4) a (actual v) 139 74.
Proof.
  destruct (flat_ok _ _ three_flat) as (a & E & S); [discriminate|]. destruct (stored a) as [|u [|v [|w [|z l]]]] eqn:Es; try discriminate S.
  assert (Rr : reaches NumSF (insertion_sort NumSF) (fz 0) (fz 0, fz 0) (three_syncs ++ [Triangulate]) a) by exact E.
  assert (Ht : tris a <> []).
  { destruct C155_session_nonvacuous as (C & T & _). rewrite E in C, T. unfold show_type in T. intros K. unfold getTransformationType in T. rewrite K in T. cbn [count] in C. injection C as Cn Ct.
    destruct (C43_type_matches_correction NumSF (insertion_sort NumSF) (fz 0) (fz 0, fz 0) three_syncs a (Pt (fz 160) (fz 50)) (insertion_sort_permuting NumSF) Rr) as (ty & m & Ety & Em & Hc).
    unfold getTransformationType in Ety. rewrite K in Ety. rewrite Ety in T. injection T as ->. destruct Hc as (k & t & Hk & _). rewrite K in Hk. destruct k; discriminate. }
  destruct (quad_whole u 100 20 110 25) as [Vu Pu]; [exact (f_equal (fun l => nth 0 l (quad v)) S)|lia|lia|lia|lia|].
  destruct (quad_whole v 130 70 139 74) as [Vv Pv]; [exact (f_equal (fun l => nth 1 l (quad v)) S)|lia|lia|lia|lia|].
  destruct (quad_whole w 160 50 171 56) as [Vw Pw]; [exact (f_equal (fun l => nth 2 l (quad v)) S)|lia|lia|lia|lia|].
  exists a, u, v, w. split; [exact Rr|]. split; [exact Es|]. split; [exact Ht|].
  exists (whole 100 20 110 25), (whole 130 70 139 74), (whole 160 50 171 56). split; [exact Vu|]. split; [exact Vv|]. split; [exact Vw|]. split; [exact Pu|]. split; [exact Pv|]. split; [exact Pw|].
  assert (ED : doubled_area (actual (whole 100 20 110 25)) (actual (whole 130 70 139 74)) (actual (whole 160 50 171 56)) = - 2100).
  { unfold doubled_area. cbn [whole actual px py]. change (F NumB) with R. ring. }
  pose proof (C162_three_stars_reproduced _ (fz 0) (fz 0, fz 0) three_syncs a u v w (insertion_sort_permuting NumSF) Rr Es Ht 0 (whole 100 20 110 25) (whole 130 70 139 74) (whole 160 50 171 56)
    (int_double 0 ltac:(lia)) Vu Vv Vw Pu Pv Pw 1 ltac:(lra) ltac:(rewrite Rabs_R0; lra)) as K.
  cbv zeta in K |- *. rewrite ED in K |- *. split; [lra|]. split; [lra|].
  destruct (K ltac:(lra) ltac:(lra) v (whole 130 70 139 74) ltac:(right; left; reflexivity)) as (q & QX & QY & k & Eq & D0 & D1 & B0 & B1 & B2).
  exists q, QX, QY, k. cbn [whole reference px py] in B0, B1. split; [exact Eq|]. split; [exact D0|]. split; [exact D1|]. split; [lra|]. split; [lra|exact B2].
Qed.
