(** C34-C37, C39-C47, C62: the alignment store, its triangulation and the corrections. *)
From Verif Require Import Base Num M_Linalg M_Helper M_Alignment S_Alignment.
From Verif Require Import P_Alignment P_AlignState P_AlignState2 P_AlignSmall P_Linalg P_AlignR P_AlignWitness.
From Coq Require Import Permutation Sorted Reals Lra Floats.SpecFloat.
From Flocq Require Import Core.
Open Scope Z_scope.

(** [x] is the value found behind the matrix (see C62), [j] the content of the uninitialised
    variables (see C39); both are arbitrary. *)
Definition reaches N qsort x j ops a : Prop := run N qsort (Ok x) (Some j) (align_init N) ops = Ok a.

(** ** C34 *)
Theorem C34_points_kept : forall N qsort x j ops a, permuting N qsort -> never_more_than N 63 ops ->
  reaches N qsort x j ops a ->
  Permutation (map actual (stored a)) (spec_points N ops []) /\
  numVertices a = Z.of_nat (length (spec_points N ops [])).
Proof. intros; eapply history_points; eauto. Qed.
Print Assumptions C34_points_kept.

Theorem C34_points_distinct : forall N qsort x j ops a, (forall u v, feq N u v = feq N v u) ->
  permuting N qsort -> never_more_than N 63 ops -> reaches N qsort x j ops a ->
  ForallOrdPairs (fun p q => same N p q = false) (map actual (stored a)).
Proof. intros; eapply history_unique; eauto. Qed.
Print Assumptions C34_points_distinct.

Theorem C34_points_sorted : forall N qsort x j ops a, sorting N qsort -> weak_order N ->
  reaches N qsort x j ops a -> StronglySorted (by_azimuth N) (stored a).
Proof.
  intros N qsort x j ops a Hs Hw H. eapply history_sorted; eauto; [apply WF_init|constructor].
Qed.
Print Assumptions C34_points_sorted.

(** A repeated orientation is refused and changes nothing; a new one is accepted. *)
Theorem C34_refuses_exactly_duplicates : forall N qsort x j ops a p r, permuting N qsort ->
  reaches N qsort x j ops a ->
  (existsb (fun q => same N q p) (map actual (stored a)) = true -> addVertexPair N qsort a p r = Ok (false, a)) /\
  (existsb (fun q => same N q p) (map actual (stored a)) = false -> exists a', addVertexPair N qsort a p r = Ok (true, a')).
Proof.
  intros N qsort x j ops a p r Hq H. assert (HW : WF N a) by (eapply run_WF; eauto; apply WF_init). split; intros Hd.
  - apply addVertexPair_dup, Hd.
  - destruct (addVertexPair_new N qsort a p r Hq HW Hd) as (a' & r' & E & _). eauto.
Qed.
Print Assumptions C34_refuses_exactly_duplicates.

(** False beyond 63 points: the 64th point empties the store, in every history. *)
Theorem C65_64th_point_loses_all_refuted : forall N qsort x j ops a p r, permuting N qsort ->
  reaches N qsort x j ops a -> numVertices a = 63 ->
  existsb (fun q => same N q p) (map actual (stored a)) = false ->
  exists a', addVertexPair N qsort a p r = Ok (true, a') /\ stored a' = [] /\ numVertices a' = 0.
Proof.
  intros N qsort x j ops a p r Hq H Hn Hd. assert (HW : WF N a) by (eapply run_WF; eauto; apply WF_init).
  destruct (addVertexPair_new N qsort a p r Hq HW Hd) as (a' & r' & E & _ & _ & _ & _ & _ & _ & _ & H63).
  destruct (H63 Hn). eauto.
Qed.
Print Assumptions C65_64th_point_loses_all_refuted.

Example C34_nonvacuous :
  sorting NumSF (insertion_sort NumSF) /\ sorting NumR (insertion_sort NumR) /\ weak_order NumR /\
  (forall u v, feq NumR u v = feq NumR v u) /\
  count (runSF (grid_adds 63)) = Some (63, 0) /\ count (runSF (grid_adds 64)) = Some (0, 0) /\
  references (runSF [mkadd (fz 9) (fz 1) (fz 5) (fz 5); mkadd (fz 7) (fz 1) (fz 6) (fz 6); mkadd (fz 9) (fz 1) (fz 8) (fz 8)])
   = Some [(fz 6, fz 6); (fz 5, fz 5)].
Proof.
  split; [apply insertion_sort_sorting|]. split; [apply insertion_sort_sorting|]. split; [apply weak_order_R|].
  split; [apply feq_sym_R|]. split; [apply count_63|]. split; [apply count_64|]. vm_compute. reflexivity.
Qed.
Example C34_never_more_than_nonvacuous (p r : point NumR) : never_more_than NumR 63 [Add p r; Triangulate; Clear; Add p r].
Proof. intros [|[|[|[|k]]]]; cbn [firstn spec_points existsb length app]; rewrite ?firstn_nil; cbn; lia. Qed.

(** ** C35 *)
(** Every stored pair was given by the user, up to a whole turn of the reference azimuth. *)
Theorem C35_reference_is_given_mod_360 : forall qsort x j ops a v, permuting NumR qsort ->
  reaches NumR qsort x j ops a -> In v (stored a) ->
  exists r, In (Add (actual v) r) ops /\ Y (reference v) = Y r /\
    (X (reference v) = X r \/ X (reference v) = X r + 360 \/ X (reference v) = X r - 360)%R.
Proof.
  intros qsort x j ops a v Hq H Hin.
  destruct (history_pairs NumR qsort x j Hq ops _ a (WF_init NumR) H v Hin) as [Hn|(p & r & Ho & <- & Hu)].
  - cbn in Hn. contradiction.
  - exists r. split; [exact Ho|]. destruct Hu as (Hy & Hx). split; [exact Hy|].
    cbn [fadd fsub fZ NumR] in Hx. unfold X. destruct Hx as [Hx|[Hx|[Hx|Hx]]]; rewrite Hx; auto. left. lra.
Qed.
Print Assumptions C35_reference_is_given_mod_360.

(** Only at the moment of the insertion, only relative to the point that is first at that moment, and
    only if the given azimuth is within 540 degrees of it. *)
Theorem C66_within_180_of_first_partial : forall qsort x j ops a first others p r, permuting NumR qsort ->
  reaches NumR qsort x j ops a -> stored a = first :: others -> numVertices a < 63 ->
  existsb (fun q => same NumR q p) (map actual (stored a)) = false ->
  (-540 <= X (reference first) - X r <= 540)%R ->
  exists a' r', addVertexPair NumR qsort a p r = Ok (true, a') /\ In (VP p r') (stored a') /\
    (Rabs (X (reference first) - X r') <= 180)%R.
Proof.
  intros qsort x j ops a first others p r Hq H Hs Hn Hd Hr.
  assert (HW : WF NumR a) by (eapply run_WF; eauto; apply WF_init).
  destruct (addVertexPair_new NumR qsort a p r Hq HW Hd) as (a' & r' & E & _ & _ & _ & _ & _ & Hf & Hlt & _).
  exists a', r'. split; [exact E|]. split.
  - destruct (Hlt Hn) as (_ & ->). apply (Permutation_in (VP p r') (Permutation_sym (Hq _))).
    apply in_or_app. right. left. reflexivity.
  - rewrite (Hf first others Hs). destruct (unwrap_R first r) as (_ & _ & Hb). apply Hb, Hr.
Qed.
Print Assumptions C66_within_180_of_first_partial.

(** The claim itself fails: after three points the third reference is 210 degrees from the first
    point's, and after five points the one just inserted (400, now first) is 260 degrees from the
    point that was first (660).  IEEE doubles, references in [0,360). *)
Theorem C66_within_180_of_first_refuted :
  references (runSF [mkadd (fz 10) (fz 0) (fz 350) (fz 0); mkadd (fz 5) (fz 0) (fz 100) (fz 0);
                     mkadd (fz 20) (fz 0) (fz 200) (fz 0)])
  = Some [(fz 460, fz 0); (fz 350, fz 0); (fz 560, fz 0)] /\
  references (runSF [mkadd (fz 10) (fz 0) (fz 350) (fz 0); mkadd (fz 5) (fz 0) (fz 100) (fz 0);
                     mkadd (fz 4) (fz 0) (fz 200) (fz 0); mkadd (fz 3) (fz 0) (fz 300) (fz 0);
                     mkadd (fz 2) (fz 0) (fz 40) (fz 0)])
  = Some [(fz 400, fz 0); (fz 660, fz 0); (fz 560, fz 0); (fz 460, fz 0); (fz 350, fz 0)].
Proof. exact drift_run. Qed.
Print Assumptions C66_within_180_of_first_refuted.

(** ** C36 *)
Theorem C36_triangles_well_formed : forall N qsort x j ops a, permuting N qsort -> never_more_than N 63 ops ->
  reaches N qsort x j (ops ++ [Triangulate]) a ->
  Forall (three_of (numVertices a)) (tris a) /\ (numVertices a < 3 -> tris a = []).
Proof. intros; eapply history_triangles; eauto. Qed.
Print Assumptions C36_triangles_well_formed.
Example C36_nonvacuous :
  count (runSF (flat_map sync [mkadd (fz 3) (fz 5) (fz 3) (fz 5); mkadd (fz 7) (fz 2) (fz 7) (fz 2);
                               mkadd (fz 8) (fz 8) (fz 8) (fz 8); mkadd (fz 9) (fz 2) (fz 9) (fz 2)])) = Some (4, 2).
Proof. vm_compute. reflexivity. Qed.

(** ** C37 *)
(** Whatever the arithmetic does, a history either runs without any out-of-bounds access or stops at
    the write of a triangle behind its array; no other access can go wrong. *)
Theorem C37_only_triangle_arrays_can_overflow : forall N qsort x j ops, permuting N qsort ->
  (exists a, reaches N qsort x j ops a) \/ run N qsort (Ok x) (Some j) (align_init N) ops = UB OobWrite.
Proof. intros; apply history_safe; assumption. Qed.
Print Assumptions C37_only_triangle_arrays_can_overflow.

(** With one to three points nothing overflows, whatever the arithmetic does. *)
Theorem C67_up_to_three_points_safe_partial : forall N j (ps : list (point N)), (1 <= length ps <= 3)%nat ->
  exists r, triangulate N (Some j) ps = Ok r.
Proof. exact small_fits. Qed.
Print Assumptions C67_up_to_three_points_safe_partial.

(** IEEE doubles: 8 syncs a few millionths of a degree apart overflow the arrays; so do 12 points
    with azimuths whole degrees apart and altitudes equal up to a few millionths of a degree. *)
Theorem C67_triangle_arrays_overflow_refuted :
  show_ub (runSF (flat_map sync (micro_adds micro_points))) = Some OobWrite /\
  show_ub (runSF (row_adds row_points ++ [Triangulate])) = Some OobWrite.
Proof. split; [exact micro_overflow|exact row_overflow]. Qed.
Print Assumptions C67_triangle_arrays_overflow_refuted.

(** ** C39 *)
Theorem C39_result_is_function_of_points : forall N cap j1 j2 (ps : list (point N)),
  triangulate_cap N cap (Some j1) ps = triangulate_cap N cap (Some j2) ps.
Proof. exact triangulate_junk_irrelevant. Qed.
Print Assumptions C39_result_is_function_of_points.

(** The uninitialised variables are nevertheless read (and their value discarded) exactly when the
    supertriangle is flat ... *)
Theorem C39_uninitialised_read_exactly : forall N (ps : list (point N)) cap j,
  triangulate_cap N cap None ps = if super_flat N ps then UB UninitRead else triangulate_cap N cap (Some j) ps.
Proof. exact triangulate_strict. Qed.
Print Assumptions C39_uninitialised_read_exactly.

(** ... that is when all points lie within a square of side 1/21000000 degree, in particular for the
    very first sync. *)
Theorem C39_uninitialised_read_exact_arithmetic : forall (ps : list (point NumR)), ps <> [] ->
  (super_flat NumR ps = true <->
   forall p q, In p ps -> In q ps -> (21 * Rabs (X p - X q) < 1 / 1000000 /\ 21 * Rabs (Y p - Y q) < 1 / 1000000)%R).
Proof. exact super_flat_R. Qed.
Print Assumptions C39_uninitialised_read_exact_arithmetic.
Example C39_nonvacuous :
  show_ub (triangulate NumSF None [sfp 3 5]) = Some UninitRead /\
  show_ub (triangulate NumSF None [sfp 3 5; sfp 7 2]) = None.
Proof. split; vm_compute; reflexivity. Qed.

(** ** C40 *)
Lemma last_triangulate qsort x j ops a : permuting NumR qsort -> reaches NumR qsort x j (ops ++ [Triangulate]) a ->
  exists a0, reaches NumR qsort x j ops a0 /\ WF NumR a0 /\ TriangulateActual NumR (Ok x) (Some j) a0 = Ok a /\
    stored a = stored a0 /\ numVertices a = numVertices a0.
Proof.
  intros Hq H. unfold reaches in H. rewrite run_app in H.
  destruct (run NumR qsort (Ok x) (Some j) (align_init NumR) ops) as [a0|u] eqn:E; [|discriminate].
  exists a0. assert (HW : WF NumR a0) by (eapply run_WF; eauto; apply WF_init).
  cbn [bind run step] in H. destruct (TriangulateActual NumR (Ok x) (Some j) a0) as [a1|u] eqn:E1; [|discriminate].
  cbn [bind] in H. injection H as ->. split; [exact E|]. split; [exact HW|]. split; [reflexivity|].
  destruct (triangulate_actual NumR x j a0 HW) as [(a' & E' & HW' & En & Es & _)|(_ & _ & E')]; rewrite E1 in E'; [|discriminate].
  injection E' as <-. auto.
Qed.

Theorem C40_one_point_is_translation : forall qsort x j ops a v, permuting NumR qsort ->
  reaches NumR qsort x j (ops ++ [Triangulate]) a -> stored a = [v] ->
  forall p, getTransformationType NumR a p = Ok POINT /\
    calibrated_to a p (X p + (X (reference v) - X (actual v))) (Y p + (Y (reference v) - Y (actual v))).
Proof.
  intros qsort x j ops a v Hq H Hs. destruct (last_triangulate _ _ _ _ _ Hq H) as (a0 & _ & HW & E & Es & _).
  rewrite Es in Hs. eapply one_point; eauto.
Qed.
Print Assumptions C40_one_point_is_translation.

(** rotation and scale given by (s,t) = scale * (cos, sin) *)
Theorem C40_two_points_is_similarity : forall qsort x j ops a v w, permuting NumR qsort -> never_more_than NumR 63 ops ->
  reaches NumR qsort x j (ops ++ [Triangulate]) a -> stored a = [v; w] ->
  exists s t : R,
  (forall p, getTransformationType NumR a p = Ok LINE /\
    calibrated_to a p (X (reference v) + s * (X p - X (actual v)) - t * (Y p - Y (actual v)))
                      (Y (reference v) + t * (X p - X (actual v)) + s * (Y p - Y (actual v)))) /\
  (calibrated_to a (actual v) (X (reference v)) (Y (reference v)) /\
   calibrated_to a (actual w) (X (reference w)) (Y (reference w))).
Proof.
  intros qsort x j ops a v w Hq Hn H Hs. destruct (last_triangulate _ _ _ _ _ Hq H) as (a0 & H0 & HW & E & Es & _).
  rewrite Es in Hs.
  assert (Hne : actual v <> actual w).
  { pose proof (history_unique NumR qsort x j ops a0 feq_sym_R Hq Hn H0) as HU. rewrite Hs in HU. cbn [map] in HU.
    inversion HU as [|? ? HF _]; subst. inversion HF as [|? ? Hv _]; subst. intros Eq. rewrite Eq in Hv.
    unfold same in Hv. cbn [feq NumR] in Hv. rewrite !Req_bool_true in Hv by reflexivity. discriminate. }
  destruct (two_points x j a0 a v w HW E Hs Hne) as (s & t & S1 & S2 & S3).
  exists s, t. split; [exact S3|]. split.
  - destruct (S3 (actual v)) as (_ & HC).
    replace (X (reference v) + s * (X (actual v) - X (actual v)) - t * (Y (actual v) - Y (actual v)))%R with (X (reference v)) in HC by ring.
    replace (Y (reference v) + t * (X (actual v) - X (actual v)) + s * (Y (actual v) - Y (actual v)))%R with (Y (reference v)) in HC by ring.
    exact HC.
  - destruct (S3 (actual w)) as (_ & HC). rewrite <- S1, <- S2 in HC. exact HC.
Qed.
Print Assumptions C40_two_points_is_similarity.

(** Such histories exist: up to three points every history runs to its end. *)
Theorem C40_small_histories_run : forall qsort x j ops a, permuting NumR qsort -> reaches NumR qsort x j ops a ->
  numVertices a <= 3 -> exists a', reaches NumR qsort x j (ops ++ [Triangulate]) a'.
Proof.
  intros qsort x j ops a Hq H Hn. assert (HW : WF NumR a) by (eapply run_WF; eauto; apply WF_init).
  destruct (triangulated_small x j a HW Hn) as (a' & E). exists a'. unfold reaches in *. rewrite run_app, H.
  cbn [bind run step]. rewrite E. reflexivity.
Qed.
Print Assumptions C40_small_histories_run.

(** ** C41 *)
(** The selected triangle (see C43/C45) is corrected by the affine map that sends its corners to their
    references: barycentric coordinates are preserved. *)
Theorem C41_triangle_is_mapped_affinely : forall qsort x j ops a p, permuting NumR qsort ->
  reaches NumR qsort x j (ops ++ [Triangulate]) a -> (0 < numVertices a) -> tris a <> [] ->
  exists t u v w, selected a p t /\ corners a t u v w /\
    (cross (actual u) (actual v) (actual w) <> 0%R ->
     forall l1 l2 l3 : R, (l1 + l2 + l3 = 1)%R ->
      X p = (l1 * X (actual u) + l2 * X (actual v) + l3 * X (actual w))%R ->
      Y p = (l1 * Y (actual u) + l2 * Y (actual v) + l3 * Y (actual w))%R ->
      calibrated_to a p (l1 * X (reference u) + l2 * X (reference v) + l3 * X (reference w))
                        (l1 * Y (reference u) + l2 * Y (reference v) + l3 * Y (reference w))).
Proof.
  intros qsort x j ops a p Hq H Hn Ht. destruct (last_triangulate _ _ _ _ _ Hq H) as (a0 & _ & HW & E & Es & En).
  destruct (triangle_case x j a0 a p HW ltac:(lia) E Ht) as (HW' & H3 & _ & _).
  destruct (triangle_map x j a0 a p HW ltac:(lia) E Ht) as (t & Hsel & Hm).
  assert (Hin : In t (tris a)).
  { destruct Hsel as [(k & Hk & _)|(Hin & _)]; [eapply nth_error_In; eauto|exact Hin]. }
  rewrite Forall_forall in H3. destruct (H3 t Hin) as (K1 & K2 & K3 & _).
  pose proof (stored_length NumR a HW') as Hl.
  destruct (nth_error (stored a) (Z.to_nat (t1 t))) as [u|] eqn:Eu; [|apply nth_error_None in Eu; lia].
  destruct (nth_error (stored a) (Z.to_nat (t2 t))) as [v|] eqn:Ev; [|apply nth_error_None in Ev; lia].
  destruct (nth_error (stored a) (Z.to_nat (t3 t))) as [w|] eqn:Ew; [|apply nth_error_None in Ew; lia].
  exists t, u, v, w. split; [exact Hsel|]. split; [repeat split; assumption|].
  intros Hc l1 l2 l3 Hs Hx Hy. apply (Hm u v w l1 l2 l3); auto. repeat split; assumption.
Qed.
Print Assumptions C41_triangle_is_mapped_affinely.

(** every direction has barycentric coordinates with respect to a non-degenerate triangle, so the
    theorem determines the result for every direction *)
Example C41_coordinates_exist (u v w p : point NumR) : cross u v w <> 0%R -> exists l1 l2 l3 : R,
  (l1 + l2 + l3 = 1 /\ X p = l1 * X u + l2 * X v + l3 * X w /\ Y p = l1 * Y u + l2 * Y v + l3 * Y w)%R.
Proof.
  intros H. exists (cross p v w / cross u v w)%R, (cross u p w / cross u v w)%R, (cross u v p / cross u v w)%R.
  unfold cross in *. repeat split; field; exact H.
Qed.

(** ** C42 *)
(** What is reported as singular, exactly: a zero row whose following element is zero as well. *)
Theorem C68_reported_singular_exactly : forall (m9 : R) (a : mat NumR),
  Invert NumR (Ok m9) a = Ok None <->
  ((m00 a : R) = 0 /\ (m01 a : R) = 0 /\ (m02 a : R) = 0 /\ (m10 a : R) = 0)%R \/
  ((m10 a : R) = 0 /\ (m11 a : R) = 0 /\ (m12 a : R) = 0 /\ (m20 a : R) = 0)%R \/
  ((m20 a : R) = 0 /\ (m21 a : R) = 0 /\ (m22 a : R) = 0 /\ m9 = 0)%R.
Proof. exact Invert_none_iff. Qed.
Print Assumptions C68_reported_singular_exactly.

(** For the matrix of three points that is: all azimuths 0 and the altitude of the first point 0. *)
Theorem C68_triangle_reported_exactly_partial : forall (m9 : R) (p q r : point NumR),
  Invert NumR (Ok m9) (tri_matrix NumR p q r) = Ok None <-> (X p = 0 /\ X q = 0 /\ X r = 0 /\ Y p = 0)%R.
Proof.
  intros m9 p q r. rewrite Invert_none_iff. unfold tri_matrix. cbn [m00 m01 m02 m10 m11 m12 m20 m21 m22 fZ NumR].
  unfold X, Y. split; [|tauto]. intros [H|[(_ & _ & _ & H)|(H & _)]]; [exact H|exfalso; lra|exfalso; lra].
Qed.
Print Assumptions C68_triangle_reported_exactly_partial.

(** Regular matrices are inverted, whatever value is found behind the matrix. *)
Theorem C42_regular_matrices_inverted : forall (m9 : R) (a : mat NumR), (det a <> 0)%R ->
  Invert NumR (Ok m9) a = Ok (Some (inverse a)).
Proof. exact Invert_ok_R. Qed.
Print Assumptions C42_regular_matrices_inverted.

(** Every degenerate triangle off the azimuth-0 line is NOT reported and gets a garbage correction. *)
Theorem C68_collinear_points_not_reported_refuted : forall m9 : R,
  let m := tri_matrix NumR (Pt (1%R : F NumR) 1%R) (Pt (2%R : F NumR) 2%R) (Pt (3%R : F NumR) 3%R) in
  det m = 0%R /\ exists inv, Invert NumR (Ok m9) m = Ok (Some inv).
Proof.
  intros m9 m. split.
  - unfold m, det, tri_matrix. cbn [m00 m01 m02 m10 m11 m12 m20 m21 m22 fZ px py NumR]. lra.
  - destruct (Invert_ok NumR m9 m) as ([inv|] & E); [eauto|]. exfalso.
    apply C68_triangle_reported_exactly_partial in E. unfold X in E. cbn [px] in E. lra.
Qed.
Print Assumptions C68_collinear_points_not_reported_refuted.

(** ** C43 *)
(** Kind of correction, for every arithmetic.  [contains]: the code's containment test;
    [tri_solution]: the matrix computed from the corners of a triangle. *)
Definition used N x (a : align N) (p : point N) (ty : ttype) (m : mat N) : Prop :=
  match ty with
  | NONE => stored a = [] /\ tris a = [] /\ m = identity N
  | POINT => tris a = [] /\ exists v, stored a = [v] /\ m = translation N v
  | LINE => tris a = [] /\ exists v w rest, stored a = v :: w :: rest /\
       m = solve N x (line_matrix N (actual v) (actual w)) (line_matrix N (reference v) (reference w))
  | TRIANGLE_IN => exists k t, nth_error (tris a) k = Some t /\ contains N (verts a) p t /\
       (forall k' t', (k' < k)%nat -> nth_error (tris a) k' = Some t' -> ~ contains N (verts a) p t') /\
       tri_solution N x (verts a) t = Ok m
  | TRIANGLE_OUT => tris a <> [] /\ (forall t, In t (tris a) -> ~ contains N (verts a) p t) /\
       ((nearestTriangle N a p = Ok (-1) /\ m = identity N) \/
        exists k t, nearestTriangle N a p = Ok (Z.of_nat k) /\ nth_error (tris a) k = Some t /\
           tri_solution N x (verts a) t = Ok m)
  end.
Theorem C43_type_matches_correction : forall N qsort x j ops a p, permuting N qsort ->
  reaches N qsort x j (ops ++ [Triangulate]) a ->
  exists ty m, getTransformationType N a p = Ok ty /\ getTransformationMatrix N a p = Ok m /\ used N x a p ty m.
Proof.
  intros N qsort x j ops a p Hq H. unfold reaches in H. rewrite run_app in H.
  destruct (run N qsort (Ok x) (Some j) (align_init N) ops) as [a0|u] eqn:E; [|discriminate].
  assert (HW : WF N a0) by (eapply run_WF; eauto; apply WF_init).
  cbn [bind run step] in H. destruct (TriangulateActual N (Ok x) (Some j) a0) as [a1|u] eqn:E1; [|discriminate].
  cbn [bind] in H. injection H as ->.
  destruct (triangulate_actual N x j a0 HW) as [(a' & E' & HW' & _ & _ & _ & _ & Hm)|(_ & _ & E')]; rewrite E1 in E'; [|discriminate].
  injection E' as <-. apply (type_and_matrix N x a p HW' Hm).
Qed.
Print Assumptions C43_type_matches_correction.

Theorem C43_cleared_means_no_correction : forall N a p,
  getTransformationType N (clearAll N a) p = Ok NONE /\ getTransformationMatrix N (clearAll N a) p = Ok (identity N).
Proof. intros N a p. split; reflexivity. Qed.
Print Assumptions C43_cleared_means_no_correction.

Theorem C43_cleared_orientation_unchanged : forall (a : align NumR) p, calibrated_to (clearAll NumR a) p (X p) (Y p).
Proof.
  intros a p. pose proof (calibrated_from_matrix (clearAll NumR a) p (identity NumR) eq_refl) as H.
  unfold identity in H. cbn [m00 m01 m02 m10 m11 m12 fZ NumR] in H.
  replace (1 * X p + 0 * Y p + 0 * 1)%R with (X p) in H by ring.
  replace (0 * X p + 1 * Y p + 0 * 1)%R with (Y p) in H by ring. exact H.
Qed.
Print Assumptions C43_cleared_orientation_unchanged.
Example C43_nonvacuous :
  let r := runSF (flat_map sync [mkadd (fz 3) (fz 5) (fz 3) (fz 5); mkadd (fz 7) (fz 2) (fz 7) (fz 2);
                               mkadd (fz 8) (fz 8) (fz 8) (fz 8); mkadd (fz 9) (fz 2) (fz 9) (fz 2)]) in
  (show_type r (sfp 6 5), show_type r (sfp 60 5),
   show_type (runSF (flat_map sync [mkadd (fz 3) (fz 5) (fz 3) (fz 5); mkadd (fz 7) (fz 2) (fz 7) (fz 2)])) (sfp 6 5),
   show_type (runSF (sync (mkadd (fz 3) (fz 5) (fz 3) (fz 5)))) (sfp 6 5)) =
  (Some TRIANGLE_IN, Some TRIANGLE_OUT, Some LINE, Some POINT).
Proof. vm_compute. reflexivity. Qed.

(** ** C44 *)
Theorem C44_points_of_triangle_accepted : forall p a b c : point NumR, in_hull p a b c -> isInTriangle NumR p a b c = true.
Proof. exact isIn_hull. Qed.
Print Assumptions C44_points_of_triangle_accepted.

(** [neg_part (area2 ..)]: twice the area by which [p] lies beyond an edge. *)
Theorem C44_accepted_exactly : forall p a b c : point NumR, (0 < area2 a b c)%R ->
  (isInTriangle NumR p a b c = true <->
   neg_part (area2 p b c) + neg_part (area2 a p c) + neg_part (area2 a b p) < 1 / 10000)%R.
Proof. exact isIn_iff. Qed.
Print Assumptions C44_accepted_exactly.

(** On the device the areas are rounded to float: a point well inside a triangle of
    60 x 50 degrees is rejected. *)
Theorem C69_inner_point_rejected_refuted :
  isInTriangle NumSF (Pt (milli 128047) (milli 25011)) (sfp 100 20) (sfp 160 20) (sfp 130 70) = false.
Proof. vm_compute. reflexivity. Qed.
Print Assumptions C69_inner_point_rejected_refuted.
Definition degP (x y : R) : point NumR := Pt (x : F NumR) y.
Example C69_witness_is_inside :
  in_hull (degP 128.047 25.011) (degP 100 20) (degP 160 20) (degP 130 70).
Proof.
  exists (1 - 250404/600000 - 5011/50000)%R, (250404/600000)%R, (5011/50000)%R.
  unfold X, Y, degP; cbn [px py]; repeat split; lra.
Qed.

(** ** C45 *)
Theorem C45_nearest_triangle : forall qsort x j ops a p, permuting NumR qsort -> never_more_than NumR 63 ops ->
  reaches NumR qsort x j (ops ++ [Triangulate]) a -> tris a <> [] ->
  exists k t, nearestTriangle NumR a p = Ok (Z.of_nat k) /\ nth_error (tris a) k = Some t /\ nearest a p t.
Proof.
  intros qsort x j ops a p Hq Hn H Ht.
  assert (HW : WF NumR a) by (eapply run_WF; eauto; apply WF_init).
  destruct (C36_triangles_well_formed _ _ _ _ _ _ Hq Hn H) as (H3 & _). rewrite Forall_forall in H3.
  destruct (nearestTriangle_R a p HW Ht) as (k & t & d & Ek & Hk & Hd & Hmin).
  assert (Hin : In t (tris a)) by (eapply nth_error_In; eauto).
  exists k, t. split; [exact Ek|]. split; [exact Hk|]. intros t' u v w u' v' w' Hin' Hcu Hcu'.
  rewrite <- (dist_unique _ _ _ _ _ Hd (dist_corners a p t u v w HW (H3 t Hin) Hcu)).
  apply (Hmin t' _ Hin'). apply dist_corners; auto.
Qed.
Print Assumptions C45_nearest_triangle.
Example C45_nonvacuous :
  match runSF (flat_map sync [mkadd (fz 3) (fz 5) (fz 3) (fz 5); mkadd (fz 7) (fz 2) (fz 7) (fz 2);
                       mkadd (fz 8) (fz 8) (fz 8) (fz 8); mkadd (fz 9) (fz 2) (fz 9) (fz 2)]) with
  | Ok a => match nearestTriangle NumSF a (sfp 60 5), nearestTriangle NumSF a (sfp 0 5) with
            | Ok k, Ok l => Some (k, l) | _, _ => None end
  | UB _ => None end = Some (0, 1).
Proof. vm_compute. reflexivity. Qed.

(** ** C46 *)
(** [s] is one of the corners of [t] *)
Definition corner_of (a : align NumR) (s : vpair NumR) (t : tri) : Prop :=
  exists u v w, corners a t u v w /\ (s = u \/ s = v \/ s = w).
(** no triangle of [a] is degenerate *)
Definition nondegenerate (a : align NumR) : Prop :=
  forall t u v w, In t (tris a) -> corners a t u v w -> cross (actual u) (actual v) (actual w) <> 0%R.

Theorem C46_one_or_two_points_exact : forall qsort x j ops a s, permuting NumR qsort -> never_more_than NumR 63 ops ->
  reaches NumR qsort x j (ops ++ [Triangulate]) a -> 1 <= numVertices a <= 2 -> In s (stored a) ->
  calibrated_to a (actual s) (X (reference s)) (Y (reference s)).
Proof.
  intros qsort x j ops a s Hq Hn H Hc Hin.
  assert (HW : WF NumR a) by (eapply run_WF; eauto; apply WF_init).
  pose proof (stored_length NumR a HW) as Hl.
  destruct (stored a) as [|v [|w [|z l]]] eqn:Es; cbn [length] in Hl; try lia.
  - destruct Hin as [<-|[]]. destruct (C40_one_point_is_translation _ _ _ _ _ _ Hq H Es (actual v)) as (_ & HC).
    replace (X (actual v) + (X (reference v) - X (actual v)))%R with (X (reference v)) in HC by ring.
    replace (Y (actual v) + (Y (reference v) - Y (actual v)))%R with (Y (reference v)) in HC by ring. exact HC.
  - destruct (C40_two_points_is_similarity _ _ _ _ _ _ _ Hq Hn H Es) as (_ & _ & _ & H1 & H2).
    destruct Hin as [<-|[<-|[]]]; assumption.
Qed.
Print Assumptions C46_one_or_two_points_exact.

(** With triangles: exact whenever the point is a corner of some triangle and no triangle without it
    as a corner passes the (tolerant) containment test. *)
Theorem C46_corner_exact_partial : forall qsort x j ops a s, permuting NumR qsort ->
  reaches NumR qsort x j (ops ++ [Triangulate]) a -> 0 < numVertices a -> nondegenerate a ->
  (exists t, In t (tris a) /\ corner_of a s t) ->
  (forall t, In t (tris a) -> in_tri a (actual s) t -> corner_of a s t) ->
  calibrated_to a (actual s) (X (reference s)) (Y (reference s)).
Proof.
  intros qsort x j ops a s Hq H Hn Hnd (t0 & Hin0 & Hc0) Honly.
  assert (Hne : tris a <> []) by (intros E; rewrite E in Hin0; destruct Hin0).
  destruct (C41_triangle_is_mapped_affinely _ _ _ _ _ (actual s) Hq H Hn Hne) as (t & u & v & w & Hsel & Hcor & Hmap).
  assert (Hct : corner_of a s t /\ In t (tris a)).
  { destruct Hsel as [(k & Hk & Hint & _)|(Hin & Hno & _)].
    - assert (Hin : In t (tris a)) by (eapply nth_error_In; eauto). auto.
    - exfalso. destruct Hc0 as (u0 & v0 & w0 & Hcor0 & Hs). apply (Hno t0 Hin0). exists u0, v0, w0. split; [exact Hcor0|].
      apply isIn_hull. destruct Hs as [ -> | [ -> | -> ]].
      + exists 1%R, 0%R, 0%R. repeat split; lra.
      + exists 0%R, 1%R, 0%R. repeat split; lra.
      + exists 0%R, 0%R, 1%R. repeat split; lra. }
  destruct Hct as ((u' & v' & w' & (C1 & C2 & C3) & Hs) & Hin). destruct Hcor as (D1 & D2 & D3).
  rewrite D1 in C1. rewrite D2 in C2. rewrite D3 in C3. injection C1 as <-. injection C2 as <-. injection C3 as <-.
  specialize (Hmap (Hnd t u v w Hin (conj D1 (conj D2 D3)))).
  destruct Hs as [ -> | [ -> | -> ]].
  - specialize (Hmap 1 0 0 ltac:(lra) ltac:(lra) ltac:(lra))%R.
    replace (1 * X (reference u) + 0 * X (reference v) + 0 * X (reference w))%R with (X (reference u)) in Hmap by ring.
    replace (1 * Y (reference u) + 0 * Y (reference v) + 0 * Y (reference w))%R with (Y (reference u)) in Hmap by ring. exact Hmap.
  - specialize (Hmap 0 1 0 ltac:(lra) ltac:(lra) ltac:(lra))%R.
    replace (0 * X (reference u) + 1 * X (reference v) + 0 * X (reference w))%R with (X (reference v)) in Hmap by ring.
    replace (0 * Y (reference u) + 1 * Y (reference v) + 0 * Y (reference w))%R with (Y (reference v)) in Hmap by ring. exact Hmap.
  - specialize (Hmap 0 0 1 ltac:(lra) ltac:(lra) ltac:(lra))%R.
    replace (0 * X (reference u) + 0 * X (reference v) + 1 * X (reference w))%R with (X (reference w)) in Hmap by ring.
    replace (0 * Y (reference u) + 0 * Y (reference v) + 1 * Y (reference w))%R with (Y (reference w)) in Hmap by ring. exact Hmap.
Qed.
Print Assumptions C46_corner_exact_partial.

(** False in general: four points 0.005 degrees apart; the calibrated orientation at the first one is
    1 degree away from its reference (102, 41), because another triangle also "contains" it. *)
Theorem C46_reference_at_stored_point_refuted :
  count (runSF square_ops) = Some (4, 2) /\
  nth_error (match references (runSF square_ops) with Some l => l | None => [] end) 0 = Some (milli 102000, milli 41000) /\
  match show_cal (runSF square_ops) (Pt (milli 100000) (milli 40000)) with
  | Some (az, alt) => SFltb az (fz 101) && SFltb alt (fz 40) = true
  | None => False
  end.
Proof. exact square_run. Qed.
Print Assumptions C46_reference_at_stored_point_refuted.

(** ** C47 *)
Theorem C47_triangulate_idempotent : forall N qsort x j ops a, permuting N qsort ->
  reaches N qsort x j (ops ++ [Triangulate]) a -> reaches N qsort x j (ops ++ [Triangulate; Triangulate]) a.
Proof.
  intros N qsort x j ops a Hq H. unfold reaches in *. rewrite run_app in *.
  destruct (run N qsort (Ok x) (Some j) (align_init N) ops) as [a0|u] eqn:E; [|discriminate].
  assert (HW : WF N a0) by (eapply run_WF; eauto; apply WF_init).
  cbn [bind run step] in *. destruct (TriangulateActual N (Ok x) (Some j) a0) as [a1|u] eqn:E1; [|discriminate].
  cbn [bind] in *. injection H as ->. rewrite (triangulate_idempotent N x j a0 a HW E1). reflexivity.
Qed.
Print Assumptions C47_triangulate_idempotent.

(** A repeated sync (addVertexPair, then TriangulateActual) at a stored orientation. *)
Theorem C47_repeated_sync_changes_nothing : forall N qsort x j ops a p r, permuting N qsort ->
  reaches N qsort x j (ops ++ [Triangulate]) a -> existsb (fun q => same N q p) (map actual (stored a)) = true ->
  reaches N qsort x j (ops ++ [Triangulate; Add p r; Triangulate]) a.
Proof.
  intros N qsort x j ops a p r Hq H Hd.
  pose proof (C47_triangulate_idempotent _ _ _ _ _ _ Hq H) as H2. unfold reaches in *.
  rewrite run_app in *. destruct (run N qsort (Ok x) (Some j) (align_init N) ops) as [a0|u]; [|discriminate].
  cbn [bind run step] in *. destruct (TriangulateActual N (Ok x) (Some j) a0) as [a1|u]; [|discriminate].
  cbn [bind] in *. injection H as ->. rewrite (addVertexPair_dup N qsort a p r Hd). cbn [bind]. exact H2.
Qed.
Print Assumptions C47_repeated_sync_changes_nothing.
Example C47_nonvacuous :
  let ops := flat_map sync [mkadd (fz 3) (fz 5) (fz 3) (fz 5); mkadd (fz 7) (fz 2) (fz 7) (fz 2); mkadd (fz 8) (fz 8) (fz 8) (fz 8)] in
  count (runSF ops) = Some (3, 1) /\ count (runSF (ops ++ sync (mkadd (fz 7) (fz 2) (fz 99) (fz 9)))) = Some (3, 1).
Proof. split; vm_compute; reflexivity. Qed.

(** ** C62 *)
(** Whatever is inverted, the element behind the matrix is read unless one of the first two rows is
    reported as zero before: reading it being an error, the inversion is one. *)
Theorem C62_inversion_reads_behind_matrix_refuted : forall N u (a : mat N),
  Invert N (UB u) a = UB u \/ Invert N (UB u) a = Ok None.
Proof.
  intros N u a. unfold Invert, LUDecompose. cbn [row_largest bind].
  destruct (feq N _ _); [right; reflexivity|]. destruct (feq N _ _); [right; reflexivity|]. left. reflexivity.
Qed.
Print Assumptions C62_inversion_reads_behind_matrix_refuted.

(** In particular every two-point alignment. *)
Theorem C62_two_point_sync_refuted :
  show_ub (run NumSF (insertion_sort NumSF) (UB OobRead) (Some (fz 0, fz 0)) (align_init NumSF)
    (flat_map sync [mkadd (fz 3) (fz 5) (fz 3) (fz 5); mkadd (fz 7) (fz 2) (fz 7) (fz 2)])) = Some OobRead.
Proof. vm_compute. reflexivity. Qed.
Print Assumptions C62_two_point_sync_refuted.

(** In exact arithmetic the value read does not matter for a regular matrix. *)
Theorem C62_value_read_is_irrelevant_partial : forall (m m' : R) (a : mat NumR), (det a <> 0)%R ->
  Invert NumR (Ok m) a = Invert NumR (Ok m') a.
Proof. intros m m' a H. rewrite !Invert_ok_R by exact H. reflexivity. Qed.
Print Assumptions C62_value_read_is_irrelevant_partial.
