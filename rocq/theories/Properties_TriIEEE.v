(** C110, C111: the containment test as the device computes it – double products, areas and their
    sums rounded to float. *)
From Verif Require Import Base Num M_Alignment S_Alignment P_Alignment P_AlignState P_AlignState2 P_AlignR P_TriIEEE Properties_Alignment.
From Coq Require Import Reals Lra Permutation.
Open Scope R_scope.

(** The corners of a triangle and the areas, as plain real numbers. *)
Definition inside (px py ax ay bx by_ cx cy : R) : Prop :=
  exists l1 l2 l3, 0 <= l1 /\ 0 <= l2 /\ 0 <= l3 /\ l1 + l2 + l3 = 1 /\
    px = l1 * ax + l2 * bx + l3 * cx /\ py = l1 * ay + l2 * by_ + l3 * cy.
Definition area (ax ay bx by_ cx cy : R) : R := Rabs ((bx - ax) * (cy - ay) - (cx - ax) * (by_ - ay)) / 2.
Definition at_ (x y : R) : point NumB := @Pt NumB x y.
Definition bounded (l : list R) : Prop := forall x, In x l -> Rabs x <= 1000.

Lemma area_area2 ax ay bx by_ cx cy :
  area ax ay bx by_ cx cy = Rabs (area2 (exact (at_ ax ay)) (exact (at_ bx by_)) (exact (at_ cx cy))) / 2.
Proof. unfold area, area2, X, Y, exact, at_. cbn [px py]. change (F NumR) with R. change (F NumB) with R. do 2 f_equal. ring. Qed.
Lemma big_at l x y : bounded l -> In x l -> In y l -> big (at_ x y).
Proof. intros H Hx Hy. split; apply H; assumption. Qed.

(** A direction inside a triangle of at most 400 square degrees (coordinates up to 1000 degrees) is
    recognised.  For larger triangles this is false (C69_inner_point_rejected_refuted). *)
Theorem C110_inside_small_triangle : forall x y ax ay bx by_ cx cy, bounded [x; y; ax; ay; bx; by_; cx; cy] ->
  area ax ay bx by_ cx cy <= 400 -> inside x y ax ay bx by_ cx cy ->
  isInTriangle NumB (at_ x y) (at_ ax ay) (at_ bx by_) (at_ cx cy) = true.
Proof.
  intros x y ax ay bx by_ cx cy Hb HA Hin. rewrite area_area2 in HA.
  apply isIn_B_hull; [eapply big_at; [exact Hb|simpl; tauto|simpl; tauto]..| |exact HA]. exact Hin.
Qed.
Print Assumptions C110_inside_small_triangle.
Example C110_inside_nonvacuous : bounded [110; 25; 100; 20; 128; 20; 110; 48] /\ area 100 20 128 20 110 48 <= 400 /\
  inside 110 25 100 20 128 20 110 48.
Proof.
  split; [|split].
  - intros x H. simpl in H. decompose [or] H; subst; try contradiction; rewrite Rabs_pos_eq; lra.
  - unfold area. rewrite Rabs_pos_eq; lra.
  - exists (1 - 115 / 392 - 5 / 28), (115 / 392), (5 / 28). repeat split; lra.
Qed.

(** Conversely nothing far outside is accepted: the parts overlap by less than 1/5000 square degrees. *)
Theorem C110_accepted_is_near : forall x y ax ay bx by_ cx cy, bounded [x; y; ax; ay; bx; by_; cx; cy] ->
  area x y bx by_ cx cy + area ax ay x y cx cy + area ax ay bx by_ x y <= 400 ->
  isInTriangle NumB (at_ x y) (at_ ax ay) (at_ bx by_) (at_ cx cy) = true ->
  area x y bx by_ cx cy + area ax ay x y cx cy + area ax ay bx by_ x y < area ax ay bx by_ cx cy + 2 / 10000.
Proof.
  intros x y ax ay bx by_ cx cy Hb HA Hin. rewrite !area_area2 in *.
  assert (K := isIn_B_near (at_ x y) (at_ ax ay) (at_ bx by_) (at_ cx cy)). unfold parts in K.
  assert (K' := K ltac:(eapply big_at; [exact Hb|simpl; tauto|simpl; tauto]) ltac:(eapply big_at; [exact Hb|simpl; tauto|simpl; tauto])
    ltac:(eapply big_at; [exact Hb|simpl; tauto|simpl; tauto]) ltac:(eapply big_at; [exact Hb|simpl; tauto|simpl; tauto]) HA Hin). lra.
Qed.
Print Assumptions C110_accepted_is_near.

(** Every corner passes the test of its triangle, whatever the size and whatever the rounding. *)
Theorem C111_corner_accepted : forall a b c p : point NumB, p = a \/ p = b \/ p = c -> isInTriangle NumB p a b c = true.
Proof. intros a b c p H. apply corner_B. exact H. Qed.
Print Assumptions C111_corner_accepted.
Example C111_corner_nonvacuous : at_ (1/3) 20 = at_ (1/3) 20 \/ at_ (1/3) 20 = at_ 160 20 \/ at_ (1/3) 20 = at_ 130 70.
Proof. left. reflexivity. Qed.
(** Hence at every corner of every stored triangle the device reports "inside a triangle", whatever the size. *)
Theorem C111_corner_is_inside : forall qsort x j ops a t s,
  permuting NumB qsort -> reaches NumB qsort x j (ops ++ [Triangulate]) a ->
  In t (tris a) -> (exists i, (i = t1 t \/ i = t2 t \/ i = t3 t) /\ nth_error (verts a) (Z.to_nat i) = Some s) ->
  getTransformationType NumB a (actual s) = Ok TRIANGLE_IN.
Proof.
  intros qsort x j ops a t s Hq H Hin (i & Hi & Hs).
  destruct (C43_type_matches_correction NumB qsort x j ops a (actual s) Hq H) as (ty & m & Ety & _ & _).
  assert (HW : WF NumB a) by (eapply run_WF; eauto; apply WF_init).
  assert (H4 := HW). destruct H4 as (B1 & B2 & B3 & B4 & B5).
  assert (Hlen : (0 < length (tris a))%nat) by (destruct (tris a); [destruct Hin|cbn; lia]).
  unfold getTransformationType, numTriangles in *.
  replace (Z.of_nat (length (tris a)) =? 0)%Z with false in * by (symmetry; apply Z.eqb_neq; lia).
  replace (1 <=? Z.of_nat (length (tris a)))%Z with true in * by (symmetry; apply Z.leb_le; lia). cbn [andb] in *.
  destruct (find_containing_spec NumB (verts a) (actual s) 64 ltac:(lia) (tris a) 0 ltac:(assumption)) as [(k & t' & Ef & _)|[_ Hf]].
  - rewrite Ef. reflexivity.
  - exfalso. apply (Hf t Hin).
    assert (Ht : three_of 64 t) by (eapply Forall_forall; eauto).
    destruct (three_of_rd NumB 64 (verts a) t ltac:(lia) Ht) as (u & v & w & Eu & Ev & Ew).
    exists u, v, w. repeat (split; [assumption|]). apply corner_B.
    assert (R : forall i z, (0 <= i)%Z -> rdz (verts a) i = Ok z -> nth_error (verts a) (Z.to_nat i) = Some z).
    { intros i0 z Hi0 E. unfold rdz in E. destruct (Z.ltb_spec i0 0); [lia|]. unfold rd in E.
      destruct (nth_error (verts a) (Z.to_nat i0)); congruence. }
    destruct Ht as (K1 & K2 & K3 & _).
    destruct Hi as [ -> |[ -> | -> ]].
    + apply R in Eu; [|lia]. left. congruence.
    + apply R in Ev; [|lia]. right; left. congruence.
    + apply R in Ew; [|lia]. right; right. congruence.
Qed.
Print Assumptions C111_corner_is_inside.
