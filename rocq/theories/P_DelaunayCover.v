(** The Delaunay triangles of a vertex set cover its hull; and the link between the index-based geometry
    and the specification S_Delaunay.v. *)
From Verif Require Import Base Num M_Linalg M_Helper M_Alignment P_Alignment P_AlignR S_Delaunay.
From Verif Require Import P_DelaunayGeo P_DelaunayTag P_DelaunayStep P_DelaunayAlg.
From Coq Require Import Permutation Reals Lra Psatz.
From Flocq Require Import Core.
Local Open Scope Z_scope.

Section Cover.
Context (X Y : Z -> R) (U : Z -> Prop) (GP : general_position X Y U).
Context (vl : list Z) (HU : forall k, In k vl -> U k) (l : list tri) (HI : Inv X Y vl l) (Hne : l <> []).
Context (x y : R) (Hull : forall a b, (0 < crp X Y a b x y)%R -> exists k, In k vl /\ (0 < cr X Y a b k)%R).

Definition pt_ (t : tri) : R := pwt X Y (t1 t) (t2 t) (t3 t) x y.
Lemma argmin_tri (m : list tri) : m <> [] -> exists t, In t m /\ forall t', In t' m -> (pt_ t <= pt_ t')%R.
Proof.
  induction m as [|a m IH]; [contradiction|]. intros _. destruct m as [|b m].
  - exists a. split; [left; reflexivity|]. intros t' [ <- |[]]. apply Rle_refl.
  - destruct IH as (t & Ht & Hm); [discriminate|]. destruct (Rle_dec (pt_ a) (pt_ t)) as [K|K].
    + exists a. split; [left; reflexivity|]. intros t' [ <- |H]; [apply Rle_refl|]. specialize (Hm t' H). lra.
    + exists t. split; [right; exact Ht|]. intros t' [ <- |H]; [lra|auto].
Qed.

Lemma pwt_swap a b c : pwt X Y b a c x y = pwt X Y a b c x y.
Proof.
  unfold pwt, mu. replace (cr X Y b a c) with (- cr X Y a b c)%R by (unfold cr; ring).
  replace (dt X Y b a c) with (dt X Y a b c) by (unfold dt; ring).
  replace (crp X Y b a x y) with (- crp X Y a b x y)%R by (unfold crp; ring).
  replace (dtp X Y b a x y) with (dtp X Y a b x y) by (unfold dtp; ring).
  unfold Rdiv. rewrite Rinv_opp. ring.
Qed.
Lemma pwt_key a b c a' b' c' : cr X Y a b c <> 0%R -> key3 a b c = key3 a' b' c' -> pwt X Y a b c x y = pwt X Y a' b' c' x y.
Proof.
  intros N K. apply key3_perm in K.
  assert (N2 : cr X Y b c a <> 0%R) by (rewrite cr_rot; exact N).
  assert (R1 := pwt_rot X Y a b c x y N). assert (R2 := pwt_rot X Y b c a x y N2).
  destruct K as [(-> & -> & ->)|[(-> & -> & ->)|[(-> & -> & ->)|[(-> & -> & ->)|[(-> & -> & ->)|(-> & -> & ->)]]]]].
  - reflexivity.
  - rewrite <- R1, <- R2. apply pwt_swap.
  - apply pwt_swap.
  - rewrite <- R1. rewrite <- R2. reflexivity.
  - rewrite <- R1. reflexivity.
  - rewrite <- R1. apply pwt_swap.
Qed.

Lemma cover_list : exists t, In t l /\
  (0 <= cr X Y (t1 t) (t2 t) (t3 t) * crp X Y (t1 t) (t2 t) x y)%R /\
  (0 <= cr X Y (t1 t) (t2 t) (t3 t) * crp X Y (t2 t) (t3 t) x y)%R /\
  (0 <= cr X Y (t1 t) (t2 t) (t3 t) * crp X Y (t3 t) (t1 t) x y)%R.
Proof.
  destruct (argmin_tri l Hne) as (t & Ht & Hm). exists t. split; [exact Ht|].
  destruct HI as (I1 & I2 & _). assert (D := I1 t Ht).
  assert (Hc : forall a b c, Del X Y (fun k => In k vl) a b c -> cr X Y a b c <> 0%R).
  { intros a b c D'. apply (Del_cr X Y U GP vl HU _ _ _ D'). }
  assert (W : forall a b c, key t = key3 a b c -> Del X Y (fun k => In k vl) a b c ->
     (0 <= cr X Y a b c * crp X Y a b x y)%R).
  { intros a b c K D'. destruct (Rlt_dec (cr X Y a b c * crp X Y a b x y) 0) as [H|H]; [exfalso|lra].
    destruct (walk X Y U GP vl HU x y Hull a b c D' H) as (d & Dd & Pd).
    destruct (I2 a b d Dd) as (t' & Ht' & K'). specialize (Hm t' Ht'). unfold pt_ in Hm.
    rewrite (pwt_key _ _ _ a b d (Hc _ _ _ (I1 t' Ht')) K') in Hm.
    rewrite (pwt_key _ _ _ a b c (Hc _ _ _ D) K) in Hm. lra. }
  assert (D2 := Del_rot X Y _ _ _ _ D). assert (D3 := Del_rot X Y _ _ _ _ D2).
  split; [|split].
  - apply W; [reflexivity|exact D].
  - rewrite <- (cr_rot X Y (t1 t) (t2 t) (t3 t)). apply W; [symmetry; apply key3_rot|exact D2].
  - rewrite (cr_rot X Y (t3 t) (t1 t) (t2 t)). apply W; [apply key3_rot|exact D3].
Qed.
End Cover.

(** ** The specification in terms of the index geometry *)
Section Spec.
Context (pts : list (point NumR)) (nv : Z) (Hlen : Z.of_nat (length pts) = nv + 3).
Notation X := (PX pts). Notation Y := (PY pts).

Lemma turn_cr a b c : turn (pt pts a) (pt pts b) (xof (pt pts c)) (yof (pt pts c)) = cr X Y a b c.
Proof. reflexivity. Qed.
Lemma turn_crp a b x y : turn (pt pts a) (pt pts b) x y = crp X Y a b x y.
Proof. reflexivity. Qed.
Lemma sqdist_pw ox oy a k : (sqdist ox oy (pt pts k) - sqdist ox oy (pt pts a) = pw X Y ox oy a k)%R.
Proof. reflexivity. Qed.

Lemma centre_exists a b c : cr X Y a b c <> 0%R ->
  exists ox oy, pw X Y ox oy a b = 0%R /\ pw X Y ox oy a c = 0%R.
Proof.
  intros N. destruct (circle_of X Y a b c N) as (u & v & w & E).
  exists (- u / 2)%R, (- v / 2)%R.
  assert (Z0 : forall d, d = a \/ d = b \/ d = c -> (X d * X d + Y d * Y d + u * X d + v * Y d + w = 0)%R).
  { intros d Hd. assert (Gz : G X Y a b c d = 0%R).
    { unfold G. rewrite icd_3_eq; [ring|]. destruct Hd as [ -> | [ -> | -> ] ]; auto. }
    specialize (E d). rewrite Gz in E.
    apply Rmult_integral in E. destruct E as [E|E]; [|exact E].
    apply Rmult_integral in E. tauto. }
  assert (Za := Z0 a ltac:(auto)). assert (Zb := Z0 b ltac:(auto)). assert (Zc := Z0 c ltac:(auto)).
  unfold pw. split; lra.
Qed.

Lemma gp_spec : in_general_position pts ->
  general_position X Y (PU nv) /\
  (forall j k, PU nv j -> PU nv k -> (Y j = Y k \/ 1 / 1000000 <= Rabs (Y j - Y k))%R).
Proof.
  intros (H3 & H4 & HE).
  assert (IX : forall k, PU nv k -> index pts k) by (unfold PU, index; intros; lia).
  assert (C3 : forall a b c, PU nv a -> PU nv b -> PU nv c -> a <> b -> b <> c -> a <> c -> cr X Y a b c <> 0%R).
  { intros a b c Ha Hb Hc N1 N2 N3 E. apply (H3 a b c); auto. }
  split; [split; [exact C3|]|].
  - intros a b c d Ha Hb Hc Hd N1 N2 N3 N4 N5 N6 E.
    destruct (centre_exists a b c) as (ox & oy & P1 & P2); [apply C3; auto|].
    apply (H4 a b c d) with (ox := ox) (oy := oy); auto.
    + rewrite <- sqdist_pw in P1. lra.
    + rewrite <- sqdist_pw in P2. lra.
    + assert (P3 := pw_icd X Y ox oy a b c d P1 P2). rewrite E in P3.
      apply Rmult_integral in P3. destruct P3 as [P3|P3]; [|exfalso; revert P3; apply C3; auto].
      rewrite <- sqdist_pw in P3. lra.
  - intros j k Hj Hk. apply HE; auto.
Qed.

Lemma empty_spec (GP : general_position X Y (PU nv)) n a b c :
  Z.of_nat n = nv -> PU nv a -> PU nv b -> PU nv c -> a <> b -> b <> c -> a <> c ->
  (empty_circle pts a b c <-> Del X Y (fun k => In k (vlist nv n)) a b c).
Proof.
  intros Hn Ha Hb Hc N1 N2 N3.
  assert (IX : forall k, PU nv k <-> index pts k) by (unfold PU, index; intros; lia).
  assert (IV : forall k, PU nv k <-> In k (vlist nv n)).
  { intros k. rewrite (in_vlist pts nv ltac:(lia)). unfold PU. lia. }
  assert (N0 : cr X Y a b c <> 0%R) by (apply (gp_cr X Y _ GP); auto).
  destruct (centre_exists a b c N0) as (ox & oy & P1 & P2). split.
  - intros H. repeat split; auto; try (apply IV; assumption).
    intros d Hd Na Nb Nc. apply IV in Hd.
    rewrite (pw_G X Y ox oy a b c d P1 P2). apply Rmult_lt_0_compat; [nra|].
    rewrite <- sqdist_pw. assert (K := H ox oy). rewrite <- sqdist_pw in P1, P2.
    specialize (K ltac:(lra) ltac:(lra) d (proj1 (IX d) Hd) Na Nb Nc). lra.
  - intros (_ & _ & _ & _ & _ & _ & H) ox' oy' Q1 Q2 k Hk Na Nb Nc.
    assert (P1' : pw X Y ox' oy' a b = 0%R) by (rewrite <- sqdist_pw; lra).
    assert (P2' : pw X Y ox' oy' a c = 0%R) by (rewrite <- sqdist_pw; lra).
    assert (K := H k (proj1 (IV k) (proj2 (IX k) Hk)) Na Nb Nc).
    rewrite (pw_G X Y ox' oy' a b c k P1' P2') in K. rewrite <- sqdist_pw in K.
    assert (0 < cr X Y a b c * cr X Y a b c)%R by nra.
    set (m := (cr X Y a b c * cr X Y a b c)%R) in *. set (z := (sqdist ox' oy' (pt pts k) - sqdist ox' oy' (pt pts a))%R) in *.
    assert (0 < z)%R; [|unfold z in *; lra]. nra.
Qed.
End Spec.

(** ** The frame *)
Lemma super_frame p0 rest s0 s1 s2 : super_vertices NumR p0 rest = (s0, s1, s2) -> frame (p0 :: rest) s0 s1 s2.
Proof.
  unfold super_vertices.
  destruct (bbox_R rest (px p0) (px p0) (py p0) (py p0) (Rle_refl _) (Rle_refl _))
    as (x0 & x1 & y0 & y1 & E & L1 & L2 & L3 & L4 & Hin & K1 & K2 & K3 & K4).
  match goal with |- context [fold_left (bbox_step NumR) rest ?b] =>
    replace (fold_left (bbox_step NumR) rest b) with (x0, x1, y0, y1) by (symmetry; exact E) end.
  cbn [flt fadd fsub fmul fdiv fZ NumR]. unfold two. cbn [fZ NumR]. intros H. injection H as <- <- <-.
  exists x0, x1, y0, y1. unfold X, Y in *. split.
  - split; [|split; [|split; [|split]]].
    + intros p [ <- |Hp]; [unfold xof, yof; split; split; assumption|apply Hin, Hp].
    + destruct K1 as [ -> |(p & Hp & Ep)]; [exists p0|exists p]; split; cbn; auto.
    + destruct K2 as [ -> |(p & Hp & Ep)]; [exists p0|exists p]; split; cbn; auto.
    + destruct K3 as [ -> |(p & Hp & Ep)]; [exists p0|exists p]; split; cbn; auto.
    + destruct K4 as [ -> |(p & Hp & Ep)]; [exists p0|exists p]; split; cbn; auto.
  - cbv zeta.
    assert (Em : (if Rlt_bool (y1 - y0) (x1 - x0) then (x1 - x0)%R else (y1 - y0)%R) = Rmax (x1 - x0) (y1 - y0)).
    { destruct (Rlt_bool_spec (y1 - y0) (x1 - x0)) as [H|H]; unfold Rmax; destruct (Rle_dec (x1 - x0) (y1 - y0)); lra. }
    rewrite Em. auto.
Qed.

Lemma frame_unique ps s0 s1 s2 s0' s1' s2' : frame ps s0 s1 s2 -> frame ps s0' s1' s2' -> s0 = s0' /\ s1 = s1' /\ s2 = s2'.
Proof.
  intros (a & b & c & d & (H & (p1 & I1 & E1) & (p2 & I2 & E2) & (p3 & I3 & E3) & (p4 & I4 & E4)) & S0 & S1 & S2)
         (a' & b' & c' & d' & (H' & (p1' & I1' & E1') & (p2' & I2' & E2') & (p3' & I3' & E3') & (p4' & I4' & E4')) & S0' & S1' & S2').
  assert (Ea : a = a') by (assert (K := H p1' I1'); assert (K' := H' p1 I1); lra).
  assert (Eb : b = b') by (assert (K := H p2' I2'); assert (K' := H' p2 I2); lra).
  assert (Ec : c = c') by (assert (K := H p3' I3'); assert (K' := H' p3 I3); lra).
  assert (Ed : d = d') by (assert (K := H p4' I4'); assert (K' := H' p4 I4); lra).
  rewrite S0, S1, S2, S0', S1', S2', Ea, Eb, Ec, Ed. auto.
Qed.

(** Every point of the bounding box is a convex combination of the frame. *)
Lemma frame_hull ps s0 s1 s2 xmin xmax ymin ymax x y :
  bounding_box ps xmin xmax ymin ymax ->
  (let d := Rmax (xmax - xmin) (ymax - ymin) in
    let xm := (xmax + xmin) / 2 in let ym := (ymax + ymin) / 2 in
    s0 = @Pt NumR (xm - 20 * d) (ym - d) /\ s1 = @Pt NumR xm (ym + 20 * d) /\ s2 = @Pt NumR (xm + 20 * d) (ym - d))%R ->
  (xmin <= x <= xmax)%R -> (ymin <= y <= ymax)%R ->
  exists l0 l1 l2, (0 <= l0 /\ 0 <= l1 /\ 0 <= l2 /\ l0 + l1 + l2 = 1 /\
    x = l0 * xof s0 + l1 * xof s1 + l2 * xof s2 /\ y = l0 * yof s0 + l1 * yof s1 + l2 * yof s2)%R.
Proof.
  intros _ H Hx Hy. cbv zeta in H. set (d := Rmax (xmax - xmin) (ymax - ymin)) in *.
  assert (D1 : (xmax - xmin <= d)%R) by apply Rmax_l. assert (D2 : (ymax - ymin <= d)%R) by apply Rmax_r.
  clearbody d. destruct H as (-> & -> & ->). unfold xof, yof. cbn [px py].
  set (xm := ((xmax + xmin) / 2)%R) in *. set (ym := ((ymax + ymin) / 2)%R) in *.
  destruct (Req_dec d 0) as [Z0|Z0].
  - exists (1/3)%R, (1/3)%R, (1/3)%R. rewrite Z0 in *. unfold xm, ym. repeat split; lra.
  - assert (Dp : (0 < d)%R) by lra.
    set (u := ((x - xm) / d)%R). set (v := ((y - ym) / d)%R).
    assert (Ex : (x = xm + u * d)%R) by (unfold u; field; lra).
    assert (Ey : (y = ym + v * d)%R) by (unfold v; field; lra).
    assert (Hu : (-1/2 <= u <= 1/2)%R).
    { assert (T1 : (- (d / 2) <= x - xm)%R) by (unfold xm; lra). assert (T2 : (x - xm <= d / 2)%R) by (unfold xm; lra).
      rewrite Ex in T1, T2. split; nra. }
    assert (Hv : (-1/2 <= v <= 1/2)%R).
    { assert (T1 : (- (d / 2) <= y - ym)%R) by (unfold ym; lra). assert (T2 : (y - ym <= d / 2)%R) by (unfold ym; lra).
      rewrite Ey in T1, T2. split; nra. }
    clearbody u v. exists (((20 - v) / 21 - u / 20) / 2)%R, ((v + 1) / 21)%R, (((20 - v) / 21 + u / 20) / 2)%R.
    split; [lra|]. split; [lra|]. split; [lra|]. split; [lra|]. rewrite Ex, Ey. split; field.
Qed.
