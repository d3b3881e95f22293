(** C38, C67 (exact arithmetic), C103: the triangulation is a Delaunay triangulation. *)
From Verif Require Import Base Num M_Linalg M_Helper M_Alignment P_Alignment P_AlignR S_Alignment S_Delaunay.
From Verif Require Import P_DelaunayEx P_DelaunayGeo P_DelaunayTag P_DelaunayStep P_DelaunayAlg P_DelaunayCover P_AlignState P_AlignState2 P_AlignWitness Properties_Alignment.
From Coq Require Import Permutation Reals Lra Psatz Sorted.
From Flocq Require Import Core.
Local Open Scope Z_scope.

Lemma key_same t a b c : key t = key3 a b c -> same_vertices t a b c.
Proof.
  intros K k. apply key3_perm in K.
  destruct K as [(-> & -> & ->)|[(-> & -> & ->)|[(-> & -> & ->)|[(-> & -> & ->)|[(-> & -> & ->)|(-> & -> & ->)]]]]]; tauto.
Qed.
Lemma same_key t a b c : distinct t -> a <> b -> b <> c -> a <> c -> same_vertices t a b c -> key t = key3 a b c.
Proof.
  intros (D1 & D2 & D3) N1 N2 N3 S.
  assert (Sa := proj2 (S a) (or_introl eq_refl)). assert (Sb := proj2 (S b) (or_intror (or_introl eq_refl))).
  assert (Sc := proj2 (S c) (or_intror (or_intror eq_refl))).
  assert (T1 := proj1 (S (t1 t)) (or_introl eq_refl)). clear S.
  destruct t as [a' b' c']. cbn [t1 t2 t3] in *. unfold key, key3. cbn [t1 t2 t3].
  assert (P : (a = a' /\ b = b' /\ c = c') \/ (a = a' /\ b = c' /\ c = b') \/
     (a = b' /\ b = a' /\ c = c') \/ (a = b' /\ b = c' /\ c = a') \/
     (a = c' /\ b = a' /\ c = b') \/ (a = c' /\ b = b' /\ c = a')).
  { destruct Sa as [Sa|[Sa|Sa]], Sb as [Sb|[Sb|Sb]], Sc as [Sc|[Sc|Sc]]; subst; try congruence; tauto. }
  destruct P as [(-> & -> & ->)|[(-> & -> & ->)|[(-> & -> & ->)|[(-> & -> & ->)|[(-> & -> & ->)|(-> & -> & ->)]]]]];
    (apply (f_equal2 pair); [apply (f_equal2 pair)|]); lia.
Qed.

(** There is at least one Delaunay triangle (on an edge of the frame). *)
Lemma exists_Del pts nv (Hlen : Z.of_nat (length pts) = nv + 3) (Hnv : 0 <= nv)
  (GP : general_position (PX pts) (PY pts) (PU nv))
  (HULL : forall i a b, 0 <= i < nv -> (0 < cr (PX pts) (PY pts) a b i)%R ->
     exists k, nv <= k < nv + 3 /\ (0 < cr (PX pts) (PY pts) a b k)%R) n :
  Z.of_nat n <= nv -> exists a b c, Del (PX pts) (PY pts) (fun k => In k (vlist nv n)) a b c.
Proof.
  intros Hn. set (X := PX pts) in *. set (Y := PY pts) in *.
  assert (IV : forall k, In k (vlist nv n) <-> 0 <= k < Z.of_nat n \/ nv <= k < nv + 3).
  { intros k. apply (in_vlist pts nv Hnv). }
  assert (HU : forall k, In k (vlist nv n) -> PU nv k) by (intros k Hk; apply IV in Hk; unfold PU; lia).
  assert (Main : forall a b c, (a = nv /\ b = nv + 1 \/ a = nv + 1 /\ b = nv) -> c = nv + 2 -> (0 < cr X Y a b c)%R ->
     exists d, Del X Y (fun k => In k (vlist nv n)) a b d).
  { intros a b c Hab Hc Pc.
    assert (Left : forall e, In e (vlist nv n) -> e <> a -> e <> b -> (0 < cr X Y a b e)%R).
    { intros e He Na Nb. assert (N : cr X Y a b e <> 0%R).
      { apply (gp_cr X Y (PU nv) GP); auto; unfold PU; lia. }
      destruct (Rlt_dec 0 (cr X Y a b e)) as [T|T]; [exact T|exfalso].
      assert (T' : (0 < cr X Y b a e)%R) by (rewrite cr_swap; lra).
      assert (Ei : 0 <= e < nv).
      { apply IV in He. destruct He as [He|He]; [lia|]. assert (e = nv + 2) by lia. subst e c. contradiction. }
      destruct (HULL e b a Ei T') as (k & Hk & Pk).
      rewrite cr_swap in Pk. assert (Hk3 : k = a \/ k = b \/ k = c) by lia.
      destruct Hk3 as [ -> | [ -> | -> ] ]; [| |lra]; unfold cr in Pk; lra. }
    destruct (argmin (mu X Y a b) (fun e => 0 < cr X Y a b e)%R (fun e => Rlt_dec 0 (cr X Y a b e)) (vlist nv n)) as (d & Hd & Pd & Hm).
    { exists c. split; [apply IV; lia|exact Pc]. }
    exists d. apply (mk_left X Y (PU nv) GP (vlist nv n) HU); auto; try (apply IV; lia); try lia.
    intros e He Na Nb. split; [auto|]. intros T. specialize (Left e He Na Nb). lra. }
  assert (N : cr X Y nv (nv + 1) (nv + 2) <> 0%R) by (apply (gp_cr X Y (PU nv) GP); unfold PU; lia).
  destruct (Rlt_dec 0 (cr X Y nv (nv + 1) (nv + 2))) as [T|T].
  - destruct (Main nv (nv + 1) (nv + 2)) as (d & D); auto. eauto.
  - destruct (Main (nv + 1) nv (nv + 2)) as (d & D); auto; [rewrite cr_swap; lra|]. eauto.
Qed.

(** Everything the run of the triangulation establishes. *)
Lemma triangulate_R junk (ps : list (point NumR)) s0 s1 s2 :
  (1 <= length ps <= 64)%nat -> ascending ps -> frame ps s0 s1 s2 ->
  in_general_position (ps ++ [s0; s1; s2]) ->
  let pts := ps ++ [s0; s1; s2] in let nv := Z.of_nat (length ps) in
  general_position (PX pts) (PY pts) (PU nv) /\
  (forall a b x y, (exists xmin xmax ymin ymax, bounding_box ps xmin xmax ymin ymax /\ (xmin <= x <= xmax)%R /\ (ymin <= y <= ymax)%R) ->
     (0 < crp (PX pts) (PY pts) a b x y)%R ->
     exists k, nv <= k < nv + 3 /\ (0 < cr (PX pts) (PY pts) a b k)%R) /\
  exists ts l, triangulate NumR junk ps = Ok (ts, (s0, s1, s2)) /\
    Inv (PX pts) (PY pts) (vlist nv (length ps)) l /\ l <> [] /\
    Permutation ts (filter (fun t => negb ((nv <=? t1 t) || (nv <=? t2 t) || (nv <=? t3 t))) l).
Proof.
  intros Hn Hs Hf HG pts nv.
  assert (Epts : pts = ps ++ [s0; s1; s2]) by reflexivity. assert (Env : nv = Z.of_nat (length ps)) by reflexivity.
  rewrite <- Epts in HG. clearbody pts nv.
  assert (Hlen : Z.of_nat (length pts) = nv + 3) by (rewrite Epts, app_length; cbn [length]; lia).
  destruct (gp_spec pts nv Hlen HG) as [GP EPS]. split; [exact GP|].
  assert (Hat : forall k, 0 <= k < nv -> at_ pts k = pt ps k).
  { intros k Hk. unfold at_, pt. rewrite Epts, app_nth1 by lia. reflexivity. }
  assert (A0 : at_ pts nv = s0 /\ at_ pts (nv + 1) = s1 /\ at_ pts (nv + 2) = s2).
  { unfold at_. rewrite Epts, Env. split; [|split].
    - rewrite app_nth2 by lia. replace (Z.to_nat (Z.of_nat (length ps)) - length ps)%nat with 0%nat by lia. reflexivity.
    - rewrite app_nth2 by lia. replace (Z.to_nat (Z.of_nat (length ps) + 1) - length ps)%nat with 1%nat by lia. reflexivity.
    - rewrite app_nth2 by lia. replace (Z.to_nat (Z.of_nat (length ps) + 2) - length ps)%nat with 2%nat by lia. reflexivity. }
  destruct A0 as (A0 & A1 & A2).
  assert (Hull : forall a b x y, (exists xmin xmax ymin ymax, bounding_box ps xmin xmax ymin ymax /\ (xmin <= x <= xmax)%R /\ (ymin <= y <= ymax)%R) ->
     (0 < crp (PX pts) (PY pts) a b x y)%R ->
     exists k, nv <= k < nv + 3 /\ (0 < cr (PX pts) (PY pts) a b k)%R).
  { intros a b x y (xmin & xmax & ymin & ymax & BB & Hx & Hy) Hc.
    destruct Hf as (xmin' & xmax' & ymin' & ymax' & BB' & HS).
    assert (Q1 : (xmin' <= xmin)%R /\ (xmax <= xmax')%R /\ (ymin' <= ymin)%R /\ (ymax <= ymax')%R).
    { destruct BB as (_ & (q1 & I1 & E1) & (q2 & I2 & E2) & (q3 & I3 & E3) & (q4 & I4 & E4)).
      destruct BB' as (H' & _). assert (K1 := H' _ I1). assert (K2 := H' _ I2).
      assert (K3 := H' _ I3). assert (K4 := H' _ I4). lra. }
    destruct (frame_hull ps s0 s1 s2 xmin' xmax' ymin' ymax' x y BB' HS ltac:(lra) ltac:(lra))
      as (l0 & l1 & l2 & P0 & P1 & P2 & PS & Ex & Ey).
    set (c0 := cr (PX pts) (PY pts) a b nv). set (c1 := cr (PX pts) (PY pts) a b (nv + 1)).
    set (c2 := cr (PX pts) (PY pts) a b (nv + 2)).
    assert (E : crp (PX pts) (PY pts) a b x y = (l0 * c0 + l1 * c1 + l2 * c2)%R).
    { unfold c0, c1, c2, cr, crp. unfold PX at 4 6 8, PY at 4 6 8. 
      assert (X0 : PX pts nv = xof s0) by (unfold PX; rewrite A0; reflexivity).
      assert (X1 : PX pts (nv + 1) = xof s1) by (unfold PX; rewrite A1; reflexivity).
      assert (X2 : PX pts (nv + 2) = xof s2) by (unfold PX; rewrite A2; reflexivity).
      assert (Y0 : PY pts nv = yof s0) by (unfold PY; rewrite A0; reflexivity).
      assert (Y1 : PY pts (nv + 1) = yof s1) by (unfold PY; rewrite A1; reflexivity).
      assert (Y2 : PY pts (nv + 2) = yof s2) by (unfold PY; rewrite A2; reflexivity).
      fold (PX pts nv) (PX pts (nv + 1)) (PX pts (nv + 2)) (PY pts nv) (PY pts (nv + 1)) (PY pts (nv + 2)).
      fold (PX pts a) (PY pts a) (PX pts b) (PY pts b).
      rewrite X0, X1, X2, Y0, Y1, Y2, Ex, Ey. replace l0 with (1 - l1 - l2)%R by lra. ring. }
    rewrite E in Hc.
    destruct (Rlt_dec 0 c0) as [T0|T0]; [exists nv; split; [lia|exact T0]|].
    destruct (Rlt_dec 0 c1) as [T1|T1]; [exists (nv + 1); split; [lia|exact T1]|].
    destruct (Rlt_dec 0 c2) as [T2|T2]; [exists (nv + 2); split; [lia|exact T2]|].
    exfalso. clearbody c0 c1 c2. clear - Hc T0 T1 T2 P0 P1 P2. nra. }
  split; [exact Hull|].
  assert (SORT : forall j k, 0 <= j <= k -> k < nv -> (PX pts j <= PX pts k)%R).
  { intros j k Hj Hk. unfold PX. rewrite !Hat by lia. apply (Hs j k); lia. }
  assert (HULL : forall i a b, 0 <= i < nv -> (0 < cr (PX pts) (PY pts) a b i)%R ->
     exists k, nv <= k < nv + 3 /\ (0 < cr (PX pts) (PY pts) a b k)%R).
  { intros i a b Hi Hc. apply (Hull a b (PX pts i) (PY pts i)); [|exact Hc].
    destruct Hf as (xmin & xmax & ymin & ymax & BB & _). exists xmin, xmax, ymin, ymax. split; [exact BB|].
    destruct BB as (HB & _). unfold PX, PY. rewrite (Hat i Hi). apply (HB (pt ps i)).
    unfold pt. apply nth_In. lia. }
  unfold triangulate, triangulate_cap. destruct ps as [|p0 rest] eqn:Eps; [cbn in Hn; lia|]. rewrite <- Eps in *.
  destruct (super_vertices NumR p0 rest) as [[u0 u1] u2] eqn:Es.
  assert (Fs := super_frame p0 rest u0 u1 u2 Es). rewrite <- Eps in Fs.
  destruct (frame_unique ps s0 s1 s2 u0 u1 u2 Hf Fs) as (<- & <- & <-).
  rewrite <- Epts, <- Env.
  destruct (add_points_R pts nv Hlen ltac:(lia) GP EPS SORT HULL (real_cap nv) (length ps) 0 junk 200
    [(Tri nv (nv + 1) (nv + 2), false)]) as (c' & m' & l' & E & HA).
  - lia.
  - lia.
  - apply AInv_init; [exact Hlen | lia | exact GP | reflexivity] || (apply AInv_init; auto).
  - unfold real_cap, MAX_ALIGNMENT_POINTS. lia.
  - unfold zseq. rewrite E. cbn [bind].
    destruct (drop_R pts nv (map fst l')) as (ts & Ed & Hp) || destruct (drop_R nv (map fst l')) as (ts & Ed & Hp).
    rewrite Ed. cbn [bind]. exists ts, (map fst l'). split; [reflexivity|].
    destruct HA as (HI & _). cbn [Nat.add] in HI. split; [exact HI|]. split; [|exact Hp].
    destruct (exists_Del pts nv Hlen ltac:(lia) GP HULL (length ps) ltac:(lia)) as (a & b & c & D).
    destruct HI as (_ & I2 & _). destruct (I2 a b c D) as (t & Ht & _). intros Hnil. rewrite Hnil in Ht. contradiction.
Qed.

Lemma interior_inside pts a b c x y : strictly_in pts a b c x y -> inside (PX pts) (PY pts) a b c x y.
Proof.
  unfold strictly_in. cbv zeta. rewrite !turn_crp. intros H.
  assert (E : cr (PX pts) (PY pts) a b c =
     (crp (PX pts) (PY pts) a b x y + crp (PX pts) (PY pts) b c x y + crp (PX pts) (PY pts) c a x y)%R)
    by (unfold cr, crp; ring).
  unfold inside. rewrite E. set (u := crp _ _ a b x y) in *. set (v := crp _ _ b c x y) in *. set (w := crp _ _ c a x y) in *.
  destruct H as [(H1 & H2 & H3)|(H1 & H2 & H3)].
  - repeat split; apply Rmult_lt_0_compat; lra.
  - assert (K : forall r, (r < 0 -> 0 < (u + v + w) * r)%R) by (intros r Hr; nra). repeat split; apply K; assumption.
Qed.

(** ** C38: the triangulation is a Delaunay triangulation *)
(** Exact arithmetic: for every set of up to 64 points sorted by azimuth which, together with the three
    frame points, is in general position, the triangulation succeeds and is exactly the set of triples of
    stored points whose circumcircle contains no other stored or frame point; the triangles do not overlap. *)
Theorem C38_delaunay : forall junk (ps : list (point NumR)) s0 s1 s2,
  (1 <= length ps <= 64)%nat -> ascending ps -> frame ps s0 s1 s2 ->
  in_general_position (ps ++ [s0; s1; s2]) ->
  exists ts, triangulate NumR junk ps = Ok (ts, (s0, s1, s2)) /\ delaunay (ps ++ [s0; s1; s2]) (length ps) ts.
Proof.
  intros junk ps s0 s1 s2 Hn Hs Hf HG.
  destruct (triangulate_R junk ps s0 s1 s2 Hn Hs Hf HG) as (GP & _ & ts & l & E & HI & _ & HP).
  set (pts := ps ++ [s0; s1; s2]) in *. set (nv := Z.of_nat (length ps)) in *.
  assert (Hlen : Z.of_nat (length pts) = nv + 3) by (unfold pts, nv; rewrite app_length; cbn [length]; lia).
  assert (Hnv : 0 <= nv) by (unfold nv; lia).
  assert (Etn : Z.to_nat nv = length ps) by (unfold nv; lia).
  destruct (drop_Inv pts nv Hnv l ts) as (D1 & D2 & D3); [rewrite Etn; exact HI|exact HP|]. rewrite Etn in D1, D2.
  exists ts. split; [exact E|]. split; [|split].
  - intros t Ht. destruct (D1 t Ht) as (D & B1 & B2 & B3).
    assert (Dd := D). destruct Dd as (_ & _ & _ & N1 & N2 & N3 & _).
    split; [split; [auto|auto]|].
    apply (empty_spec pts nv Hlen GP (length ps)); auto; try (unfold PU; lia).
  - intros a b c ((Ha & Hb & Hc) & N1 & N2 & N3) HE.
    destruct (D2 a b c) as (t & Ht & K); [unfold nv; lia|unfold nv; lia|unfold nv; lia| |].
    + apply (empty_spec pts nv Hlen GP (length ps)); auto; unfold PU, nv; lia.
    + exists t. split; [exact Ht|]. apply key_same, K.
  - intros i j t t' Hi Hj Hij x y (I & I'). apply interior_inside in I, I'.
    assert (Ht := nth_error_In _ _ Hi). assert (Ht' := nth_error_In _ _ Hj).
    destruct (D1 t Ht) as (D & _). destruct (D1 t' Ht') as (D' & _).
    assert (HU : forall k, In k (vlist nv (length ps)) -> PU nv k).
    { intros k Hk. apply (in_vlist pts nv Hnv) in Hk. unfold PU. unfold nv in *. lia. }
    assert (S := Del_disjoint (PX pts) (PY pts) (PU nv) GP _ _ _ _ _ _ _ x y HU D D' I I').
    assert (Hk : key t = key t').
    { destruct D' as (_ & _ & _ & M1 & M2 & M3 & _).
      apply same_key; auto. apply (DelT_distinct (PX pts) (PY pts) (vlist nv (length ps))). exact D. }
    apply Hij. apply (map_nth_error key) in Hi, Hj.
    apply (proj1 (NoDup_nth_error (map key ts)) D3).
    + apply nth_error_Some. rewrite Hi. discriminate.
    + rewrite Hi, Hj, Hk. reflexivity.
Qed.
Print Assumptions C38_delaunay.

(** The same for the object: whatever was done before, a triangulation of the stored points. *)
Theorem C38_object_delaunay : forall qsort x j ops a s0 s1 s2, sorting NumR qsort ->
  reaches NumR qsort x j ops a -> stored a <> [] ->
  frame (map actual (stored a)) s0 s1 s2 ->
  in_general_position (map actual (stored a) ++ [s0; s1; s2]) ->
  exists a', TriangulateActual NumR (Ok x) (Some j) a = Ok a' /\ stored a' = stored a /\
    delaunay (map actual (stored a) ++ [s0; s1; s2]) (length (stored a)) (tris a').
Proof.
  intros qsort x j ops a s0 s1 s2 Hq Hr Hne Hf HG.
  assert (HW : WF NumR a).
  { eapply run_WF; [apply Hq|apply WF_init|exact Hr]. }
  assert (HS : StronglySorted (by_azimuth NumR) (stored a)).
  { eapply history_sorted; [exact Hq|apply weak_order_R|apply WF_init| |exact Hr]. constructor. }
  assert (Hasc : ascending (map actual (stored a))).
  { intros p q Hpq Hlt. rewrite map_length in Hlt.
    unfold pt. set (z := @Pt NumR 0%R 0%R).
    change z with (actual (VP z z)). rewrite !map_nth.
    assert (Gen : forall m (i k : nat), StronglySorted (by_azimuth NumR) m -> (i <= k < length m)%nat ->
       (xof (actual (nth i m (VP z z))) <= xof (actual (nth k m (VP z z))))%R).
    { induction m as [|v m IH]; intros i k SS Hik; [cbn in Hik; lia|]. inversion SS as [|? ? SS' Hv]; subst.
      destruct i as [|i], k as [|k]; cbn [nth length] in *; try lia.
      - apply Rle_refl.
      - rewrite Forall_forall in Hv. assert (K : by_azimuth NumR v (nth k m (VP z z))) by (apply Hv, nth_In; lia).
        unfold by_azimuth in K. cbn [flt NumR] in K. apply Rlt_bool_niff in K. exact K.
      - apply IH; [exact SS'|lia]. }
    apply Gen; [exact HS|lia]. }
  assert (Hl : length (stored a) = Z.to_nat (numVertices a)) by (apply stored_length, HW).
  assert (Hn : (1 <= length (map actual (stored a)) <= 64)%nat).
  { rewrite map_length. destruct (stored a); [contradiction|]. destruct HW as (Hw & _). cbn [length] in *. lia. }
  destruct (C38_delaunay (Some j) _ s0 s1 s2 Hn Hasc Hf HG) as (ts & E & HD). rewrite map_length in HD.
  destruct (triangulate_actual NumR x j a HW) as [(a' & Ea & _ & _ & Es & H & _)|(_ & Eub & _)]; [|congruence].
  exists a'. split; [exact Ea|]. split; [exact Es|].
  destruct H as (_ & u0 & u1 & u2 & Et & _); [destruct (stored a); [contradiction|cbn [length] in Hl; lia]|].
  rewrite E in Et. injection Et as <- _. exact HD.
Qed.
Print Assumptions C38_object_delaunay.

(** ** C67 in exact arithmetic and general position: the arrays are large enough. *)
Theorem C67_general_position_fits_partial : forall junk (ps : list (point NumR)) s0 s1 s2,
  (1 <= length ps <= 64)%nat -> ascending ps -> frame ps s0 s1 s2 ->
  in_general_position (ps ++ [s0; s1; s2]) ->
  exists r, triangulate NumR junk ps = Ok r.
Proof. intros. destruct (C38_delaunay junk ps s0 s1 s2) as (ts & E & _); eauto. Qed.
Print Assumptions C67_general_position_fits_partial.

(** ** C103: what the triangles cover *)
(** Every direction inside the bounding box of the stored points lies in one of the triangles or in a
    triangle with an empty circumcircle which has a frame point as a vertex. *)
Theorem C103_covered_unless_frame_triangle : forall junk (ps : list (point NumR)) s0 s1 s2 ts x y xmin xmax ymin ymax,
  (1 <= length ps <= 64)%nat -> ascending ps -> frame ps s0 s1 s2 ->
  in_general_position (ps ++ [s0; s1; s2]) ->
  triangulate NumR junk ps = Ok (ts, (s0, s1, s2)) ->
  bounding_box ps xmin xmax ymin ymax -> (xmin <= x <= xmax)%R -> (ymin <= y <= ymax)%R ->
  (exists t, In t ts /\ covers (ps ++ [s0; s1; s2]) (t1 t) (t2 t) (t3 t) x y) \/
  (exists a b c, triangle_of (length ps + 3) a b c /\ ~ triangle_of (length ps) a b c /\
     empty_circle (ps ++ [s0; s1; s2]) a b c /\ covers (ps ++ [s0; s1; s2]) a b c x y).
Proof.
  intros junk ps s0 s1 s2 ts x y xmin xmax ymin ymax Hn Hs Hf HG Ets BB Hx Hy.
  destruct (triangulate_R junk ps s0 s1 s2 Hn Hs Hf HG) as (GP & Hull & ts' & l & E & HI & Hne & HP).
  rewrite Ets in E. injection E as <-.
  set (pts := ps ++ [s0; s1; s2]) in *. set (nv := Z.of_nat (length ps)) in *.
  assert (Hlen : Z.of_nat (length pts) = nv + 3) by (unfold pts, nv; rewrite app_length; cbn [length]; lia).
  assert (Hnv : 0 <= nv) by (unfold nv; lia).
  assert (HU : forall k, In k (vlist nv (length ps)) -> PU nv k).
  { intros k Hk. apply (in_vlist pts nv Hnv) in Hk. unfold PU. unfold nv in *. lia. }
  destruct (cover_list (PX pts) (PY pts) (PU nv) GP (vlist nv (length ps)) HU l HI Hne x y) as (t & Ht & C1 & C2 & C3).
  { intros a b Hc. destruct (Hull a b x y) as (k & Hk & Pk); [exists xmin, xmax, ymin, ymax; auto|exact Hc|].
    exists k. split; [apply (in_vlist pts nv Hnv); lia|exact Pk]. }
  assert (D := proj1 HI t Ht). assert (Dd := D). destruct Dd as (V1 & V2 & V3 & N1 & N2 & N3 & _).
  assert (U1 := HU _ V1). assert (U2 := HU _ V2). assert (U3 := HU _ V3). unfold PU in U1, U2, U3.
  assert (N0 : cr (PX pts) (PY pts) (t1 t) (t2 t) (t3 t) <> 0%R) by (apply (gp_cr _ _ _ GP); auto).
  assert (CV : covers pts (t1 t) (t2 t) (t3 t) x y).
  { unfold covers. cbv zeta. rewrite !turn_crp. set (k := cr _ _ _ _ _) in *.
    set (u := crp _ _ (t1 t) (t2 t) x y) in *. set (v := crp _ _ (t2 t) (t3 t) x y) in *. set (w := crp _ _ (t3 t) (t1 t) x y) in *.
    destruct (Rlt_dec 0 k) as [K|K]; [left|right].
    - repeat split; nra.
    - assert (k < 0)%R by lra. repeat split; nra. }
  destruct (Z_lt_dec (t1 t) nv) as [L1|L1]; [destruct (Z_lt_dec (t2 t) nv) as [L2|L2]; [destruct (Z_lt_dec (t3 t) nv) as [L3|L3]|]|].
  1:{ left. exists t. split; [|exact CV]. eapply Permutation_in; [symmetry; exact HP|]. apply filter_In.
      split; [exact Ht|]. rewrite negb_true_iff, !orb_false_iff, !Z.leb_gt. auto. }
  all: right; exists (t1 t), (t2 t), (t3 t); (split; [split; [unfold nv in *; lia|auto]|]);
    (split; [intros ((? & ? & ?) & _); unfold nv in *; lia|]); (split; [|exact CV]);
    apply (empty_spec pts nv Hlen GP (length ps)); auto; unfold PU; unfold nv in *; lia.
Qed.
Print Assumptions C103_covered_unless_frame_triangle.

(** A five-point set that meets all hypotheses and has (at least) a triangle. *)
Definition ex_points : list (Z * Z) := [(1100, 2300); (2500, 2600); (3000, 1500); (3200, 2500); (3700, 200)].
Definition ex_frame : list (Z * Z) := [(-49600, -1200); (2400, 53400); (54400, -1200)].
Lemma frame_of_box ps s0 s1 s2 xmin xmax ymin ymax :
  bounding_box ps xmin xmax ymin ymax ->
  (let d := Rmax (xmax - xmin) (ymax - ymin) in
    let xm := (xmax + xmin) / 2 in let ym := (ymax + ymin) / 2 in
    s0 = @Pt NumR (xm - 20 * d) (ym - d) /\ s1 = @Pt NumR xm (ym + 20 * d) /\ s2 = @Pt NumR (xm + 20 * d) (ym - d))%R ->
  frame ps s0 s1 s2.
Proof. intros. exists xmin, xmax, ymin, ymax. auto. Qed.
Example C38_nonvacuous :
  let ps := ptsR ex_points in
  let s0 := toR (-49600, -1200) in let s1 := toR (2400, 53400) in let s2 := toR (54400, -1200) in
  (1 <= length ps <= 64)%nat /\ ascending ps /\ frame ps s0 s1 s2 /\ in_general_position (ps ++ [s0; s1; s2]) /\
  triangle_of (length ps) 0 1 2 /\ empty_circle (ps ++ [s0; s1; s2]) 0 1 2 /\
  triangle_of (length ps) 2 3 4 /\ empty_circle (ps ++ [s0; s1; s2]) 2 3 4.
Proof.
  cbv zeta. change (ptsR ex_points ++ [toR (-49600, -1200); toR (2400, 53400); toR (54400, -1200)])
    with (ptsR (ex_points ++ ex_frame)).
  split; [cbn; lia|]. split.
  { intros a b Ha Hb. change (Z.of_nat (length (ptsR ex_points))) with 5 in Hb.
    assert (Ea : exists i, a = Z.of_nat i /\ (i < 5)%nat) by (exists (Z.to_nat a); lia).
    assert (Eb : exists j, b = Z.of_nat j /\ (j < 5)%nat) by (exists (Z.to_nat b); lia).
    destruct Ea as (i & -> & Hi). destruct Eb as (j & -> & Hj). rewrite !ptR_at by (cbn; lia).
    unfold xof, toR. cbn [px]. apply Rmult_le_compat_r; [lra|]. apply IZR_le.
    destruct i as [|[|[|[|[|i]]]]], j as [|[|[|[|[|j]]]]]; cbn; lia. }
  split.
  { apply (frame_of_box _ _ _ _ 11 37 2 26)%R.
    - split; [|split; [|split; [|split]]].
      + intros p Hp. unfold ptsR, ex_points in Hp. cbn [map In] in Hp. unfold xof, yof.
        repeat (destruct Hp as [ <- |Hp]; [unfold toR; cbn [fst snd px py]; lra|]). contradiction.
      + exists (toR (1100, 2300)). split; [left; reflexivity|unfold toR, xof; cbn [fst snd px py]; lra].
      + exists (toR (3700, 200)). split; [cbn; auto 10|unfold toR, xof; cbn [fst snd px py]; lra].
      + exists (toR (3700, 200)). split; [cbn; auto 10|unfold toR, yof; cbn [fst snd px py]; lra].
      + exists (toR (2500, 2600)). split; [cbn; auto 10|unfold toR, yof; cbn [fst snd px py]; lra].
    - cbv zeta. replace (Rmax (37 - 11) (26 - 2))%R with 26%R by (rewrite Rmax_left; lra).
      unfold toR. cbn [fst snd]. repeat split; f_equal; lra. }
  split; [apply check_gp; vm_compute; reflexivity|].
  split; [unfold triangle_of; cbn; lia|].
  split; [apply (check_empty_spec (ex_points ++ ex_frame) 0 1 2); [cbn; lia|cbn; lia|cbn; lia|vm_compute; reflexivity]|].
  split; [unfold triangle_of; cbn; lia|].
  apply (check_empty_spec (ex_points ++ ex_frame) 2 3 4); [cbn; lia|cbn; lia|cbn; lia|vm_compute; reflexivity].
Qed.

(** The frame is too close for flat point sets: three points spread over 40 degrees of azimuth and
    0.08 degrees of altitude are in general position, yet they get no triangle: a direction strictly
    inside their triangle is not covered. *)
Definition flat_points : list (Z * Z) := [(0, -12); (1800, -6); (4000, -4)].
Definition flat_frame : list (Z * Z) := [(-78000, -4008); (2000, 79992); (82000, -4008)].
Theorem C104_hull_is_covered_refuted :
  exists ps s0 s1 s2 x y, (1 <= length ps <= 64)%nat /\ ascending ps /\ frame ps s0 s1 s2 /\
    in_general_position (ps ++ [s0; s1; s2]) /\ triangle_of (length ps) 0 1 2 /\
    strictly_in (ps ++ [s0; s1; s2]) 0 1 2 x y /\
    forall junk, triangulate NumR junk ps = Ok ([], (s0, s1, s2)).
Proof.
  exists (ptsR flat_points), (toR (-78000, -4008)), (toR (2000, 79992)), (toR (82000, -4008)), 18%R, (-65/1000)%R.
  change (ptsR flat_points ++ [toR (-78000, -4008); toR (2000, 79992); toR (82000, -4008)])
    with (ptsR (flat_points ++ flat_frame)).
  assert (H1 : (1 <= length (ptsR flat_points) <= 64)%nat) by (cbn; lia).
  assert (H2 : ascending (ptsR flat_points)).
  { intros a b Ha Hb. change (Z.of_nat (length (ptsR flat_points))) with 3 in Hb.
    assert (Ea : exists i, a = Z.of_nat i /\ (i < 3)%nat) by (exists (Z.to_nat a); lia).
    assert (Eb : exists j, b = Z.of_nat j /\ (j < 3)%nat) by (exists (Z.to_nat b); lia).
    destruct Ea as (i & -> & Hi). destruct Eb as (j & -> & Hj). rewrite !ptR_at by (cbn; lia).
    unfold xof, toR. cbn [px]. apply Rmult_le_compat_r; [lra|]. apply IZR_le.
    destruct i as [|[|[|i]]], j as [|[|[|j]]]; cbn; lia. }
  assert (H3 : frame (ptsR flat_points) (toR (-78000, -4008)) (toR (2000, 79992)) (toR (82000, -4008))).
  { apply (frame_of_box _ _ _ _ 0 40 (-12/100) (-4/100))%R.
    - split; [|split; [|split; [|split]]].
      + intros p Hp. unfold ptsR, flat_points in Hp. cbn [map In] in Hp. unfold xof, yof.
        repeat (destruct Hp as [ <- |Hp]; [unfold toR; cbn [fst snd px py]; lra|]). contradiction.
      + exists (toR (0, -12)). split; [left; reflexivity|unfold toR, xof; cbn [fst snd px py]; lra].
      + exists (toR (4000, -4)). split; [cbn; auto 10|unfold toR, xof; cbn [fst snd px py]; lra].
      + exists (toR (0, -12)). split; [cbn; auto 10|unfold toR, yof; cbn [fst snd px py]; lra].
      + exists (toR (4000, -4)). split; [cbn; auto 10|unfold toR, yof; cbn [fst snd px py]; lra].
    - cbv zeta. replace (Rmax (40 - 0) (-4 / 100 - -12 / 100))%R with 40%R by (rewrite Rmax_left; lra).
      unfold toR. cbn [fst snd]. repeat split; f_equal; lra. }
  assert (H4 : in_general_position (ptsR (flat_points ++ flat_frame))) by (apply check_gp; vm_compute; reflexivity).
  split; [exact H1|]. split; [exact H2|]. split; [exact H3|]. split; [exact H4|].
  split; [unfold triangle_of; cbn; lia|]. split.
  { right. unfold turn, pt, xof, yof, ptsR, toR.
    change (Z.to_nat 0) with 0%nat. change (Z.to_nat 1) with 1%nat. change (Z.to_nat 2) with 2%nat.
    cbn [flat_points flat_frame app map nth fst snd px py]. lra. }
  intros junk. destruct (C38_delaunay junk _ _ _ _ H1 H2 H3 H4) as (ts & E & D & _).
  rewrite E. destruct ts as [|t ts]; [reflexivity|exfalso].
  destruct (D t (or_introl eq_refl)) as (((T1 & T2 & T3) & N1 & N2 & N3) & HE).
  change (ptsR flat_points ++ [toR (-78000, -4008); toR (2000, 79992); toR (82000, -4008)])
    with (ptsR (flat_points ++ flat_frame)) in HE.
  change (Z.of_nat (length (ptsR flat_points))) with 3 in *.
  set (zs := flat_points ++ flat_frame) in *.
  assert (Hk : forall k : Z, 0 <= k < 3 -> exists i, k = Z.of_nat i /\ (i < 3)%nat) by (intros k Hk; exists (Z.to_nat k); lia).
  destruct (Hk _ T1) as (i & Ei & Hi). destruct (Hk _ T2) as (j & Ej & Hj). destruct (Hk _ T3) as (k & Ek & Hkk).
  rewrite Ei, Ej, Ek in *.
  destruct (centre_exists (ptsR zs) (Z.of_nat i) (Z.of_nat j) (Z.of_nat k)) as (ox & oy & P1 & P2).
  { rewrite cr_at by (cbn; lia). assert (HN : zcr (zpt zs i) (zpt zs j) (zpt zs k) <> 0).
    { clear - Hi Hj Hkk N1 N2 N3. unfold zs.
      destruct i as [|[|[|i]]], j as [|[|[|j]]], k as [|[|[|k]]]; try lia; vm_compute; discriminate. }
    apply not_0_IZR in HN. intros K. apply HN. clear - K. lra. }
  assert (Q1 := P1). assert (Q2 := P2). rewrite <- sqdist_pw in Q1, Q2.
  assert (K := HE ox oy ltac:(lra) ltac:(lra) (Z.of_nat 5)).
  specialize (K ltac:(unfold index; cbn; lia) ltac:(lia) ltac:(lia) ltac:(lia)).
  assert (P := pw_icd (PX (ptsR zs)) (PY (ptsR zs)) ox oy (Z.of_nat i) (Z.of_nat j) (Z.of_nat k) (Z.of_nat 5) P1 P2).
  rewrite <- sqdist_pw, cr_at, icd_at in P by (cbn; lia).
  set (w := (sqdist ox oy (pt (ptsR zs) (Z.of_nat 5)) - sqdist ox oy (pt (ptsR zs) (Z.of_nat i)))%R) in *.
  assert (Kw : (0 < w)%R) by (unfold w; lra). clearbody w.
  assert (HN : zcr (zpt zs i) (zpt zs j) (zpt zs k) * zicd (zpt zs i) (zpt zs j) (zpt zs k) (zpt zs 5) < 0).
  { clear - Hi Hj Hkk N1 N2 N3. unfold zs.
    destruct i as [|[|[|i]]], j as [|[|[|j]]], k as [|[|[|k]]]; try lia; vm_compute; reflexivity. }
  apply IZR_lt in HN. rewrite mult_IZR in HN.
  set (u := IZR (zcr _ _ _)) in *. set (v := IZR (zicd _ _ _ _)) in *. clearbody u v.
  clear - P Kw HN. assert (V : v = (w * u * 10000)%R) by lra. subst v.
  assert (0 <= w * (u * u))%R by (apply Rmult_le_pos; [lra|apply Rle_0_sqr]). lra.
Qed.
Print Assumptions C104_hull_is_covered_refuted.
