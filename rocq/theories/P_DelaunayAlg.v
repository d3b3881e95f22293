(** The model of the triangulation (alignment.cpp:106-337), in exact arithmetic and general position,
    computes all Delaunay triangles. *)
From Verif Require Import Base Num M_Linalg M_Helper M_Alignment P_Alignment P_AlignR.
From Verif Require Import P_DelaunayGeo P_DelaunayTag P_DelaunayStep.
From Coq Require Import Permutation Reals Lra Psatz.
From Flocq Require Import Core.
Local Open Scope Z_scope.

Notation ptR := (point NumR).

(** ** CircumCircle *)
Lemma eps_lt (y y' : R) : (y = y' \/ 1 / 1000000 <= Rabs (y - y'))%R ->
  Rlt_bool (Rabs (y - y')) (1 / 1000000) = true <-> y = y'.
Proof.
  intros H. destruct (Rlt_bool_spec (Rabs (y - y')) (1 / 1000000)) as [K|K].
  - split; [|reflexivity]. intros _. destruct H as [H|H]; [exact H|lra].
  - split; [discriminate|]. intros ->. rewrite Rminus_diag_eq, Rabs_R0 in K by reflexivity. lra.
Qed.

Lemma CircumCircle_R (xp yp x1 y1 x2 y2 x3 y3 : R) :
  ((x2 - x1) * (y3 - y1) - (y2 - y1) * (x3 - x1) <> 0)%R ->
  (y1 = y2 \/ 1 / 1000000 <= Rabs (y1 - y2))%R -> (y2 = y3 \/ 1 / 1000000 <= Rabs (y2 - y3))%R ->
  exists xc yc : R,
    let r2 := ((x2 - xc) * (x2 - xc) + (y2 - yc) * (y2 - yc))%R in
    CircumCircle NumR xp yp x1 y1 x2 y2 x3 y3 =
      (Rle_bool ((xp - xc) * (xp - xc) + (yp - yc) * (yp - yc)) r2, Some (xc, sqrt r2)) /\
    ((x1 - xc) * (x1 - xc) + (y1 - yc) * (y1 - yc) = r2)%R /\
    ((x3 - xc) * (x3 - xc) + (y3 - yc) * (y3 - yc) = r2)%R.
Proof.
  intros N H12 H23. assert (E12 := eps_lt _ _ H12). assert (E23 := eps_lt _ _ H23).
  unfold CircumCircle, EPSILON, two.
  cbn [flt fle fabs fsub fadd fmul fdiv fneg fsqrt fq fZ NumR].
  change (IZR 1 / IZR 1000000)%R with (1 / 1000000)%R.
  rewrite (Rabs_minus_sym y2 y1), (Rabs_minus_sym y3 y2).
  destruct (Rlt_bool (Rabs (y1 - y2)) (1 / 1000000)) eqn:F12;
  destruct (Rlt_bool (Rabs (y2 - y3)) (1 / 1000000)) eqn:F23; cbn [andb].
  - exfalso. apply N. rewrite (proj1 E12 eq_refl), (proj1 E23 eq_refl). ring.
  - assert (y1 = y2) by (apply E12; reflexivity). subst y2.
    assert (K : (y3 - y1 <> 0)%R).
    { intros K. apply (Rminus_diag_uniq) in K. symmetry in K. apply E23 in K. discriminate. }
    eexists _, _. cbv zeta. split; [reflexivity|]. split; field; exact K.
  - assert (y2 = y3) by (apply E23; reflexivity). subst y3.
    assert (K : (y2 - y1 <> 0)%R).
    { intros K. apply (Rminus_diag_uniq) in K. symmetry in K. apply E12 in K. discriminate. }
    eexists _, _. cbv zeta. split; [reflexivity|]. split; field; exact K.
  - assert (K : (y2 - y1 <> 0)%R).
    { intros K. apply (Rminus_diag_uniq) in K. symmetry in K. apply E12 in K. discriminate. }
    assert (K' : (y3 - y2 <> 0)%R).
    { intros K'. apply (Rminus_diag_uniq) in K'. symmetry in K'. apply E23 in K'. discriminate. }
    assert (M : (- (x2 - x1) * (y3 - y2) - - (x3 - x2) * (y2 - y1) <> 0)%R).
    { intros M. apply N. lra. }
    assert (M' : (- (x2 - x1) / (y2 - y1) - - (x3 - x2) / (y3 - y2) <> 0)%R).
    { intros M'. apply M. apply (f_equal (fun z => (z * ((y2 - y1) * (y3 - y2)))%R)) in M'.
      rewrite Rmult_0_l in M'. rewrite <- M'. field. auto. }
    eexists _, _. cbv zeta. split; [reflexivity|]. split; field; repeat split; auto.
Qed.

(** ** The points as functions of the index *)
Section Alg.
Context (pts : list ptR) (nv : Z) (Hlen : Z.of_nat (length pts) = nv + 3) (Hnv : 0 <= nv).
Definition at_ (k : Z) : ptR := nth (Z.to_nat k) pts (@Pt NumR 0%R 0%R).
Definition PX (k : Z) : R := px (at_ k).
Definition PY (k : Z) : R := py (at_ k).
Definition PU (k : Z) : Prop := 0 <= k < nv + 3.
Context (GP : general_position PX PY PU).
Context (EPS : forall j k, PU j -> PU k -> (PY j = PY k \/ 1 / 1000000 <= Rabs (PY j - PY k))%R).
Context (SORT : forall j k, 0 <= j <= k -> k < nv -> (PX j <= PX k)%R).
Context (HULL : forall i a b, 0 <= i < nv -> (0 < cr PX PY a b i)%R ->
   exists k, nv <= k < nv + 3 /\ (0 < cr PX PY a b k)%R).

Lemma rdz_at k : PU k -> rdz pts k = Ok (at_ k).
Proof. intros H. apply rdz_ok. unfold PU in H. lia. Qed.

(** vertices present before point i is added *)
Fixpoint vlist (i : nat) : list Z :=
  match i with O => [nv; nv + 1; nv + 2] | S i => Z.of_nat i :: vlist i end.
Lemma in_vlist i k : In k (vlist i) <-> 0 <= k < Z.of_nat i \/ nv <= k < nv + 3.
Proof.
  induction i as [|i IH]; cbn [vlist In]; [|rewrite IH]; lia.
Qed.
Lemma vlist_U i : Z.of_nat i <= nv -> forall k, In k (vlist i) -> PU k.
Proof. intros H k Hk. apply in_vlist in Hk. unfold PU. lia. Qed.

(** One look at a triangle. *)
Definition flagged (i : nat) (tc : tri * bool) : Prop :=
  snd tc = true -> forall k, Z.of_nat i <= k < nv -> (0 < Gt PX PY (fst tc) k)%R.

Lemma scan_body_R (i : nat) s t c : Z.of_nat i < nv -> DelT PX PY (vlist i) t -> flagged i (t, c) ->
  Z.of_nat (length (sc_edges s)) <= sc_emax s ->
  exists s', 
    Z.of_nat (length (sc_edges s')) <= sc_emax s' /\ sc_emax s <= sc_emax s' /\
    (((0 < Gt PX PY t (Z.of_nat i))%R /\ sc_edges s' = sc_edges s /\ exists c',
       scan_body NumR pts (PX (Z.of_nat i)) (PY (Z.of_nat i)) s (t, c) = Ok (s', Some (t, c')) /\ flagged i (t, c'))
    \/ ((Gt PX PY t (Z.of_nat i) < 0)%R /\ sc_edges s' = sc_edges s ++ edges_of t /\
       scan_body NumR pts (PX (Z.of_nat i)) (PY (Z.of_nat i)) s (t, c) = Ok (s', None))).
Proof.
  intros Hi D Fl Hm. set (q := Z.of_nat i) in *. destruct c.
  - exists s. split; [exact Hm|]. split; [lia|]. left. split; [apply Fl; [reflexivity|lia]|].
    split; [reflexivity|]. exists true. split; [reflexivity|exact Fl].
  - assert (D' := D). destruct D' as (V1 & V2 & V3 & N1 & N2 & N3 & _).
    assert (U1 := vlist_U i ltac:(lia) _ V1). assert (U2 := vlist_U i ltac:(lia) _ V2).
    assert (U3 := vlist_U i ltac:(lia) _ V3). assert (Uq : PU q) by (unfold PU, q; lia).
    assert (Q1 : t1 t <> q) by (apply in_vlist in V1; unfold q; lia).
    assert (Q2 : t2 t <> q) by (apply in_vlist in V2; unfold q; lia).
    assert (Q3 : t3 t <> q) by (apply in_vlist in V3; unfold q; lia).
    assert (N0 : cr PX PY (t1 t) (t2 t) (t3 t) <> 0%R) by (apply (gp_cr PX PY PU GP); auto).
    assert (GN : Gt PX PY t q <> 0%R) by (apply (G_nonzero PX PY PU GP); auto).
    unfold scan_body. rewrite !rdz_at by assumption. cbn [bind].
    destruct (CircumCircle_R (PX q) (PY q) (PX (t1 t)) (PY (t1 t)) (PX (t2 t)) (PY (t2 t)) (PX (t3 t)) (PY (t3 t)))
      as (xc & yc & E & P1 & P3); [exact N0|apply EPS; auto|apply EPS; auto|].
    cbv zeta in *.
    match goal with |- context [CircumCircle NumR ?a ?b ?c ?d ?e ?f ?g ?h] =>
      change (CircumCircle NumR a b c d e f g h) with (CircumCircle NumR (PX q) (PY q) (PX (t1 t)) (PY (t1 t))
        (PX (t2 t)) (PY (t2 t)) (PX (t3 t)) (PY (t3 t))) end.
    rewrite E. clear E. cbn iota.
    set (r2 := ((PX (t2 t) - xc) * (PX (t2 t) - xc) + (PY (t2 t) - yc) * (PY (t2 t) - yc))%R) in *.
    assert (W2 : pw PX PY xc yc (t1 t) (t2 t) = 0%R) by (unfold pw; fold r2; rewrite P1; ring).
    assert (W3 : pw PX PY xc yc (t1 t) (t3 t) = 0%R) by (unfold pw; rewrite P1, P3; ring).
    assert (W : forall k, pw PX PY xc yc (t1 t) k = ((PX k - xc) * (PX k - xc) + (PY k - yc) * (PY k - yc) - r2)%R)
      by (intros k; unfold pw; rewrite P1; reflexivity).
    assert (Sg : forall k, (pw PX PY xc yc (t1 t) k < 0)%R <-> (Gt PX PY t k < 0)%R)
      by (intros k; apply (pw_sign PX PY xc yc (t1 t) (t2 t) (t3 t) k W2 W3 N0)).
    assert (Sz : forall k, (pw PX PY xc yc (t1 t) k = 0)%R <-> (Gt PX PY t k = 0)%R)
      by (intros k; apply (pw_sign PX PY xc yc (t1 t) (t2 t) (t3 t) k W2 W3 N0)).
    assert (Hr2 : (0 <= r2)%R) by (unfold r2; apply Rplus_le_le_0_compat; apply Rle_0_sqr).
    assert (Hsq := sqrt_sqrt r2 Hr2). assert (Hsp := sqrt_pos r2).
    cbn [flt fadd NumR].
    assert (Fl' : flagged i (t, if Rlt_bool (xc + sqrt r2) (PX q) then true else false)).
    { intros Hc k Hk. cbn [fst snd] in *. destruct (Rlt_bool_spec (xc + sqrt r2) (PX q)) as [Hx|Hx]; [|discriminate].
      assert (Hs : (PX q <= PX k)%R) by (apply SORT; unfold q; lia).
      assert (Hp : (0 < pw PX PY xc yc (t1 t) k)%R).
      { rewrite W. assert (sqrt r2 < PX k - xc)%R by lra.
        assert (sqrt r2 * sqrt r2 < (PX k - xc) * (PX k - xc))%R by (apply Rmult_le_0_lt_compat; assumption).
        assert (0 <= (PY k - yc) * (PY k - yc))%R by apply Rle_0_sqr. lra. }
      assert (~ (Gt PX PY t k < 0)%R) by (intros T; apply Sg in T; lra).
      assert (~ (Gt PX PY t k = 0)%R) by (intros T; apply Sz in T; lra). lra. }
    destruct (Rle_bool_spec ((PX q - xc) * (PX q - xc) + (PY q - yc) * (PY q - yc)) r2) as [Hin|Hout].
    + assert (Gn : (Gt PX PY t q < 0)%R).
      { assert (T : (pw PX PY xc yc (t1 t) q <> 0)%R) by (intros T; apply Sz in T; contradiction).
        apply Sg. rewrite W in *. lra. }
      destruct (push3_ok (sc_edges s) (sc_emax s) t Hm) as (em & Ep & Hem & Hmm).
      rewrite Ep. cbn [bind]. eexists. split; [|split; [|right; split; [exact Gn|split; [|reflexivity]]]].
      * cbn [sc_edges sc_emax]. exact Hem.
      * cbn [sc_emax]. exact Hmm.
      * reflexivity.
    + assert (Gp : (0 < Gt PX PY t q)%R).
      { assert (T : ~ (Gt PX PY t q < 0)%R) by (intros T; apply Sg in T; rewrite W in T; lra). lra. }
      eexists. split; [|split; [|left; split; [exact Gp|split; [|eexists; split; [reflexivity|exact Fl']]]]].
      * cbn [sc_edges sc_emax]. exact Hm.
      * cbn [sc_emax]. lia.
      * reflexivity.
Qed.

Lemma visit_R (i : nat) : Z.of_nat i < nv -> forall xs s,
  (forall tc, In tc xs -> DelT PX PY (vlist i) (fst tc) /\ flagged i tc) ->
  Z.of_nat (length (sc_edges s)) <= sc_emax s ->
  exists s' ks B, visit (scan_body NumR pts (PX (Z.of_nat i)) (PY (Z.of_nat i))) s xs = Ok (s', ks) /\
    sc_emax s <= sc_emax s' /\
    sc_edges s' = sc_edges s ++ flat_map edges_of B /\
    Permutation (map fst xs) (map fst ks ++ B) /\
    (forall tc, In tc ks -> flagged i tc /\ (0 < Gt PX PY (fst tc) (Z.of_nat i))%R) /\
    (forall t, In t B -> (Gt PX PY t (Z.of_nat i) < 0)%R).
Proof.
  intros Hi. induction xs as [|[t c] xs IH]; intros s HI Hm.
  - exists s, [], []. cbn [visit]. split; [reflexivity|]. split; [lia|]. split; [cbn; rewrite app_nil_r; reflexivity|].
    split; [constructor|]. split; intros ? [].
  - destruct (HI (t, c) (or_introl eq_refl)) as [D Fl]. cbn [fst] in D.
    destruct (scan_body_R i s t c Hi D Fl Hm) as (s1 & Hm1 & Hmm & Hc).
    destruct (IH s1 (fun tc H => HI tc (or_intror H)) Hm1) as (s' & ks & B & Ev & Hmm' & Ee & Ep & Hk & HB).
    cbn [visit]. destruct Hc as [(Gp & Ee1 & c' & Es & Fl')|(Gn & Ee1 & Es)]; rewrite Es; cbn [bind]; rewrite Ev; cbn [bind].
    + exists s', ((t, c') :: ks), B. split; [reflexivity|]. split; [lia|]. split; [rewrite Ee, Ee1; reflexivity|].
      split; [cbn [map fst app]; constructor; exact Ep|]. split; [|exact HB].
      intros tc [ <- |H]; [split; assumption|apply Hk, H].
    + exists s', ks, (t :: B). split; [reflexivity|]. split; [lia|].
      split; [rewrite Ee, Ee1; cbn [flat_map]; rewrite <- app_assoc; reflexivity|].
      split; [cbn [map fst]; eapply Permutation_trans; [constructor; exact Ep|apply Permutation_middle]|].
      split; [exact Hk|]. intros x [ <- |H]; [exact Gn|apply HB, H].
Qed.

Definition AInv (i : nat) (l : list (tri * bool)) : Prop :=
  Inv PX PY (vlist i) (map fst l) /\ (forall tc, In tc l -> flagged i tc) /\ (length l <= 2 * i + 1)%nat.

Lemma Inv_perm vl l l' : Permutation l l' -> Inv PX PY vl l -> Inv PX PY vl l'.
Proof.
  intros HP (I1 & I2 & I3). split; [|split].
  - intros t Ht. apply I1. eapply Permutation_in; [symmetry; exact HP|exact Ht].
  - intros a b c D. destruct (I2 a b c D) as (t & Ht & K). exists t. split; [|exact K].
    eapply Permutation_in; eauto.
  - eapply Permutation_NoDup; [apply Permutation_map; exact HP|exact I3].
Qed.

Lemma add_point_R cap (i : nat) cc emax l : Z.of_nat i < nv -> 0 <= emax -> AInv i l -> 2 * nv + 1 <= cap ->
  exists cc' emax' l', add_point NumR cap pts (cc, emax, l) (Z.of_nat i) = Ok (cc', emax', l') /\
    0 <= emax' /\ AInv (S i) l'.
Proof.
  intros Hi Hm (HI & HF & HL) Hcap. unfold add_point.
  rewrite rdz_at by (unfold PU; lia). cbn [bind].
  change (px (at_ (Z.of_nat i))) with (PX (Z.of_nat i)). change (py (at_ (Z.of_nat i))) with (PY (Z.of_nat i)).
  destruct (sweep_all_visit (scan_body NumR pts (PX (Z.of_nat i)) (PY (Z.of_nat i))) (@Scan NumR cc [] emax) l)
    as (xs & HP & H).
  assert (HIx : forall tc, In tc xs -> DelT PX PY (vlist i) (fst tc) /\ flagged i tc).
  { intros tc Htc. assert (In tc l) by (eapply Permutation_in; eauto). split; [|apply HF; assumption].
    apply HI. apply in_map. assumption. }
  destruct (visit_R i Hi xs (@Scan NumR cc [] emax) HIx) as (s' & ks & B & Ev & Hmm & Ee & Ep & Hk & HB);
    [cbn; lia|].
  rewrite Ev in H. destruct H as (l1 & Es & Hl1). rewrite Es. cbn [bind]. cbn [sc_edges app] in Ee. rewrite Ee.
  assert (P1 : Permutation (map fst l) (map fst l1 ++ B)).
  { eapply Permutation_trans; [apply Permutation_map; symmetry; exact HP|].
    eapply Permutation_trans; [exact Ep|]. apply Permutation_app_tail. apply Permutation_map. symmetry. exact Hl1. }
  assert (Hk1 : forall tc, In tc l1 -> flagged i tc /\ (0 < Gt PX PY (fst tc) (Z.of_nat i))%R).
  { intros tc Htc. apply Hk. eapply Permutation_in; eauto. }
  assert (Ui : PU (Z.of_nat i)) by (unfold PU; lia).
  assert (Ni : ~ In (Z.of_nat i) (vlist i)) by (rewrite in_vlist; lia).
  assert (Hull : forall a b, (0 < cr PX PY a b (Z.of_nat i))%R -> exists k, In k (vlist i) /\ (0 < cr PX PY a b k)%R).
  { intros a b Hab. destruct (HULL (Z.of_nat i) a b ltac:(lia) Hab) as (k & Hk' & Hc). exists k.
    split; [apply in_vlist; lia|exact Hc]. }
  assert (HZ : forall k, In k (vlist i) -> 0 <= k) by (intros k Hk'; apply in_vlist in Hk'; lia).
  assert (St := step PX PY PU GP (vlist i) (vlist_U i ltac:(lia)) HZ (Z.of_nat i) Ui Ni Hull
    (map fst l) (map fst l1) B HI P1).
  destruct St as [SI SL].
  { intros t Ht. apply in_map_iff in Ht. destruct Ht as (tc & <- & Htc). apply Hk1, Htc. }
  { exact HB. }
  set (K := flat_map edges_of B) in *.
  assert (Ef : map fst (fan (Z.of_nat i) (tag_edges (length K) K)) =
     map (fun e => Tri (e1 e) (e2 e) (Z.of_nat i)) (filter live (tag_edges (length K) K))).
  { unfold fan. rewrite map_map. reflexivity. }
  rewrite <- Ef, <- map_app in SI, SL. rewrite !map_length in SL.
  assert (Hfan : length (fan (Z.of_nat i) (tag_edges (length K) K)) = length (filter live (tag_edges (length K) K)))
    by (unfold fan; apply map_length).
  rewrite app_length, Hfan in SL.
  rewrite new_tris_fits by lia. cbn [bind].
  eexists _, _, _. split; [reflexivity|]. cbn [sc_emax] in Hmm. split; [lia|]. split; [exact SI|]. split.
  - intros tc Htc. apply in_app_or in Htc. destruct Htc as [Htc|Htc].
    + intros Hc k Hkk. apply (proj1 (Hk1 tc Htc) Hc). lia.
    + unfold fan in Htc. apply in_map_iff in Htc. destruct Htc as (e & <- & _). intros Hc. discriminate.
  - rewrite app_length, Hfan. lia.
Qed.

Lemma add_points_R cap n : forall i cc emax l, Z.of_nat i + Z.of_nat n <= nv -> 0 <= emax -> AInv i l -> 2 * nv + 1 <= cap ->
  exists cc' emax' l', add_points NumR cap pts (cc, emax, l) (map Z.of_nat (seq i n)) = Ok (cc', emax', l') /\
    AInv (i + n) l'.
Proof.
  induction n as [|n IH]; intros i cc emax l Hi Hm HI Hcap; cbn [seq map add_points].
  - rewrite Nat.add_0_r. eauto.
  - destruct (add_point_R cap i cc emax l) as (c1 & m1 & l1 & E & Hm1 & HI1); auto; [lia|].
    rewrite E. cbn [bind]. destruct (IH (S i) c1 m1 l1) as (c2 & m2 & l2 & E2 & HI2); auto; [lia|].
    rewrite E2. eexists _, _, _. split; [reflexivity|]. replace (i + S n)%nat with (S i + n)%nat by lia. exact HI2.
Qed.

Lemma AInv_init c : c = false -> AInv 0 [(Tri nv (nv + 1) (nv + 2), c)].
Proof.
  intros ->. split; [|split].
  - cbn [map fst vlist]. split; [|split].
    + intros t [ <- |[]]. unfold DelT, Del. cbn [t1 t2 t3 In]. repeat split; try lia; auto.
    + intros a b c (Va & Vb & Vc & N1 & N2 & N3 & _). exists (Tri nv (nv + 1) (nv + 2)). split; [left; reflexivity|].
      cbn [In] in Va, Vb, Vc. unfold key, key3. cbn [t1 t2 t3]. (apply (f_equal2 pair); [apply (f_equal2 pair)|]); lia.
    + cbn [map]. constructor; [intros []|constructor].
  - intros tc [ <- |[]]. intros Hc. discriminate.
  - cbn [length]. lia.
Qed.

(** Removing the triangles with a vertex of the supertriangle. *)
Lemma drop_R (l : list tri) : exists l', sweep_all (drop_body nv) tt l = Ok (tt, l') /\
  Permutation l' (filter (fun t => negb ((nv <=? t1 t) || (nv <=? t2 t) || (nv <=? t3 t))) l).
Proof.
  destruct (sweep_all_visit (drop_body nv) tt l) as (xs & HP & H).
  assert (V : forall ys, visit (drop_body nv) tt ys = Ok (tt, filter (fun t => negb ((nv <=? t1 t) || (nv <=? t2 t) || (nv <=? t3 t))) ys)).
  { induction ys as [|y ys IH]; [reflexivity|]. cbn [visit filter]. unfold drop_body at 1.
    destruct ((nv <=? t1 y) || (nv <=? t2 y) || (nv <=? t3 y)); cbn [bind]; rewrite IH; reflexivity. }
  rewrite V in H. destruct H as (l' & E & Hp). exists l'. split; [exact E|].
  eapply Permutation_trans; [exact Hp|].
  clear - HP. induction HP; cbn [filter]; auto.
  - destruct (negb _); auto.
  - destruct (negb _), (negb _); auto. constructor.
  - eapply Permutation_trans; eauto.
Qed.

Lemma drop_Inv l l' : Inv PX PY (vlist (Z.to_nat nv)) l ->
  Permutation l' (filter (fun t => negb ((nv <=? t1 t) || (nv <=? t2 t) || (nv <=? t3 t))) l) ->
  (forall t, In t l' -> DelT PX PY (vlist (Z.to_nat nv)) t /\ 0 <= t1 t < nv /\ 0 <= t2 t < nv /\ 0 <= t3 t < nv) /\
  (forall a b c, a < nv -> b < nv -> c < nv -> Del PX PY (fun k => In k (vlist (Z.to_nat nv))) a b c ->
     exists t, In t l' /\ key t = key3 a b c) /\
  NoDup (map key l').
Proof.
  intros (I1 & I2 & I3) HP.
  assert (Hin : forall t, In t l' <-> In t l /\ t1 t < nv /\ t2 t < nv /\ t3 t < nv).
  { intros t. transitivity (In t (filter (fun t => negb ((nv <=? t1 t) || (nv <=? t2 t) || (nv <=? t3 t))) l)).
    - split; apply Permutation_in; [exact HP|symmetry; exact HP].
    - rewrite filter_In, negb_true_iff, !orb_false_iff, !Z.leb_gt. tauto. }
  split; [|split].
  - intros t Ht. apply Hin in Ht. destruct Ht as (Ht & H1 & H2 & H3). assert (D := I1 t Ht). split; [exact D|].
    destruct D as (V1 & V2 & V3 & _). apply in_vlist in V1, V2, V3. lia.
  - intros a b c Ha Hb Hc D. destruct (I2 a b c D) as (t & Ht & K). exists t. split; [|exact K]. apply Hin.
    split; [exact Ht|]. apply key3_perm in K. lia.
  - apply (Permutation_NoDup (l := map key (filter (fun t => negb ((nv <=? t1 t) || (nv <=? t2 t) || (nv <=? t3 t))) l))).
    { apply Permutation_map. symmetry. exact HP. }
    clear - I3. induction l as [|t l IH]; [constructor|]. cbn [map] in I3. inversion I3; subst. cbn [filter].
    destruct (negb _); [|auto]. cbn [map]. constructor; [|auto]. intros HI. apply H1.
    apply in_map_iff in HI. destruct HI as (x & Ex & Hx). apply filter_In in Hx. rewrite <- Ex. apply in_map. apply Hx.
Qed.
End Alg.
