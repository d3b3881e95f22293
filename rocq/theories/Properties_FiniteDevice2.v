(** C163: the whole device after two or three stars on actual IEEE doubles (signed zeros, infinities, NaN, C's Annex F for libm): the
    tube back on one of them, the position reported is finite and is the star, moved by what sidereal time has advanced. *)
From Verif Require Import Base Num M_Libc P_Libc M_Checkbits M_Linalg M_Helper M_Alignment S_Alignment P_Alignment P_AlignState P_AlignState2 P_AlignR M_Telescope S_Sky P_Sky P_Round P_Helper2 P_TriIEEE M_Stellarium S_Stellarium M_Gnss M_NexStar S_NexStar P_NexStar M_Led M_Imu P_Imu M_Main P_Sched P_Main P_Main2 P_Device S_Device P_Device2 P_Device3 S_Safe Properties_Alignment Properties_NexStar Properties_NexStar2 Properties_Device3 S_SkyIEEE P_SkyIEEE P_SkyIEEE2 P_OneIEEE P_LstIEEE P_Angle Properties_SkyIEEE P_NumCorr S_Libm P_Libm P_Finite P_LstFinite Properties_Finite P_Angle2 P_LinFinite P_AlignFinite P_AlignIEEE Properties_AlignIEEE Properties_FiniteDevice Properties_AlignFinite Properties_DeviceIEEE.
From Coq Require Import Permutation Reals Lra Lia Floats.SpecFloat.
From Flocq Require Import Core IEEE754.BinarySingleNaN.
Open Scope R_scope.
Notation length := List.length.

(** every star was named with the tube at a proper orientation, with angles of at most a few turns, at a place on Earth and a civil time;
    all numbers finite doubles *)
Definition sensible_doubles (cs : list (command NumSF)) : Prop := forall p r dc g, In (Sync p r dc g) cs ->
  exists (p' : point NumB) (R0 D LA LO : R), valued p p' /\ tube p' /\ is_double r R0 /\ is_double dc D /\ is_double (g_latitude g) LA /\ is_double (g_longitude g) LO /\
    Rabs R0 <= 1000 /\ Rabs D <= 4000 /\ Rabs LA <= 4000 /\ Rabs LO <= 1000 /\ civil (g_time g).
(** every star lies in some triangle, and each triangle that the area test of the program finds it in has it as a corner and is large enough *)
Definition stars_at_corners (H e : R) (a : align NumSF) : Prop := forall s, In s (stored a) ->
  (exists t u v w, In t (tris a) /\ at_corners_in NumSF a t u v w /\ isInTriangle NumSF (actual s) (actual u) (actual v) (actual w) = true) /\
  (forall t u v w, In t (tris a) -> at_corners_in NumSF a t u v w -> isInTriangle NumSF (actual s) (actual u) (actual v) (actual w) = true ->
     (s = u \/ s = v \/ s = w) /\ exists u' v' w', valued (actual u) u' /\ valued (actual v) v' /\ valued (actual w) w' /\
       doubled_area u' v' w' <> 0 /\ 84 * (H / doubled_area u' v' w') ^ 2 <= e).
(** two stars far enough apart, or three that got a triangle of sufficient area, or any number, each at the corner of the triangles it
    is found in, for an error of [e] degrees; [H]: bound of the number that the matrix inversion reads behind the matrix *)
Definition resolves_doubles (H e : R) (cs : list (command NumSF)) (a : align NumSF) : Prop :=
  (exists p1 p2 q1 q2, Permutation (synchronised cs []) [p1; p2] /\ valued p1 q1 /\ valued p2 q2 /\ 1 <= separation q1 q2 /\ (gain2 (separation q1 q2) * H) ^ 2 / 10000000 <= e) \/
  (exists p1 p2 p3 q1 q2 q3, Permutation (synchronised cs []) [p1; p2; p3] /\ tris a <> [] /\ valued p1 q1 /\ valued p2 q2 /\ valued p3 q3 /\
     doubled_area q1 q2 q3 <> 0 /\ 84 * (H / doubled_area q1 q2 q3) ^ 2 <= e) \/
  (0 <= e /\ stars_at_corners H e a).
Lemma resolves_nonneg H e cs a : 0 <= H -> resolves_doubles H e cs a -> 0 <= e.
Proof.
  intros H1 [(p1 & p2 & q1 & q2 & _ & _ & _ & _ & Hg)|[(p1 & p2 & p3 & q1 & q2 & q3 & _ & _ & _ & _ & _ & _ & Hg)|[E0 _]]]; [| |exact E0];
    (eapply Rle_trans; [|exact Hg]); [apply Rmult_le_pos; [apply pow2_ge_0|lra]|apply Rmult_le_pos; [lra|apply pow2_ge_0]].
Qed.

Lemma double_unique s (u v : R) : is_double s u -> is_double s v -> u = v.
Proof. intros A B. apply double_means in A, B. exact (means_unique s u v A B). Qed.
Lemma valued_unique p (q q' : point NumB) : valued p q -> valued p q' -> q = q'.
Proof. intros [A B] [A' B']. destruct q as [u v], q' as [u' v']. cbn [px py] in *. f_equal; eapply double_unique; eassumption. Qed.

Section Device.
Context (T : Trig NumSF) (pf : platform) (oor : conv_policy) (lc : libc NumSF) (qsort : list (vpair NumSF) -> list (vpair NumSF)) (x : F NumSF) (j : F NumSF * F NumSF).
Context (ftext : nat -> F NumSF -> list Z) (left_first : bool) (cfg : config).
Notation history := (history NumSF T pf oor lc qsort (Ok x) (Some j) ftext left_first cfg).
Notation boot := (boot NumSF).
Notation commands := (commands NumSF T pf oor lc qsort (Ok x) (Some j) ftext left_first cfg).

Lemma in_orders_doubles cs p r : In (Add p r) (all_orders NumSF T cs) -> exists ra dc g, In (Sync p ra dc g) cs /\ r = direction NumSF T ra dc g.
Proof.
  induction cs as [|[p' r' d' g'|] cs IH]; intros H; cbn [all_orders flat_map orders app] in H; [contradiction| |].
  - destruct H as [H|[H|H]]; [|discriminate|].
    + injection H as <- <-. exists r', d', g'. split; [left; reflexivity|reflexivity].
    + destruct (IH H) as (a & b & c & K & E). exists a, b, c. split; [right; exact K|exact E].
  - destruct H as [H|H]; [discriminate|]. destruct (IH H) as (a & b & c & K & E). exists a, b, c. split; [right; exact K|exact E].
Qed.
(** sidereal time of a sensible command *)
Lemma sidereal_double (g : gnss NumSF) LO : civil (g_time g) -> is_double (g_longitude g) LO -> Rabs LO <= 1000 ->
  exists S : R, is_double (sidereal_in g) S /\ Rabs S <= 361.
Proof.
  intros Hci Ml Bl. assert (Ms := lst_agrees (g_time g) (g_longitude g) LO Hci (proj1 (double_means _ _) Ml) Bl).
  exists (getLocalSiderealTimeDegrees NumB (g_time g) LO). split; [apply double_means; exact Ms|]. destruct Hci as (? & ? & ? & ? & ? & ?); apply lst_range; assumption.
Qed.
(** the direction stored for a star *)
Lemma direction_double r dc (g : gnss NumSF) (r' : point NumSF) (R0 D LA S : R) : c_libm T -> unwrapped NumSF (direction NumSF T r dc g) r' ->
  is_double r R0 -> is_double dc D -> is_double (g_latitude g) LA -> is_double (sidereal_in g) S ->
  Rabs R0 <= 1000 -> Rabs D <= 4000 -> Rabs LA <= 4000 -> Rabs S <= 1000 ->
  exists (A E X' : R) (k : Z), near (bpow radix2 (-37)) (vec A E) (horizon_vec (S - R0) D LA) /\ Rabs E <= 90 + bpow radix2 (-40) /\ 
    valued r' (@Pt NumB X' E) /\ Rabs X' <= 721 /\ Rabs (X' - (A + 360 * IZR k)) <= bpow radix2 (-41).
Proof.
  intros HT Hu Mr Md Ml Ms Br Bd Bl Bs.
  destruct (C157_star_to_direction T HT r dc (g_latitude g) (sidereal_in g) R0 D LA S Mr Md Ml Ms Br Bd Bl Bs) as (A & E & MA & ME & V & BA & BE).
  assert (Hu2 : unwrapped NumSF (let h := equatorialToHorizontal NumSF T r dc (g_latitude g) (sidereal_in g) in Pt (az h) (alt h)) r') by exact Hu. cbv zeta in Hu2.
  apply double_means in MA, ME. destruct (unwrapped_agrees _ _ A E Hu2 MA ME BA) as (X' & MX & MY & HuB).
  destruct (unwrapped_B _ _ HuB BA) as (_ & Bx & k0 & Ex). cbn [px py] in Bx, Ex.
  exists A, E, X', k0. split; [exact V|]. split; [exact BE|]. split; [split; cbn [px py]; apply double_means; assumption|]. split; [exact Bx|exact Ex].
Qed.
Lemma stored_proper_doubles cs a : permuting NumSF qsort -> c_libm T -> sensible_doubles cs -> run NumSF qsort (Ok x) (Some j) (align_init NumSF) (all_orders NumSF T cs) = Ok a ->
  forall v, In v (stored a) -> exists v', valued_pair v v' /\ proper v'.
Proof.
  intros Hq HT Hc H v Hv. destruct (history_pairs NumSF qsort x j Hq _ _ _ (WF_init NumSF) H v Hv) as [K|(p & r & Hin & Ea & Hu)].
  { change (stored (align_init NumSF)) with (@nil (vpair NumSF)) in K. contradiction. }
  destruct (in_orders_doubles _ _ _ Hin) as (ra & dc & g & Hs & ->). destruct (Hc _ _ _ _ Hs) as (p' & R0 & D & LA & LO & Vp & Tp & Mr & Md & Ml & Mo & Br & Bd & Bl & Bo & Hci).
  destruct (sidereal_double g LO Hci Mo Bo) as (S & Ms & Bs).
  destruct (direction_double ra dc g (reference v) R0 D LA S HT Hu Mr Md Ml Ms Br Bd Bl ltac:(lra)) as (A & E & X' & k & V & BE & VR & BX & _).
  exists (VP p' (@Pt NumB X' E)). split; [split; [cbn [actual]; rewrite Ea; exact Vp|exact VR]|].
  split; [exact Tp|]. cbn [reference]. split; [exact BX|]. cbn [py]. simpl bpow in BE. change (F NumB) with R in *. lra.
Qed.

(** what the device reports at one of the stars *)
Lemma star_direction_doubles cs a p r dc g (X H e : R) : permuting NumSF qsort -> c_libm T -> at_most 63 cs -> sensible_doubles cs ->
  run NumSF qsort (Ok x) (Some j) (align_init NumSF) (all_orders NumSF T cs) = Ok a -> first_named_in cs p r dc g -> is_double x X ->
  1 <= H -> Rabs X <= H -> e <= 1 -> resolves_doubles H e cs a ->
  exists r' ty, unwrapped NumSF (direction NumSF T r dc g) r' /\ getTransformationType NumSF a p = Ok ty /\
    (forall r0, valued r' r0 -> doubles_within (e + 1 / 10 ^ 12) a p (px r0) (py r0)).
Proof.
  intros Hq HT Hm Hc Hr (cs0 & rest & Ec & Hnr & Hd) Mx H1 HX He Hres.
  pose proof (stored_proper_doubles cs a Hq HT Hc Hr) as Pr. apply at_most_orders with (T := T) in Hm.
  assert (Hp := proj1 (C34_points_kept NumSF qsort x j _ a Hq Hm Hr)). rewrite synchronised_spec in Hp.
  destruct (ends_in_triangulation_in NumSF T cs0 p r dc g rest Hnr) as (ops & Eo). rewrite <- Ec in Eo.
  assert (Hin : exists r', unwrapped NumSF (direction NumSF T r dc g) r' /\ In (VP p r') (stored a)).
  { rewrite Ec in Hm, Hr. rewrite all_orders_app_in in Hm, Hr. cbn [all_orders flat_map orders app] in Hm, Hr.
    apply (named NumSF qsort x j Hq _ _ _ _ a Hm); [|rewrite (synchronised_spec NumSF T); exact Hd|exact Hr].
    intros [K|K]; [discriminate|]. exact (orders_no_clear_in NumSF T rest Hnr K). }
  destruct Hin as (r' & Hu & Hin). rewrite Eo in Hr.
  destruct (C43_type_matches_correction NumSF qsort x j ops a p Hq Hr) as (ty & _ & Ety & _).
  exists r', ty. split; [exact Hu|]. split; [exact Ety|]. intros r0 Vr.
  assert (G : forall e' v', e' <= e -> valued_pair (VP p r') v' -> doubles_within (e' + 1 / 10 ^ 12) a p (px (reference v')) (py (reference v')) -> doubles_within (e + 1 / 10 ^ 12) a p (px r0) (py r0)).
  { intros e' v' He' [_ Vv] (q & QX & QY & k & E & D0 & D1 & Q0 & Q1 & Q2). cbn [reference] in Vv. rewrite (valued_unique _ _ _ Vr Vv).
    exists q, QX, QY, k. split; [exact E|]. split; [exact D0|]. split; [exact D1|]. split; [lra|]. split; [lra|exact Q2]. }
  destruct Hres as [(p1 & p2 & q1 & q2 & PP & V1 & V2 & Hs & Hg)|[(p1 & p2 & p3 & q1 & q2 & q3 & PP & Ht & V1 & V2 & V3 & HD & Hg)|[He0 Hcor]]].
  - rewrite PP in Hp. pose proof (Permutation_length Hp) as HL. rewrite map_length in HL. destruct (stored a) as [|v [|w [|z l]]] eqn:Es; try discriminate HL.
    destruct (Pr v ltac:(left; reflexivity)) as (v' & Vv & Pv). destruct (Pr w ltac:(right; left; reflexivity)) as (w' & Vw & Pw).
    assert (Esep : separation (actual v') (actual w') = separation q1 q2).
    { cbn [map] in Hp. apply Permutation_sym, Permutation_length_2_inv in Hp. destruct Hp as [E|E]; injection E as E1 E2.
      - rewrite <- E1 in V1. rewrite <- E2 in V2. rewrite (valued_unique _ _ _ (proj1 Vv) V1), (valued_unique _ _ _ (proj1 Vw) V2). reflexivity.
      - rewrite <- E2 in V1. rewrite <- E1 in V2. rewrite (valued_unique _ _ _ (proj1 Vv) V2), (valued_unique _ _ _ (proj1 Vw) V1). apply separation_sym. }
    destruct (C161_stars_reproduced qsort x j ops a v w Hq Hr Es X v' w' Mx Vv Vw Pv Pw H H1 HX) as [C0 C1]; try (rewrite Esep; lra).
    rewrite Esep in C0, C1. destruct Hin as [-> | [-> | []]]; [exact (G _ v' Hg Vv C0)|exact (G _ w' Hg Vw C1)].
  - rewrite PP in Hp. pose proof (Permutation_length Hp) as HL. rewrite map_length in HL. destruct (stored a) as [|s1 [|s2 [|s3 [|z l]]]] eqn:Es; try discriminate HL.
    destruct (Pr s1 ltac:(left; reflexivity)) as (s1' & W1 & P1). destruct (Pr s2 ltac:(right; left; reflexivity)) as (s2' & W2 & P2). destruct (Pr s3 ltac:(right; right; left; reflexivity)) as (s3' & W3 & P3).
    assert (PQ : Permutation [actual s1'; actual s2'; actual s3'] [q1; q2; q3]).
    { assert (VM : forall l l' : list (point NumSF), Permutation l l' -> forall m, Forall2 valued l m -> exists m', Permutation m m' /\ Forall2 valued l' m').
      { clear. induction 1 as [|u l l' _ IH|u v l|l1 l2 l3 _ IH1 _ IH2]; intros m Hm.
        - exists m. split; [apply Permutation_refl|exact Hm].
        - inversion Hm as [|? u' ? l'' Hu Hl]; subst. destruct (IH _ Hl) as (m' & P & F). exists (u' :: m'). split; [apply perm_skip; exact P|constructor; assumption].
        - inversion Hm as [|? u' ? l'' Hu Hl]; subst. inversion Hl as [|? v' ? l3 Hv Hl']; subst. exists (v' :: u' :: l3). split; [apply perm_swap|constructor; [assumption|constructor; assumption]].
        - destruct (IH1 _ Hm) as (m1 & Q1 & F1). destruct (IH2 _ F1) as (m2 & Q2 & F2). exists m2. split; [eapply perm_trans; eassumption|exact F2]. }
      cbn [map] in Hp. destruct (VM _ _ Hp [actual s1'; actual s2'; actual s3']) as (m' & P & F).
      { constructor; [exact (proj1 W1)|]. constructor; [exact (proj1 W2)|]. constructor; [exact (proj1 W3)|]. constructor. }
      inversion F as [|? z1 ? l1 G1 F1]; subst. inversion F1 as [|? z2 ? l2 G2 F2]; subst. inversion F2 as [|? z3 ? l3 G3 F3]; subst. inversion F3; subst.
      rewrite (valued_unique _ _ _ V1 G1), (valued_unique _ _ _ V2 G2), (valued_unique _ _ _ V3 G3). exact P. }
    destruct (area_swap H _ _ _ _ _ _ (area_perm _ _ _ _ _ _ PQ) HD) as [HD' EQ].
    pose proof (C162_three_stars_reproduced qsort x j ops a s1 s2 s3 Hq Hr Es Ht X s1' s2' s3' Mx W1 W2 W3 P1 P2 P3 H H1 HX HD') as K.
    cbv zeta in K. rewrite EQ in K. specialize (K ltac:(lra)).
    destruct Hin as [-> | [-> | [-> | []]]].
    + exact (G _ s1' Hg W1 (K (VP p r') s1' ltac:(left; reflexivity))).
    + exact (G _ s2' Hg W2 (K (VP p r') s2' ltac:(right; left; reflexivity))).
    + exact (G _ s3' Hg W3 (K (VP p r') s3' ltac:(right; right; left; reflexivity))).
  - destruct (Hcor _ Hin) as ((t0 & u0 & v0 & w0 & It0 & Hc0 & Hi0) & Hat). cbn [actual] in Hi0, Hat.
    assert (Ht : tris a <> []) by (intros E; rewrite E in It0; contradiction).
    assert (Hne : stored a <> []) by (intros E; rewrite E in Hin; contradiction).
    destruct (Pr _ Hin) as (s' & [Vs Vs2] & Ps). cbn [actual reference] in Vs, Vs2.
    assert (Bs : Rabs (px (actual s') : R) <= 1000000 /\ Rabs (py (actual s') : R) <= 1000000).
    { destruct Ps as [(_ & _ & B0 & B1) _]. change (F NumB) with R in *. lra. }
    destruct (C162_triangle qsort x j ops a p Hq Hr Ht Hne Pr X (actual s') Mx Vs (proj1 Bs) (proj2 Bs)) as (t & u & v & w & (Hit & Hcc & Hch) & _ & K).
    destruct Hch as [[_ Hii]|[_ Hout]]; [|rewrite (Hout _ _ _ _ It0 Hc0) in Hi0; discriminate].
    destruct (Hat t u v w Hit Hcc Hii) as (Hsu & u1 & v1 & w1 & Vu & Vv & Vw & HD & Hg). destruct Hcc as (Eu & Ev & Ew).
    destruct (Pr _ (nth_error_In _ _ Eu)) as (u' & Vu' & Pu). destruct (Pr _ (nth_error_In _ _ Ev)) as (v' & Vv' & Pv). destruct (Pr _ (nth_error_In _ _ Ew)) as (w' & Vw' & Pw).
    rewrite (valued_unique _ _ _ Vu (proj1 Vu')), (valued_unique _ _ _ Vv (proj1 Vv')), (valued_unique _ _ _ Vw (proj1 Vw')) in HD, Hg.
    specialize (K u' v' w' Vu' Vv' Vw' Pu Pv Pw H 1 H1 HX ltac:(lra)). cbv zeta in K.
    replace (84 * 1 * (H / doubled_area (actual u') (actual v') (actual w')) ^ 2) with (84 * (H / doubled_area (actual u') (actual v') (actual w')) ^ 2) in K by ring.
    specialize (K HD ltac:(lra)).
    destruct Hsu as [E | [E | E]]; [subst u|subst v|subst w].
    + specialize (K 1 0 0 ltac:(lra) ltac:(rewrite Rabs_R1, Rabs_R0; lra)). rewrite !Rmult_1_l, !Rmult_0_l, !Rplus_0_r in K. pose proof (proj1 Vu') as V0. cbn [actual] in V0. apply (G _ u' Hg Vu'). apply K; rewrite (valued_unique _ _ _ Vs V0); reflexivity.
    + specialize (K 0 1 0 ltac:(lra) ltac:(rewrite Rabs_R1, Rabs_R0; lra)). rewrite !Rmult_1_l, !Rmult_0_l, !Rplus_0_r, !Rplus_0_l in K. pose proof (proj1 Vv') as V0. cbn [actual] in V0. apply (G _ v' Hg Vv'). apply K; rewrite (valued_unique _ _ _ Vs V0); reflexivity.
    + specialize (K 0 0 1 ltac:(lra) ltac:(rewrite Rabs_R1, Rabs_R0; lra)). rewrite !Rmult_1_l, !Rmult_0_l, !Rplus_0_r, !Rplus_0_l in K. pose proof (proj1 Vw') as V0. cbn [actual] in V0. apply (G _ w' Hg Vw'). apply K; rewrite (valued_unique _ _ _ Vs V0); reflexivity.
Qed.

(** The tube back on a star that was named since the last reset: at the same latitude the star, moved by what sidereal time has
    advanced since, within 4 e + 2^-32 in every component of the unit vector; two finite doubles. *)
Lemma stars_drift_at : permuting NumSF qsort -> c_libm T -> forall evs d o, history boot evs = Ok (d, o) ->
  exists cs, commands boot evs cs /\ forall tel, t_align tel = t_align (d_tel d) -> (at_most 63 cs -> sensible_doubles cs -> forall X H e : R, is_double x X -> 1 <= H -> Rabs X <= H -> e <= / 1100 ->
    resolves_doubles H e cs (t_align tel) ->
    forall p r dc g, first_named_in cs p r dc g -> t_orient tel = p ->
    forall R0 D : R, is_double r R0 -> is_double dc D ->
    exists S : R, is_double (sidereal_in g) S /\ Rabs S <= 361 /\
    forall (lst : spec_float) (L : R), is_double lst L -> Rabs L <= 4000 ->
    exists q ty R1 D1, calibratedEquatorial NumSF T tel (g_latitude g) lst = Ok (q, ty) /\ is_double (ra q) R1 /\ is_double (dec q) D1 /\
      near (4 * e + bpow radix2 (-32)) (vec R1 D1) (vec (R0 + (L - S)) D) /\
      - (1 / 10 ^ 8) <= R1 <= 360 + 1 / 10 ^ 8 /\ Rabs D1 <= 90 + bpow radix2 (-40) /\
      (Rabs D <= 85 -> Rabs (D1 - D) <= 3 / 2 * e + 1 / 10 ^ 8 /\ exists k : Z, Rabs (R1 - (R0 + (L - S) + 360 * IZR k)) * cos (radians D) <= 3 / 2 * e + 1 / 10 ^ 8)).
Proof.
  intros Hq HT evs d o Hh. destruct (C105_alignment_follows_commands NumSF T pf oor lc qsort x j ftext left_first cfg evs d o Hh) as (cs & Hc & Hr).
  exists cs. split; [exact Hc|]. intros tel Hat. rewrite <- Hat in Hr. intros Hm Hs X H e Mx H1 HX He Hres p r dc g Hf Ho R0 D Mr Md.
  assert (Hin : In (Sync p r dc g) cs) by (destruct Hf as (cs0 & rest & -> & _); apply in_or_app; right; left; reflexivity).
  destruct (Hs _ _ _ _ Hin) as (p' & R0' & D' & LA & LO & Vp & Tp & Mr' & Md' & Ml & Mo & Br & Bd & Bl & Bo & Hci).
  rewrite <- (double_unique _ _ _ Mr Mr') in Br. rewrite <- (double_unique _ _ _ Md Md') in Bd. clear Mr' Md' R0' D'.
  destruct (sidereal_double g LO Hci Mo Bo) as (S & Ms & Bs). exists S. split; [exact Ms|]. split; [exact Bs|]. intros lst L Mlst Blst.
  destruct (star_direction_doubles cs _ p r dc g X H e Hq HT Hm Hs Hr Hf Mx H1 HX ltac:(lra) Hres) as (r' & ty & Hu & Ety & Hw).
  destruct (direction_double r dc g r' R0 D LA S HT Hu Mr Md Ml Ms Br Bd Bl ltac:(lra)) as (A & E & X' & k0 & V & BE & VR & BX & EX).
  destruct (Hw _ VR) as (c & QX & QY & k & Ec & MX & MY & Cx & Cy & Bc). cbn [px py] in Cx, Cy. simpl bpow in BE.
  assert (By : Rabs QY <= 4000) by (apply Rabs_le_inv in Cy, BE; apply Rabs_le; change (F NumB) with R in *; lra).
  assert (Bx : Rabs QX <= 4000) by (change (F NumB) with R in *; apply Rabs_le; lra).
  destruct (C157_direction_to_star T HT (px c) (py c) (g_latitude g) lst QX QY LA L MX MY Ml Mlst Bx By Bl Blst) as (R1 & D1 & M1 & M2 & W & B1 & B2).
  eexists _, ty, R1, D1. unfold calibratedEquatorial. rewrite Ho, Ety. cbn [bind]. rewrite Ec. cbn [bind]. split; [reflexivity|].
  split; [exact M1|]. split; [exact M2|]. change (F NumB) with R in *.
  assert (E0 : 0 <= e) by (apply (resolves_nonneg H _ _ _ ltac:(lra) Hres)).
  assert (DX : Rabs (QX - (A + 360 * IZR (k0 + k))) <= e + bpow radix2 (-38)).
  { rewrite plus_IZR. apply Rabs_le_inv in Cx, EX. apply Rabs_le. simpl bpow in *. lra. }
  assert (DY : Rabs (QY - E) <= e + bpow radix2 (-38)) by (apply Rabs_le_inv in Cy; apply Rabs_le; simpl bpow in *; lra).
  assert (LL : near (e + bpow radix2 (-38)) (vec QX QY) (vec (A + 360 * IZR (k0 + k)) E)) by (apply vec_lip; [exact DX|exact DY|simpl bpow; lra]).
  pose proof (dist2_lip _ _ _ _ _ DX DY) as DD.
  rewrite (vec_turn _ _ _ (turned_back A (k0 + k))) in LL, DD. split; [|split; [exact B1|split; [exact B2|]]].
  2:{ intros HD. clear LL. rewrite <- !rot_vec in W, V. apply (rot_near LA) in W, V. rewrite rot_rot in W, V. rewrite <- (dist2_rot LA) in DD.
      set (g0 := (e + bpow radix2 (-38)) / 40) in *. assert (G0 : 0 <= g0) by (unfold g0; simpl bpow; lra).
      pose proof (dist2_near _ _ _ _ _ G0 DD V) as D1'. rewrite dist2_sym in D1'.
      assert (G1 : 0 <= g0 + 3 * (2 * bpow radix2 (-37))) by (simpl bpow; lra).
      pose proof (dist2_near _ _ _ _ _ G1 D1' (near_sym _ _ _ W)) as D2'. rewrite dist2_sym, <- (dist2_turned L) in D2'.
      replace (L - (L - R1)) with R1 in D2' by ring. replace (L - (S - R0)) with (R0 + (L - S)) in D2' by ring.
      set (gg := g0 + 3 * (2 * bpow radix2 (-37)) + 3 * (2 * bpow radix2 (-36))) in *.
      assert (G2 : 0 <= gg <= / 10 ^ 4) by (unfold gg, g0; simpl bpow; split; lra).
      assert (G3 : 60 * gg <= 3 / 2 * e + 1 / 10 ^ 8) by (unfold gg, g0; simpl bpow; lra).
      destruct (close_angles gg R1 D1 (R0 + (L - S)) D G2 D2') as (K0 & k' & K1).
      - simpl bpow in B2. lra.
      - exact HD.
      - split; [|exists k']; lra. }
  pose proof (near_trans _ _ _ _ _ W (near_trans _ _ _ _ _ LL V)) as M. rewrite <- !rot_vec in M. apply (rot_near LA) in M. rewrite !rot_rot in M.
  apply (turned L) in M. replace (L - (L - R1)) with R1 in M by ring. replace (L - (S - R0)) with (R0 + (L - S)) in M by ring.
  eapply near_le; [|exact M]. simpl bpow. lra.
Qed.
Theorem C163_star_drifts_with_the_sky : permuting NumSF qsort -> c_libm T -> forall evs d o, history boot evs = Ok (d, o) ->
  exists cs, commands boot evs cs /\ (at_most 63 cs -> sensible_doubles cs -> forall X H e : R, is_double x X -> 1 <= H -> Rabs X <= H -> e <= / 1100 ->
    resolves_doubles H e cs (t_align (d_tel d)) ->
    forall p r dc g, first_named_in cs p r dc g -> t_orient (d_tel d) = p ->
    forall R0 D : R, is_double r R0 -> is_double dc D ->
    exists S : R, is_double (sidereal_in g) S /\ Rabs S <= 361 /\
    forall (lst : spec_float) (L : R), is_double lst L -> Rabs L <= 4000 ->
    exists q ty R1 D1, calibratedEquatorial NumSF T (d_tel d) (g_latitude g) lst = Ok (q, ty) /\ is_double (ra q) R1 /\ is_double (dec q) D1 /\
      near (4 * e + bpow radix2 (-32)) (vec R1 D1) (vec (R0 + (L - S)) D) /\
      - (1 / 10 ^ 8) <= R1 <= 360 + 1 / 10 ^ 8 /\ Rabs D1 <= 90 + bpow radix2 (-40) /\
      (Rabs D <= 85 -> Rabs (D1 - D) <= 3 / 2 * e + 1 / 10 ^ 8 /\ exists k : Z, Rabs (R1 - (R0 + (L - S) + 360 * IZR k)) * cos (radians D) <= 3 / 2 * e + 1 / 10 ^ 8)).
Proof.
  intros Hq HT evs d o Hh. destruct (stars_drift_at Hq HT evs d o Hh) as (cs & Hc & K). exists cs. split; [exact Hc|]. exact (K _ eq_refl).
Qed.
End Device.
Print Assumptions C163_star_drifts_with_the_sky.

(** Non-vacuity.  Commands of two stars 67 degrees apart are sensible and resolve the sky to 0.00008 degrees, with 0 behind the matrix
    (sessions in which the device stores two and three stars: C156_session_nonvacuous). *)
From Verif Require Import P_AlignWitness.
Open Scope R_scope.
Definition here_doubles : gnss NumSF := d_gnss (boot NumSF).
Definition tube_a : point NumSF := Pt (fz 100) (fz 20).
Definition tube_b : point NumSF := Pt (fz 160) (fz 50).
Definition two_commands_doubles : list (command NumSF) := [Sync tube_a (fz 10) (fz 20) here_doubles; Sync tube_b (fz 50) (fz 40) here_doubles].
Example C163_nonvacuous : sensible_doubles two_commands_doubles /\ at_most 63 two_commands_doubles /\ is_double (fz 0) 0 /\ (forall a, resolves_doubles 1 (8 / 100000) two_commands_doubles a) /\
  8 / 100000 <= / 1100 /\ first_named_in two_commands_doubles tube_a (fz 10) (fz 20) here_doubles /\ first_named_in two_commands_doubles tube_b (fz 50) (fz 40) here_doubles.
Proof.
  assert (NE : same NumSF tube_a tube_b = false) by (vm_compute; reflexivity).
  assert (SY : synchronised two_commands_doubles [] = [tube_a; tube_b]) by (unfold two_commands_doubles; cbn [synchronised existsb app]; rewrite NE; reflexivity).
  destruct C155_nonvacuous as (T0 & T1 & _).
  assert (Va : valued tube_a tube0) by (split; [apply (int_double 100); lia|apply (int_double 20); lia]).
  assert (Vb : valued tube_b tube1) by (split; [apply (int_double 160); lia|apply (int_double 50); lia]).
  split.
  { intros p r dc g [E|[E|[]]]; injection E as <- <- <- <-.
    - exists tube0, 10, 20, 48, 11. split; [exact Va|]. split; [exact T0|]. split; [apply (int_double 10); lia|]. split; [apply (int_double 20); lia|].
      split; [apply (int_double 48); lia|]. split; [apply (int_double 11); lia|]. repeat split; try (apply Rabs_le; lra); cbn; lia.
    - exists tube1, 50, 40, 48, 11. split; [exact Vb|]. split; [exact T1|]. split; [apply (int_double 50); lia|]. split; [apply (int_double 40); lia|].
      split; [apply (int_double 48); lia|]. split; [apply (int_double 11); lia|]. repeat split; try (apply Rabs_le; lra); cbn; lia. }
  split. { intros k. destruct k as [|[|[|k]]]; cbn [firstn two_commands_doubles synchronised existsb app]; rewrite ?NE, ?firstn_nil; cbn; lia. }
  split; [apply (int_double 0); lia|]. split.
  { intros a. left. exists tube_a, tube_b, tube0, tube1. split; [rewrite SY; apply Permutation_refl|]. split; [exact Va|]. split; [exact Vb|].
    assert (S : 60 <= separation tube0 tube1). { unfold separation, tube0, tube1. cbn [px py]. rewrite <- (sqrt_pow2 60) by lra. apply sqrt_le_1_alt. lra. }
    split; [lra|]. apply gain_67. exact S. }
  split; [lra|]. split.
  - exists [], [Sync tube_b (fz 50) (fz 40) here_doubles]. split; [reflexivity|]. split; [intros [E|[]]; discriminate|reflexivity].
  - exists [Sync tube_a (fz 10) (fz 20) here_doubles], []. split; [reflexivity|]. split; [intros []|]. cbn [synchronised existsb app]. rewrite NE. reflexivity.
Qed.

(** Four stars, two triangles: every star is found only in triangles it is a corner of (C163's third case). *)
Definition four_syncs : list (op NumSF) := [mkadd (fz 100) (fz 20) (fz 110) (fz 25); mkadd (fz 130) (fz 70) (fz 139) (fz 74); mkadd (fz 160) (fz 50) (fz 171) (fz 56); mkadd (fz 150) (fz 10) (fz 160) (fz 17)].
Lemma four_run : match runSF (four_syncs ++ [Triangulate]) with Ok a => (map (fun v => (px (actual v), py (actual v))) (stored a), map (fun t => (t1 t, t2 t, t3 t)) (tris a)) | UB _ => ([], []) end =
  ([(fz 100, fz 20); (fz 130, fz 70); (fz 150, fz 10); (fz 160, fz 50)], [(0, 1, 2); (2, 1, 3)]%Z).
Proof. vm_compute. reflexivity. Qed.
Example C163_four_stars_nonvacuous : exists a, runSF (four_syncs ++ [Triangulate]) = Ok a /\ stars_at_corners 1 (8 / 100000) a.
Proof.
  pose proof four_run as K. destruct (runSF (four_syncs ++ [Triangulate])) as [a|]; [|discriminate K]. exists a. split; [reflexivity|].
  injection K as Ks Kt. 
  destruct (stored a) as [|[[x0 y0] r0] [|[[x1 y1] r1] [|[[x2 y2] r2] [|[[x3 y3] r3] [|? ?]]]]] eqn:Es; try discriminate Ks. cbn [map actual px py] in Ks. injection Ks as -> -> -> -> -> -> -> ->.
  destruct (tris a) as [|[a0 a1 a2] [|[b0 b1 b2] [|? ?]]] eqn:Et; try discriminate Kt. cbn [map t1 t2 t3] in Kt. injection Kt as -> -> -> -> -> ->.
  assert (V : forall z w, (Z.abs z < 2 ^ 53)%Z -> (Z.abs w < 2 ^ 53)%Z -> valued (@Pt NumSF (fz z) (fz w)) (@Pt NumB (IZR z) (IZR w)))
    by (intros z w A B; split; cbn [px py]; apply int_double; assumption).
  pose proof (V 100%Z 20%Z ltac:(lia) ltac:(lia)) as V0. pose proof (V 130%Z 70%Z ltac:(lia) ltac:(lia)) as V1.
  pose proof (V 150%Z 10%Z ltac:(lia) ltac:(lia)) as V2. pose proof (V 160%Z 50%Z ltac:(lia) ltac:(lia)) as V3.
  set (p0 := @Pt NumSF (fz 100) (fz 20)) in V0. set (p1 := @Pt NumSF (fz 130) (fz 70)) in V1. set (p2 := @Pt NumSF (fz 150) (fz 10)) in V2. set (p3 := @Pt NumSF (fz 160) (fz 50)) in V3.
  change (stored a = [@VP NumSF p0 r0; @VP NumSF p1 r1; @VP NumSF p2 r2; @VP NumSF p3 r3]) in Es.
  assert (F0 : isInTriangle NumSF p0 p0 p1 p2 = true) by (vm_compute; reflexivity). assert (F0' : isInTriangle NumSF p0 p2 p1 p3 = false) by (vm_compute; reflexivity).
  assert (F1 : isInTriangle NumSF p1 p0 p1 p2 = true) by (vm_compute; reflexivity). assert (F3' : isInTriangle NumSF p3 p0 p1 p2 = false) by (vm_compute; reflexivity).
  assert (F2 : isInTriangle NumSF p2 p0 p1 p2 = true) by (vm_compute; reflexivity). assert (F3 : isInTriangle NumSF p3 p2 p1 p3 = true) by (vm_compute; reflexivity).
  clearbody p0 p1 p2 p3.
  set (v0 := @VP NumSF p0 r0) in *. set (v1 := @VP NumSF p1 r1) in *. set (v2 := @VP NumSF p2 r2) in *. set (v3 := @VP NumSF p3 r3) in *.
  assert (A0 : actual v0 = p0) by reflexivity. assert (A1 : actual v1 = p1) by reflexivity. assert (A2 : actual v2 = p2) by reflexivity. assert (A3 : actual v3 = p3) by reflexivity.
  assert (C0 : at_corners_in NumSF a (Tri 0 1 2) v0 v1 v2) by (unfold at_corners_in; rewrite Es; repeat split).
  assert (C1 : at_corners_in NumSF a (Tri 2 1 3) v2 v1 v3) by (unfold at_corners_in; rewrite Es; repeat split).
  assert (U0 : forall u v w, at_corners_in NumSF a (Tri 0 1 2) u v w -> u = v0 /\ v = v1 /\ w = v2).
  { intros u v w (E1 & E2 & E3). destruct C0 as (G1 & G2 & G3). rewrite E1 in G1. rewrite E2 in G2. rewrite E3 in G3. injection G1. injection G2. injection G3. auto. }
  assert (U1 : forall u v w, at_corners_in NumSF a (Tri 2 1 3) u v w -> u = v2 /\ v = v1 /\ w = v3).
  { intros u v w (E1 & E2 & E3). destruct C1 as (G1 & G2 & G3). rewrite E1 in G1. rewrite E2 in G2. rewrite E3 in G3. injection G1. injection G2. injection G3. auto. }
  assert (D0 : exists u' v' w', valued p0 u' /\ valued p1 v' /\ valued p2 w' /\ doubled_area u' v' w' <> 0 /\ 84 * (1 / doubled_area u' v' w') ^ 2 <= 8 / 100000).
  { eexists _, _, _. split; [exact V0|]. split; [exact V1|]. split; [exact V2|]. unfold doubled_area. cbn [px py]. change (F NumB) with R in *.
    replace ((130 - 100) * (10 - 20) - (70 - 20) * (150 - 100)) with (-2800) by lra. split; lra. }
  assert (D1 : exists u' v' w', valued p2 u' /\ valued p1 v' /\ valued p3 w' /\ doubled_area u' v' w' <> 0 /\ 84 * (1 / doubled_area u' v' w') ^ 2 <= 8 / 100000).
  { eexists _, _, _. split; [exact V2|]. split; [exact V1|]. split; [exact V3|]. unfold doubled_area. cbn [px py]. change (F NumB) with R in *.
    replace ((130 - 150) * (50 - 10) - (70 - 10) * (160 - 150)) with (-1400) by lra. split; lra. }
  intros s Is. rewrite Es in Is. rewrite Et. split.
  - destruct Is as [<-|[<-|[<-|[<-|[]]]]].
    + exists (Tri 0 1 2), v0, v1, v2. split; [left; reflexivity|]. split; [exact C0|exact F0].
    + exists (Tri 0 1 2), v0, v1, v2. split; [left; reflexivity|]. split; [exact C0|exact F1].
    + exists (Tri 0 1 2), v0, v1, v2. split; [left; reflexivity|]. split; [exact C0|exact F2].
    + exists (Tri 2 1 3), v2, v1, v3. split; [right; left; reflexivity|]. split; [exact C1|exact F3].
  - intros t u v w [<-|[<-|[]]] Ct Ht.
    + destruct (U0 _ _ _ Ct) as (-> & -> & ->). split; [|exact D0].
      destruct Is as [<-|[<-|[<-|[<-|[]]]]]; auto. exfalso. change (isInTriangle NumSF p3 p0 p1 p2 = true) in Ht. rewrite F3' in Ht. discriminate Ht.
    + destruct (U1 _ _ _ Ct) as (-> & -> & ->). split; [|exact D1].
      destruct Is as [<-|[<-|[<-|[<-|[]]]]]; auto. exfalso. change (isInTriangle NumSF p0 p2 p1 p3 = true) in Ht. rewrite F0' in Ht. discriminate Ht.
Qed.
(** An orientation outside both triangles, for the clause on the nearest triangle in C155 and C162: to the right of them the second is nearer, to the left the first. *)
Example C162_outside_nonvacuous : match runSF (four_syncs ++ [Triangulate]) with
  | Ok a => (getTransformationType NumSF a (Pt (fz 170) (fz 40)), nearestTriangle NumSF a (Pt (fz 170) (fz 40)), getTransformationType NumSF a (Pt (fz 100) (fz 40)), nearestTriangle NumSF a (Pt (fz 100) (fz 40))) =
            (Ok TRIANGLE_OUT, Ok 1%Z, Ok TRIANGLE_OUT, Ok 0%Z)
  | UB _ => False end.
Proof. vm_compute. reflexivity. Qed.
