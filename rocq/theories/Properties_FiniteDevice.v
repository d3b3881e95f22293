(** C158: the device after one star, on actual IEEE doubles *)
From Verif Require Import Base Num M_Libc P_Libc M_Checkbits M_Linalg M_Helper M_Alignment S_Alignment P_Alignment P_AlignState P_AlignState2 P_AlignR M_Telescope S_Sky P_Sky P_Round P_Helper2 P_TriIEEE M_Stellarium S_Stellarium M_Gnss M_NexStar S_NexStar P_NexStar M_Led M_Imu P_Imu M_Main P_Sched P_Main P_Main2 P_Device S_Device P_Device2 P_Device3 S_Safe Properties_Alignment Properties_NexStar Properties_NexStar2 Properties_Device3 S_SkyIEEE P_SkyIEEE P_SkyIEEE2 P_OneIEEE P_LstIEEE P_Angle Properties_SkyIEEE P_NumCorr S_Libm P_Libm P_Finite P_LstFinite Properties_Finite.
From Coq Require Import Permutation Reals Lra Lia Floats.SpecFloat.
From Flocq Require Import Core IEEE754.BinarySingleNaN.
Open Scope R_scope.
Notation length := List.length.

Section AnyN.
Context (N : Num) (T : Trig N) (qsort : list (vpair N) -> list (vpair N)) (x : F N) (j : F N * F N).
Lemma star_stored_any cs a p r dc g : permuting N qsort -> at_most 63 cs -> run N qsort (Ok x) (Some j) (align_init N) (all_orders N T cs) = Ok a ->
  first_named_in cs p r dc g -> synchronised cs [] = [p] ->
  exists v, stored a = [v] /\ actual v = p /\ unwrapped N (direction N T r dc g) (reference v) /\
    forall q, getTransformationType N a q = Ok POINT /\ getTransformationMatrix N a q = Ok (translation N v).
Proof.
  intros Hq Hm H (cs0 & rest & Ec & Hnr & Hd) Hs. apply at_most_orders with (T := T) in Hm. rewrite Ec in *. clear Ec.
  destruct (ends_in_triangulation_in N T cs0 p r dc g rest Hnr) as (ops & Eo).
  assert (Hp := proj1 (C34_points_kept N qsort x j _ a Hq Hm H)). rewrite synchronised_spec in Hp.
  pose proof Hm as Hm'. pose proof H as H'. rewrite all_orders_app_in in Hm', H'. cbn [all_orders flat_map orders app] in Hm', H'.
  destruct (named N qsort x j Hq _ _ _ _ a Hm') as (r' & Hu & Hin).
  { intros [K|K]; [discriminate|]. exact (orders_no_clear_in N T rest Hnr K). }
  { rewrite (synchronised_spec N T). exact Hd. }
  { exact H'. }
  rewrite Hs in Hp. apply Permutation_length in Hp. rewrite map_length in Hp.
  destruct (stored a) as [|v' [|w l]] eqn:Es; try discriminate. destruct Hin as [->|[]].
  exists (VP p r'). split; [reflexivity|]. split; [reflexivity|]. split; [exact Hu|].
  rewrite Eo in H. destruct (last_triangulate_any N qsort x j ops a Hq H) as (a0 & _ & HW & E & Es' & _). rewrite Es in Es'. symmetry in Es'.
  exact (one_point_any N x j a0 a _ HW E Es').
Qed.
End AnyN.

(** the pair of doubles has these values *)
Definition is_point (p : point NumSF) (x y : R) : Prop := is_double (px p) x /\ is_double (py p) y.

(** the direction stored for a star, on doubles and on rounded reals *)
Lemma unwrapped_agrees (r r' : point NumSF) (x y : R) : unwrapped NumSF r r' -> means (px r) x -> means (py r) y -> - (1 / 10 ^ 8) <= x <= 360 + 1 / 10 ^ 8 ->
  exists x', means (px r') x' /\ means (py r') y /\ unwrapped NumB (@Pt NumB x y) (@Pt NumB x' y).
Proof.
  intros (Uy & Ux) Mx My B. rewrite Uy. assert (M9 : mb 9 (px r) x) by (split; [exact Mx|simpl bpow; apply Rabs_le; lra]).
  assert (I : mb 9 (fZ NumSF 360) (fZ NumB 360)) by (apply mb_int; lia).
  assert (A : mb 10 (fadd NumSF (px r) (fZ NumSF 360)) (fadd NumB x (fZ NumB 360))) by (apply (mb_fadd 9); [lia|assumption..]).
  assert (S : mb 10 (fsub NumSF (px r) (fZ NumSF 360)) (fsub NumB x (fZ NumB 360))) by (apply (mb_fsub 9); [lia|assumption..]).
  assert (AS : mb 11 (fsub NumSF (fadd NumSF (px r) (fZ NumSF 360)) (fZ NumSF 360)) (fsub NumB (fadd NumB x (fZ NumB 360)) (fZ NumB 360))) by (apply (mb_fsub 10); [lia|exact A|up 9%Z; exact I]).
  destruct Ux as [-> | [-> | [-> | ->]]].
  - exists x. split; [exact Mx|]. split; [exact My|]. split; [reflexivity|left; reflexivity].
  - eexists. split; [apply A|]. split; [exact My|]. split; [reflexivity|right; left; reflexivity].
  - eexists. split; [apply S|]. split; [exact My|]. split; [reflexivity|right; right; left; reflexivity].
  - eexists. split; [apply AS|]. split; [exact My|]. split; [reflexivity|right; right; right; reflexivity].
Qed.
(** the correction by one star *)
Definition calc (N : Num) (m : mat N) (p : point N) : point N :=
  let out := mvmul N m (Vec (px p) (py p) (fZ N 1)) in Pt (f_mod N (v0 out) (fZ N 360)) (v1 out).
Lemma calc_eq N (a : align N) p m : getTransformationMatrix N a p = Ok m -> getCalibratedOrientation N a p = Ok (calc N m p).
Proof. intros E. unfold getCalibratedOrientation. rewrite E. reflexivity. Qed.
Lemma small_mb s (x : R) : means s x -> Rabs x <= 1000 -> mb 10 s x.
Proof. intros M B. split; [exact M|]. simpl bpow. lra. Qed.
Lemma calc_agrees (p : point NumSF) (v : vpair NumSF) (p' : point NumB) (v' : vpair NumB) :
  mb 10 (px p) (px p') -> mb 10 (py p) (py p') -> mb 10 (px (actual v)) (px (actual v')) -> mb 10 (py (actual v)) (py (actual v')) ->
  mb 10 (px (reference v)) (px (reference v')) -> mb 10 (py (reference v)) (py (reference v')) ->
  means (px (calc NumSF (translation NumSF v) p)) (px (calc NumB (translation NumB v') p')) /\
  means (py (calc NumSF (translation NumSF v) p)) (py (calc NumB (translation NumB v') p')).
Proof.
  intros P0 P1 A0 A1 R0 R1.
  assert (I1 : mb 1 (fZ NumSF 1) (fZ NumB 1)) by (apply mb_int; lia). assert (I0 : mb 1 (fZ NumSF 0) (fZ NumB 0)) by (apply mb_int; lia).
  unfold calc, mvmul, dot3, translation. cbn [mset identity mget v0 v1 v2 m00 m01 m02 m10 m11 m12 px py].
  split; [apply (mb_f_mod 14); [lia|]|refine (proj1 (_ : mb 14 _ _))].
  - apply (mb_fadd 13); [lia| |up 12%Z; apply (mb_fmul 11 1); [lia|apply (mb_fsub 10); [lia|assumption..]|exact I1]].
    up 12%Z. apply (mb_fadd 11); [lia| |]; apply (mb_fmul 1 10); (lia || assumption).
  - apply (mb_fadd 13); [lia| |up 12%Z; apply (mb_fmul 11 1); [lia|apply (mb_fsub 10); [lia|assumption..]|exact I1]].
    up 12%Z. apply (mb_fadd 11); [lia| |]; apply (mb_fmul 1 10); (lia || assumption).
Qed.

Lemma translated_calc (p : point NumB) (v : vpair NumB) : Rabs (px p : R) <= 1000 -> Rabs (py p : R) <= 1000 ->
  Rabs (px (actual v) : R) <= 1000 -> Rabs (py (actual v) : R) <= 1000 -> Rabs (px (reference v) : R) <= 1000 -> Rabs (py (reference v) : R) <= 1000 ->
  let q := calc NumB (translation NumB v) p in exists k : Z,
    Rabs ((px q : R) - ((px p : R) + ((px (reference v) : R) - (px (actual v) : R)) + 360 * IZR k)) <= bpow radix2 (-38) /\
    Rabs ((py q : R) - ((py p : R) + ((py (reference v) : R) - (py (actual v) : R)))) <= bpow radix2 (-38) /\
    Rabs (px q : R) <= 361 /\ Rabs (py q : R) <= 3001.
Proof.
  intros H1 H2 H3 H4 H5 H6. cbv zeta.
  unfold calc, mvmul, dot3, translation. cbn [mset identity mget v0 v1 v2 m00 m01 m02 m10 m11 m12 px py fZ fadd fmul fsub NumB].
  change (F NumB) with R in *. change (px p : R) with (px p). rewrite (b64_of_int 1), (b64_of_int 0), (b64_of_int 360) by lia.
  set (u := b64 (b64 (b64 (1 * px p) + b64 (0 * py p)) + b64 (b64 (px (reference v) - px (actual v)) * 1))).
  set (w := b64 (b64 (b64 (0 * px p) + b64 (1 * py p)) + b64 (b64 (py (reference v) - py (actual v)) * 1))).
  assert (Eu : Rabs (u - (px p + (px (reference v) - px (actual v)))) <= bpow radix2 (-39)).
  { pose proof (shift_err (px p) (px (actual v)) (px (reference v)) H1 H3 H5) as Q. unfold u. rewrite Rmult_0_l in *. exact Q. }
  assert (Ew : Rabs (w - (py p + (py (reference v) - py (actual v)))) <= bpow radix2 (-39)).
  { unfold w. apply shift_err'; assumption. }
  clearbody u w. apply Rabs_le_inv in Eu, Ew, H1, H2, H3, H4, H5, H6.
  destruct (f_mod_B u) as (k & Ek & Br); [apply Rabs_le; simpl bpow in *; lra|].
  exists k. apply Rabs_le_inv in Ek. simpl bpow in *.
  split; [apply Rabs_le; lra|]. split; [apply Rabs_le; lra|]. split; apply Rabs_le; lra.
Qed.

Section Device.
Context (T : Trig NumSF) (pf : platform) (oor : conv_policy) (lc : libc NumSF) (qsort : list (vpair NumSF) -> list (vpair NumSF)) (x : F NumSF) (j : F NumSF * F NumSF).
Context (ftext : nat -> F NumSF -> list Z) (left_first : bool) (cfg : config).
Notation history := (history NumSF T pf oor lc qsort (Ok x) (Some j) ftext left_first cfg).
Notation boot := (boot NumSF).
Notation commands := (commands NumSF T pf oor lc qsort (Ok x) (Some j) ftext left_first cfg).

(** C149 on doubles: after one star, the tube turned since then by any amount. *)
(** the relative position, for every telescope with the alignment of the device *)
Lemma one_star_at : permuting NumSF qsort -> c_libm T -> forall evs d o, history boot evs = Ok (d, o) ->
  exists cs, commands boot evs cs /\ forall tel, t_align tel = t_align (d_tel d) -> (at_most 63 cs -> forall p r dc g, first_named_in cs p r dc g -> synchronised cs [] = [p] ->
    forall PX PY OX OY R0 D LA S : R, is_point p PX PY -> is_point (t_orient tel) OX OY -> is_double r R0 -> is_double dc D ->
    is_double (g_latitude g) LA -> is_double (sidereal_in g) S ->
    Rabs PX <= 1000 -> Rabs PY <= 1000 -> Rabs OX <= 1000 -> Rabs OY <= 1000 -> Rabs R0 <= 1000 -> Rabs D <= 4000 -> Rabs LA <= 4000 -> Rabs S <= 1000 ->
    exists A E, near (bpow radix2 (-37)) (vec A E) (horizon_vec (S - R0) D LA) /\ - (1 / 10 ^ 8) <= A <= 360 + 1 / 10 ^ 8 /\ Rabs E <= 90 + bpow radix2 (-40) /\
    forall (lat lst : spec_float) (LA' L : R), is_double lat LA' -> is_double lst L -> Rabs LA' <= 4000 -> Rabs L <= 4000 ->
    exists q R1 D1, calibratedEquatorial NumSF T tel lat lst = Ok (q, POINT) /\ is_double (ra q) R1 /\ is_double (dec q) D1 /\
      near (bpow radix2 (-35)) (horizon_vec (L - R1) D1 LA') (vec (A + (OX - PX)) (E + (OY - PY))) /\
      - (1 / 10 ^ 8) <= R1 <= 360 + 1 / 10 ^ 8 /\ Rabs D1 <= 90 + bpow radix2 (-40)).
Proof.
  intros Hq HT evs d o H. destruct (C105_alignment_follows_commands NumSF T pf oor lc qsort x j ftext left_first cfg evs d o H) as (cs & Hc & Hr).
  exists cs. split; [exact Hc|]. intros tel Hat. rewrite <- Hat in Hr. intros Hm p r dc g Hf Hs PX PY OX OY R0 D LA S [Mp1 Mp2] [Mo1 Mo2] Mr Md Mla Ms Bp1 Bp2 Bo1 Bo2 Br Bd Bl Bs.
  destruct (star_stored_any NumSF T qsort x j cs _ p r dc g Hq Hm Hr Hf Hs) as (v & _ & Ea & Hu & Hmat).
  destruct (C157_star_to_direction T HT r dc (g_latitude g) (sidereal_in g) R0 D LA S Mr Md Mla Ms Br Bd Bl Bs) as (A & E & MA & ME & V & BA & BE). 
  assert (Hu2 : unwrapped NumSF (let h := equatorialToHorizontal NumSF T r dc (g_latitude g) (sidereal_in g) in Pt (az h) (alt h)) (reference v)) by exact Hu. clear Hu. cbv zeta in Hu2. rename Hu2 into Hu.
  exists A, E. split; [exact V|]. split; [exact BA|]. split; [exact BE|]. intros lat lst LA' L Mlat Mlst Blat Blst.
  apply double_means in MA, ME, Mp1, Mp2, Mo1, Mo2.
  destruct (unwrapped_agrees _ _ A E Hu MA ME BA) as (X' & MX & MY & HuB).
  destruct (unwrapped_B _ _ HuB BA) as (_ & Bx & k0 & Ex). cbn [px py] in Bx, Ex.
  set (o0 := t_orient tel) in *. destruct (Hmat o0) as [Ety Emat]. simpl bpow in BE.
  set (v' := VP (@Pt NumB PX PY) (@Pt NumB X' E) : vpair NumB). set (o' := @Pt NumB OX OY).
  destruct (calc_agrees o0 v o' v') as [C0 C1]; try (rewrite ?Ea; apply small_mb; cbn [v' o' actual reference px py]; (assumption || lra)).
  destruct (translated_calc o' v') as (k & Cx & Cy & Dx & Dy); try (cbn [v' o' actual reference px py]; (assumption || lra)).
  cbn [v' o' actual reference px py] in Cx, Cy.
  destruct (C157_direction_to_star T HT (px (calc NumSF (translation NumSF v) o0)) (py (calc NumSF (translation NumSF v) o0)) lat lst _ _ LA' L
    (proj2 (double_means _ _) C0) (proj2 (double_means _ _) C1) Mlat Mlst) as (R1 & D1 & M1 & M2 & W & B1 & B2); [change (F NumB) with R in *; lra|change (F NumB) with R in *; lra|exact Blat|exact Blst|].
  eexists _, R1, D1. unfold calibratedEquatorial. fold o0. rewrite Ety. cbn [bind]. rewrite (calc_eq _ _ _ _ Emat). cbn [bind]. split; [reflexivity|].
  split; [exact M1|]. split; [exact M2|]. split; [|split; [exact B1|exact B2]].
  change (F NumB) with R in *. set (c := calc NumB (translation NumB v') o') in *. clearbody c. 
  assert (LL : near (bpow radix2 (-37)) (vec (px c) (py c)) (vec (A + (OX - PX) + 360 * IZR (k0 + k)) (E + (OY - PY)))).
  { apply vec_lip.
    - rewrite plus_IZR. apply Rabs_le_inv in Cx, Ex. apply Rabs_le. simpl bpow in *. lra.
    - apply Rabs_le_inv in Cy. apply Rabs_le. simpl bpow in *. lra.
    - simpl bpow. lra. }
  rewrite (vec_turn _ _ _ (turned_back (A + (OX - PX)) (k0 + k))) in LL.
  eapply near_le; [|exact (near_trans _ _ _ _ _ W LL)]. simpl bpow. lra.
Qed.
Theorem C158_one_star_then_relative : permuting NumSF qsort -> c_libm T -> forall evs d o, history boot evs = Ok (d, o) ->
  exists cs, commands boot evs cs /\ (at_most 63 cs -> forall p r dc g, first_named_in cs p r dc g -> synchronised cs [] = [p] ->
    forall PX PY OX OY R0 D LA S : R, is_point p PX PY -> is_point (t_orient (d_tel d)) OX OY -> is_double r R0 -> is_double dc D ->
    is_double (g_latitude g) LA -> is_double (sidereal_in g) S ->
    Rabs PX <= 1000 -> Rabs PY <= 1000 -> Rabs OX <= 1000 -> Rabs OY <= 1000 -> Rabs R0 <= 1000 -> Rabs D <= 4000 -> Rabs LA <= 4000 -> Rabs S <= 1000 ->
    exists A E, near (bpow radix2 (-37)) (vec A E) (horizon_vec (S - R0) D LA) /\ - (1 / 10 ^ 8) <= A <= 360 + 1 / 10 ^ 8 /\ Rabs E <= 90 + bpow radix2 (-40) /\
    forall (lat lst : spec_float) (LA' L : R), is_double lat LA' -> is_double lst L -> Rabs LA' <= 4000 -> Rabs L <= 4000 ->
    exists q R1 D1, calibratedEquatorial NumSF T (d_tel d) lat lst = Ok (q, POINT) /\ is_double (ra q) R1 /\ is_double (dec q) D1 /\
      near (bpow radix2 (-35)) (horizon_vec (L - R1) D1 LA') (vec (A + (OX - PX)) (E + (OY - PY))) /\
      - (1 / 10 ^ 8) <= R1 <= 360 + 1 / 10 ^ 8 /\ Rabs D1 <= 90 + bpow radix2 (-40)).
Proof.
  intros Hq HT evs d o H. destruct (one_star_at Hq HT evs d o H) as (cs & Hc & K). exists cs. split; [exact Hc|]. exact (K _ eq_refl).
Qed.

(** ... with the tube still (or again) where it pointed for the star: the star moved by what sidereal time has advanced. *)
Lemma one_star_drifts_at : permuting NumSF qsort -> c_libm T -> forall evs d o, history boot evs = Ok (d, o) ->
  exists cs, commands boot evs cs /\ forall tel, t_align tel = t_align (d_tel d) -> (at_most 63 cs -> forall p r dc g, first_named_in cs p r dc g -> synchronised cs [] = [p] -> t_orient tel = p ->
    forall PX PY R0 D LA LO : R, is_point p PX PY -> is_double r R0 -> is_double dc D -> is_double (g_latitude g) LA -> is_double (g_longitude g) LO -> civil (g_time g) ->
    Rabs PX <= 1000 -> Rabs PY <= 1000 -> Rabs R0 <= 1000 -> Rabs D <= 4000 -> Rabs LA <= 4000 -> Rabs LO <= 1000 ->
    exists S, is_double (sidereal_in g) S /\ Rabs S <= 361 /\
    forall (lst : spec_float) (L : R), is_double lst L -> Rabs L <= 4000 ->
    exists q R1 D1, calibratedEquatorial NumSF T tel (g_latitude g) lst = Ok (q, POINT) /\ is_double (ra q) R1 /\ is_double (dec q) D1 /\
      near (bpow radix2 (-32)) (vec R1 D1) (vec (R0 + (L - S)) D) /\
      - (1 / 10 ^ 8) <= R1 <= 360 + 1 / 10 ^ 8 /\ Rabs D1 <= 90 + bpow radix2 (-40) /\
      (Rabs D <= 85 -> Rabs (D1 - D) <= 6 / 10 ^ 8 /\ exists k : Z, Rabs (R1 - (R0 + (L - S) + 360 * IZR k)) <= 15 / 10 ^ 7)).
Proof.
  intros Hq HT evs d o H. destruct (one_star_at Hq HT evs d o H) as (cs & Hc & K).
  exists cs. split; [exact Hc|]. intros tel Hat. specialize (K tel Hat). intros Hm p r dc g Hf Hs Ho PX PY R0 D LA LO Mp Mr Md Mla Mlo Hci Bp1 Bp2 Br Bd Bl Blo.
  assert (Ms := lst_agrees (g_time g) (g_longitude g) LO Hci (proj1 (double_means _ _) Mlo) Blo).
  assert (Bs : Rabs (getLocalSiderealTimeDegrees NumB (g_time g) LO) <= 361) by (destruct Hci as (? & ? & ? & ? & ? & ?); apply lst_range; assumption).
  set (S := getLocalSiderealTimeDegrees NumB (g_time g) LO) in *. clearbody S. exists S. apply double_means in Ms.
  split; [exact Ms|]. split; [exact Bs|]. intros lst L Mlst Blst. change (F NumB) with R in *.
  assert (Mo : is_point (t_orient tel) PX PY) by (rewrite Ho; exact Mp).
  destruct (K Hm p r dc g Hf Hs PX PY PX PY R0 D LA S Mp Mo Mr Md Mla Ms Bp1 Bp2 Bp1 Bp2 Br Bd Bl ltac:(lra)) as (A & E & V & _ & _ & Q).
  destruct (Q (g_latitude g) lst LA L Mla Mlst Bl Blst) as (q & R1 & D1 & Eq & M1 & M2 & W & B1 & B2). exists q, R1, D1. split; [exact Eq|]. split; [exact M1|]. split; [exact M2|].
  rewrite !same_place in W.
  assert (N : near (bpow radix2 (-32)) (vec R1 D1) (vec (R0 + (L - S)) D)).
  { pose proof (near_trans _ _ _ _ _ W V) as M. rewrite <- !rot_vec in M. apply (rot_near LA) in M. rewrite !rot_rot in M.
    apply (turned L) in M. replace (L - (L - R1)) with R1 in M by ring. replace (L - (S - R0)) with (R0 + (L - S)) in M by ring.
    eapply near_le; [|exact M]. simpl bpow. lra. }
  split; [exact N|]. split; [exact B1|]. split; [exact B2|]. intros HD.
  destruct (near_angles (bpow radix2 (-32)) R1 D1 (R0 + (L - S)) D) as (Q1 & k & Q2); [simpl bpow; lra|exact N|simpl bpow in B2; lra|exact HD|].
  split; [|exists k]; simpl bpow in *; lra.
Qed.
Theorem C158_star_drifts_with_the_sky : permuting NumSF qsort -> c_libm T -> forall evs d o, history boot evs = Ok (d, o) ->
  exists cs, commands boot evs cs /\ (at_most 63 cs -> forall p r dc g, first_named_in cs p r dc g -> synchronised cs [] = [p] -> t_orient (d_tel d) = p ->
    forall PX PY R0 D LA LO : R, is_point p PX PY -> is_double r R0 -> is_double dc D -> is_double (g_latitude g) LA -> is_double (g_longitude g) LO -> civil (g_time g) ->
    Rabs PX <= 1000 -> Rabs PY <= 1000 -> Rabs R0 <= 1000 -> Rabs D <= 4000 -> Rabs LA <= 4000 -> Rabs LO <= 1000 ->
    exists S, is_double (sidereal_in g) S /\ Rabs S <= 361 /\
    forall (lst : spec_float) (L : R), is_double lst L -> Rabs L <= 4000 ->
    exists q R1 D1, calibratedEquatorial NumSF T (d_tel d) (g_latitude g) lst = Ok (q, POINT) /\ is_double (ra q) R1 /\ is_double (dec q) D1 /\
      near (bpow radix2 (-32)) (vec R1 D1) (vec (R0 + (L - S)) D) /\
      - (1 / 10 ^ 8) <= R1 <= 360 + 1 / 10 ^ 8 /\ Rabs D1 <= 90 + bpow radix2 (-40) /\
      (Rabs D <= 85 -> Rabs (D1 - D) <= 6 / 10 ^ 8 /\ exists k : Z, Rabs (R1 - (R0 + (L - S) + 360 * IZR k)) <= 15 / 10 ^ 7)).
Proof.
  intros Hq HT evs d o H. destruct (one_star_drifts_at Hq HT evs d o H) as (cs & Hc & K). exists cs. split; [exact Hc|]. exact (K _ eq_refl).
Qed.

(** Non-vacuity: one NexStar sync message, before the tube has moved; the clock and place the device boots with. *)
Lemma int_double z : (Z.abs z < 2 ^ 53)%Z -> is_double (fZ NumSF z) (IZR z).
Proof.
  intros B. apply double_means. rewrite <- (b64_of_int z B). exact (proj1 (mb_int 53 z ltac:(lia) ltac:(lia))).
Qed.
Example C158_nonvacuous : permuting NumSF qsort ->
  exists d o, history boot [Bluetooth a_sync] = Ok (d, o) /\
  forall cs, commands boot [Bluetooth a_sync] cs -> at_most 63 cs /\ exists p r dc g, first_named_in cs p r dc g /\ synchronised cs [] = [p] /\ t_orient (d_tel d) = p /\
    is_point p 0 0 /\ is_double r 0 /\ is_double dc 0 /\ is_double (g_latitude g) 48 /\ is_double (g_longitude g) 11 /\ civil (g_time g).
Proof.
  intros Hq. destruct zeros_spell as [Hw Hz].
  pose proof (C12_sync_fields NumSF T pf oor qsort (Ok x) (Some j) (d_tel boot) (d_gnss boot) 0 0 eight_zeros eight_zeros 44 [] [] (d_tx boot) 256 Hw Hw Hz Hz ltac:(lia) ltac:(cbn; lia)) as H.
  cbv zeta in H. fold a_sync in H. rewrite app_nil_r in H.
  match type of H with _ = (do _ <- addReferencePoint _ _ qsort _ _ ?t ?a ?b ?c ?l; _) =>
    destruct (P_Device.add_point NumSF T qsort x j t a b c l Hq (WF_init NumSF) ltac:(cbn; lia)) as (t' & Et & _ & Eo & _ & Nt) end.
  rewrite Et in H. cbn [bind] in H. eexists _, _. split.
  { cbn [M_Main.history M_Main.step]. unfold onBluetoothData. rewrite H. cbn [bind]. change (0 <? 1)%Z with true. cbv iota zeta. reflexivity. }
  intros cs Hc. inversion Hc as [|? ? d' o' ? c cs' Es Hco Hcs]; subst. inversion Hcs; subst. destruct Hco as [(_ & r & dc & Hsay & ->)|(Hn & _)]; [|contradiction Hn; apply a_sync_is].
  destruct (Hsay 0%Z 0%Z eight_zeros eight_zeros 44%Z [] Hw Hw Hz Hz eq_refl) as [Hr Hd]. cbn [app].
  assert (A0 : fdiv NumSF (fmul NumSF (fZ NumSF 0) (fZ NumSF 360)) (fZ NumSF 4294967296) = fZ NumSF 0) by (vm_compute; reflexivity).
  cbv zeta in Hr, Hd. rewrite A0 in Hr, Hd.
  assert (Ed : dc = fZ NumSF 0) by (rewrite Hd; vm_compute; reflexivity).
  rewrite Hr, Ed. clear Et H Hc Hcs Es Hsay Hd Hr A0. split.
  { intros [|[|k]]; cbn; lia. }
  exists (t_orient (d_tel boot)), (fZ NumSF 0), (fZ NumSF 0), (d_gnss boot). split; [exists [], []; split; [reflexivity|]; split; [intros []|reflexivity]|].
  split; [reflexivity|]. split; [exact Eo|].
  split; [split; apply (int_double 0); lia|]. split; [apply (int_double 0); lia|]. split; [apply (int_double 0); lia|].
  split; [apply (int_double 48); lia|]. split; [apply (int_double 11); lia|].
  repeat split; cbn; lia.
Qed.
End Device.
Print Assumptions C158_star_drifts_with_the_sky.
