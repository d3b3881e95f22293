(** C148, C149: the sky in IEEE double precision: how far off the coordinate conversions are, and what the device
    reports after one star.  Every arithmetic operation is rounded (NumB), libm is only assumed to be accurate to 2^-50. *)
From Verif Require Import Base Num M_Libc P_Libc M_Checkbits M_Linalg M_Helper M_Alignment S_Alignment P_Alignment P_AlignState P_AlignState2 P_AlignR M_Telescope S_Sky P_Sky P_Round P_Helper2 P_TriIEEE M_Stellarium S_Stellarium M_Gnss M_NexStar S_NexStar P_NexStar M_Led M_Imu P_Imu M_Main P_Sched P_Main P_Main2 P_Device S_Device P_Device2 P_Device3 S_Safe Properties_Alignment Properties_NexStar Properties_NexStar2 Properties_Device3 S_SkyIEEE P_SkyIEEE P_SkyIEEE2 P_OneIEEE P_LstIEEE P_Angle Properties_Main3 Properties_Stellarium P_Stellarium.
From Coq Require Import Permutation Reals Lra.
From Flocq Require Import Core.
Open Scope R_scope.
Notation length := List.length.

(** ** C148 *)
(** The direction computed for a star is the direction in which it stands, within 2^-37 (1.5 microarcseconds) in every component. *)
Theorem C148_equatorial_to_horizontal : forall T, good_libm T -> forall r d p l : R,
  Rabs r <= 1000 -> Rabs d <= 4000 -> Rabs p <= 4000 -> Rabs l <= 1000 ->
  let h := equatorialToHorizontal NumB T r d p l in
  near (bpow radix2 (-37)) (vec (az h) (alt h)) (horizon_vec (l - r) d p) /\
  - (1 / 10 ^ 8) <= az h <= 360 + 1 / 10 ^ 8 /\ Rabs (alt h) <= 90 + bpow radix2 (-40).
Proof.
  intros T GL r d p l Hr Hd Hp Hl. cbv zeta. rewrite <- rot_vec. exact (e2h_ieee T GL r d p l Hr Hd Hp Hl).
Qed.
(** The star computed for a direction is seen in that direction, within 2^-36. *)
Theorem C148_horizontal_to_equatorial : forall T, good_libm T -> forall a e p l : R,
  Rabs a <= 4000 -> Rabs e <= 4000 -> Rabs p <= 4000 -> Rabs l <= 4000 ->
  let q := horizontalToEquatorial NumB T a e p l in
  near (bpow radix2 (-36)) (horizon_vec (l - ra q) (dec q) p) (vec a e) /\
  - (1 / 10 ^ 8) <= ra q <= 360 + 1 / 10 ^ 8 /\ Rabs (dec q) <= 90 + bpow radix2 (-40).
Proof.
  intros T GL a e p l Ha He Hp Hl. cbv zeta. destruct (h2e_ieee T GL a e p l Ha He Hp Hl) as (N & B). split; [|exact B].
  apply (rot_near p) in N. rewrite rot_rot, rot_vec in N. eapply near_le; [|exact N]. simpl bpow. lra.
Qed.
Lemma back (l a : R) : l - (l - a) = a. Proof. ring. Qed.
(** Star to direction and back at the same place and time: the star, within 2^-34 (12 microarcseconds). *)
Theorem C148_round_trip : forall T, good_libm T -> forall r d p l : R,
  Rabs r <= 1000 -> Rabs d <= 4000 -> Rabs p <= 4000 -> Rabs l <= 1000 ->
  let h := equatorialToHorizontal NumB T r d p l in let q := horizontalToEquatorial NumB T (az h) (alt h) p l in
  near (bpow radix2 (-34)) (vec (ra q) (dec q)) (vec r d).
Proof.
  intros T GL r d p l Hr Hd Hp Hl. cbv zeta. destruct (e2h_ieee T GL r d p l Hr Hd Hp Hl) as (N & B1 & B2). cbv zeta in N, B1, B2.
  revert N B1 B2. generalize (equatorialToHorizontal NumB T r d p l). intros h N B1 B2. apply Rabs_le_inv in B2.
  change (F NumB) with R in *. simpl bpow in B2. assert (Bz : Rabs (az h) <= 4000) by (clear - B1; apply Rabs_le; lra). assert (Bt : Rabs (alt h) <= 4000) by (clear - B2; apply Rabs_le; lra). assert (Bl : Rabs l <= 4000) by (clear - Hl; lra).
  destruct (h2e_ieee T GL (az h) (alt h) p l Bz Bt Hp Bl) as (M & _). cbv zeta in M. revert M. generalize (horizontalToEquatorial NumB T (az h) (alt h) p l). intros q M.
  apply (rot_near p) in N. rewrite rot_rot in N. pose proof (near_trans _ _ _ _ _ M N) as K. apply (turned l) in K.
  rewrite !back in K. eapply near_le; [|exact K]. simpl bpow. lra.
Qed.

(** ... in degrees, up to declination 85: the declination within 1.5e-8, the right ascension within 4e-7 up to whole turns. *)
Theorem C148_round_trip_in_degrees : forall T, good_libm T -> forall r d p l : R,
  Rabs r <= 1000 -> Rabs d <= 85 -> Rabs p <= 4000 -> Rabs l <= 1000 ->
  let h := equatorialToHorizontal NumB T r d p l in let q := horizontalToEquatorial NumB T (az h) (alt h) p l in
  Rabs (dec q - d) <= 15 / 10 ^ 9 /\ exists k : Z, Rabs (ra q - (r + 360 * IZR k)) <= 4 / 10 ^ 7.
Proof.
  intros T GL r d p l Hr Hd Hp Hl. cbv zeta. pose proof (C148_round_trip T GL r d p l Hr ltac:(lra) Hp Hl) as N. cbv zeta in N.
  destruct (e2h_ieee T GL r d p l Hr ltac:(lra) Hp Hl) as (_ & B1 & B2). cbv zeta in B1, B2.
  revert N B1 B2. generalize (equatorialToHorizontal NumB T r d p l). intros h N B1 B2. apply Rabs_le_inv in B2.
  change (F NumB) with R in *. simpl bpow in B2. assert (Bz : Rabs (az h) <= 4000) by (clear - B1; apply Rabs_le; lra). assert (Bt : Rabs (alt h) <= 4000) by (clear - B2; apply Rabs_le; lra). assert (Bl : Rabs l <= 4000) by (clear - Hl; lra).
  destruct (h2e_ieee T GL (az h) (alt h) p l Bz Bt Hp Bl) as (_ & _ & Bd). cbv zeta in Bd. revert N Bd. generalize (horizontalToEquatorial NumB T (az h) (alt h) p l). intros q N Bd.
  destruct (near_angles (bpow radix2 (-34)) (ra q) (dec q) r d) as (D & k & A); [simpl bpow; lra|exact N|simpl bpow in Bd; lra|exact Hd|].
  split; [|exists k]; simpl bpow in *; lra.
Qed.

(** Non-vacuity: a correctly rounding libm is good. *)
Definition rounding_libm : Trig NumB :=
  MkTrig NumB (fun x : F NumB => b64 (sin x) : F NumB) (fun x => b64 (cos x)) (fun y x => b64 (atan2R y x)) (b64 PI).
Example C148_nonvacuous : good_libm rounding_libm.
Proof.
  assert (A4 : forall y x, Rabs (atan2R y x) <= 4).
  { intros y x. destruct (atan2R_spec y x) as [H _]. pose proof PI_4. apply Rabs_le. lra. }
  assert (W : forall x : R, Rabs x <= 1 -> Rabs (b64 x - x) <= bpow radix2 (-50)).
  { intros x Hx. eapply Rle_trans; [apply (b64_error 0); [lia|simpl bpow; exact Hx]|]. apply bpow_le. lia. }
  assert (W4 : forall x : R, Rabs x <= 4 -> Rabs (b64 x - x) <= bpow radix2 (-50)).
  { intros x Hx. eapply Rle_trans; [apply (b64_error 2); [lia|simpl bpow; exact Hx]|]. apply bpow_le. lia. }
  unfold good_libm, rounding_libm. cbn [tsin tcos tatan2 tpi]. split; [|split; [|split]].
  - intros x _. apply W, sin_1.
  - intros x _. apply W, cos_1.
  - intros y x. split.
    + pose proof (A4 y x) as H. apply Rabs_le_inv in H. apply Rabs_le. split.
      * rewrite <- (b64_id (- (4))) by (apply (is_b64_int (-4)); lia). apply b64_mono. lra.
      * rewrite <- (b64_of_int 4) by lia. apply b64_mono. lra.
    + exists 0%Z. rewrite Rmult_0_r, Rplus_0_r. apply W4, A4.
  - apply W4. pose proof PI_4. pose proof PI_RGT_0. apply Rabs_le. lra.
Qed.

(** ** C149 *)
(** [p] was named, for the first time since the last reset, by the command "the star (r, dc), now and here (g)". *)
Definition first_named_in {N} (cs : list (command N)) (p : point N) (r dc : F N) (g : gnss N) : Prop :=
  exists cs0 rest, cs = cs0 ++ Sync p r dc g :: rest /\ ~ In Reset rest /\
    existsb (fun q => same N q p) (synchronised cs0 []) = false.
(** local sidereal time (degrees) of a GNSS record, as the device computes it *)
Definition sidereal_in {N} (g : gnss N) : F N := getLocalSiderealTimeDegrees N (g_time g) (g_longitude g).
(** an orientation of less than three turns *)
Definition moderate (p : point NumB) : Prop := Rabs (px p : R) <= 1000 /\ Rabs (py p : R) <= 1000.

Section Keep.
Context (N : Num) (T : Trig N).
Lemma orders_no_clear_in cs : ~ In Reset cs -> no_clear N (all_orders N T cs).
Proof.
  induction cs as [|[p r d g|] cs IH]; intros H Hi; cbn [all_orders flat_map orders app] in Hi; [contradiction| |apply H; left; reflexivity].
  destruct Hi as [Hi|[Hi|Hi]]; try discriminate. apply IH; [intros K; apply H; right; exact K|exact Hi].
Qed.
Lemma all_orders_app_in c1 c2 : all_orders N T (c1 ++ c2) = all_orders N T c1 ++ all_orders N T c2.
Proof. apply flat_map_app. Qed.
Lemma ends_in_triangulation_in cs0 p r d g rest : ~ In Reset rest ->
  exists ops, all_orders N T (cs0 ++ Sync p r d g :: rest) = ops ++ [Triangulate].
Proof.
  intros H. destruct (exists_last_or_nil rest) as [->|(l & c & ->)].
  - exists (all_orders N T cs0 ++ [Add p (direction N T r d g)]). rewrite all_orders_app_in. cbn [all_orders flat_map orders app]. rewrite <- app_assoc. reflexivity.
  - destruct c as [p' r' d' g'|]; [|exfalso; apply H; apply in_or_app; right; left; reflexivity].
    exists (all_orders N T (cs0 ++ Sync p r d g :: l) ++ [Add p' (direction N T r' d' g')]).
    change (cs0 ++ Sync p r d g :: l ++ [Sync p' r' d' g']) with (cs0 ++ (Sync p r d g :: l) ++ [Sync p' r' d' g']). rewrite app_assoc, all_orders_app_in.
    cbn [all_orders flat_map orders app]. rewrite <- app_assoc. reflexivity.
Qed.
End Keep.

(** what is stored for a star: its azimuth up to a whole turn *)
Lemma unwrapped_B (r r' : point NumB) : unwrapped NumB r r' -> - (1 / 10 ^ 8) <= px r <= 360 + 1 / 10 ^ 8 ->
  py r' = py r /\ Rabs (px r' : R) <= 721 /\ exists k : Z, Rabs ((px r' : R) - ((px r : R) + 360 * IZR k)) <= bpow radix2 (-41).
Proof.
  intros (Uy & Ux) B. split; [exact Uy|]. cbn [fadd fsub fZ NumB] in Ux. change (F NumB) with R in *. rewrite (b64_of_int 360) in Ux by lia.
  set (a := px r) in *. set (a' := px r') in *. clearbody a a'.
  destruct Ux as [-> | [-> | [-> | ->]]].
  - split; [apply Rabs_le; lra|]. exists 0%Z. apply Rabs_le. simpl bpow. lra.
  - step 10%Z (a + 360) H1. split; [apply Rabs_le; lra|]. exists 1%Z. apply Rabs_le. simpl bpow. lra.
  - step 9%Z (a - 360) H1. split; [apply Rabs_le; lra|]. exists (-1)%Z. apply Rabs_le. simpl bpow. lra.
  - step 10%Z (a + 360) H1. step 9%Z (y - 360) H2. split; [apply Rabs_le; lra|]. exists 0%Z. apply Rabs_le. simpl bpow. lra.
Qed.
Lemma same_place (a b : R) : a + (b - b) = a. Proof. ring. Qed.
Lemma turned_back a k : same_turn (a + 360 * IZR k) a.
Proof. exists k. ring. Qed.

Section Device.
Context (T : Trig NumB) (pf : platform) (oor : conv_policy) (lc : libc NumB) (qsort : list (vpair NumB) -> list (vpair NumB)) (x : F NumB) (j : F NumB * F NumB).
Context (ftext : nat -> F NumB -> list Z) (left_first : bool) (cfg : config).
Notation history := (history NumB T pf oor lc qsort (Ok x) (Some j) ftext left_first cfg).
Notation boot := (boot NumB).
Notation commands := (commands NumB T pf oor lc qsort (Ok x) (Some j) ftext left_first cfg).

Lemma star_stored cs a p r dc g : permuting NumB qsort -> at_most 63 cs -> run NumB qsort (Ok x) (Some j) (align_init NumB) (all_orders NumB T cs) = Ok a ->
  first_named_in cs p r dc g -> synchronised cs [] = [p] ->
  exists v, stored a = [v] /\ actual v = p /\ unwrapped NumB (direction NumB T r dc g) (reference v) /\
    forall q, getTransformationType NumB a q = Ok POINT /\ getTransformationMatrix NumB a q = Ok (translation NumB v).
Proof.
  intros Hq Hm H (cs0 & rest & Ec & Hnr & Hd) Hs. apply at_most_orders with (T := T) in Hm. rewrite Ec in *. clear Ec.
  destruct (ends_in_triangulation_in NumB T cs0 p r dc g rest Hnr) as (ops & Eo).
  assert (Hp := proj1 (C34_points_kept NumB qsort x j _ a Hq Hm H)). rewrite synchronised_spec in Hp.
  pose proof Hm as Hm'. pose proof H as H'. rewrite all_orders_app_in in Hm', H'. cbn [all_orders flat_map orders app] in Hm', H'.
  destruct (named NumB qsort x j Hq _ _ _ _ a Hm') as (r' & Hu & Hin).
  { intros [K|K]; [discriminate|]. exact (orders_no_clear_in NumB T rest Hnr K). }
  { rewrite (synchronised_spec NumB T). exact Hd. }
  { exact H'. }
  rewrite Hs in Hp. apply Permutation_length in Hp. rewrite map_length in Hp.
  destruct (stored a) as [|v' [|w l]] eqn:Es; try discriminate. destruct Hin as [->|[]].
  exists (VP p r'). split; [reflexivity|]. split; [reflexivity|]. split; [exact Hu|].
  rewrite Eo in H. destruct (last_triangulate_any NumB qsort x j ops a Hq H) as (a0 & _ & HW & E & Es' & _). rewrite Es in Es'. symmetry in Es'.
  exact (one_point_any NumB x j a0 a _ HW E Es').
Qed.

(** After one star, from power-on or from the last reset, with the tube turned since then by any amount: the reported
    position is the point of the sky that is seen in the direction of the star at the time of the sync, turned by the same
    amount, within 2^-35 (6 microarcseconds), from the latitude and at the sidereal time that are given. *)
Theorem C149_one_star_then_relative : permuting NumB qsort -> good_libm T -> forall evs d o, history boot evs = Ok (d, o) ->
  exists cs, commands boot evs cs /\ (at_most 63 cs -> forall p r dc g, first_named_in cs p r dc g -> synchronised cs [] = [p] ->
    moderate p -> moderate (t_orient (d_tel d)) -> Rabs r <= 1000 -> Rabs dc <= 4000 -> Rabs (g_latitude g) <= 4000 -> Rabs (sidereal_in g) <= 1000 ->
    exists A E, near (bpow radix2 (-37)) (vec A E) (horizon_vec (sidereal_in g - r) dc (g_latitude g)) /\ - (1 / 10 ^ 8) <= A <= 360 + 1 / 10 ^ 8 /\ Rabs E <= 90 + bpow radix2 (-40) /\
    forall lat lst : R, Rabs lat <= 4000 -> Rabs lst <= 4000 ->
    exists q, calibratedEquatorial NumB T (d_tel d) lat lst = Ok (q, POINT) /\
      near (bpow radix2 (-35)) (horizon_vec (lst - ra q) (dec q) lat)
        (vec (A + (px (t_orient (d_tel d)) - px p)) (E + (py (t_orient (d_tel d)) - py p))) /\
      - (1 / 10 ^ 8) <= ra q <= 360 + 1 / 10 ^ 8 /\ Rabs (dec q) <= 90 + bpow radix2 (-40)).
Proof.
  intros Hq GL evs d o H. destruct (C105_alignment_follows_commands NumB T pf oor lc qsort x j ftext left_first cfg evs d o H) as (cs & Hc & Hr).
  exists cs. split; [exact Hc|]. intros Hm p r dc g Hf Hs [Hp1 Hp2] [Ho1 Ho2] Br Bd Bl Bs.
  destruct (star_stored cs _ p r dc g Hq Hm Hr Hf Hs) as (v & _ & Ea & Hu & Hmat).
  destruct (C148_equatorial_to_horizontal T GL r dc (g_latitude g) (sidereal_in g) Br Bd Bl Bs) as (V & BA & BE). cbv zeta in V, BA, BE.
  unfold direction in Hu. fold (sidereal_in g) in Hu.
  revert V BA BE Hu. generalize (equatorialToHorizontal NumB T r dc (g_latitude g) (sidereal_in g)). intros h V BA BE Hu.
  exists (az h), (alt h). split; [exact V|]. split; [exact BA|]. split; [exact BE|]. intros lat lst Blat Blst.
  destruct (unwrapped_B _ _ Hu BA) as (Ey & Bx & k0 & Ex). cbn [px py] in Ey, Ex.
  set (o0 := t_orient (d_tel d)) in *. destruct (Hmat o0) as [Ety Emat].
  assert (By : Rabs (py (reference v) : R) <= 1000). { rewrite Ey. simpl bpow in BE. change (F NumB) with R in *. lra. }
  destruct (translated (t_align (d_tel d)) o0 v Ho1 Ho2) as (c & k & Ec & Cx & Cy & Dx & Dy); try (rewrite Ea; assumption); try assumption.
  { change (F NumB) with R in *. lra. }
  destruct (C148_horizontal_to_equatorial T GL (px c) (py c) lat lst) as (N & B1 & B2); [change (F NumB) with R in *; lra|change (F NumB) with R in *; lra|exact Blat|exact Blst|].
  cbv zeta in N, B1, B2. eexists. unfold calibratedEquatorial. fold o0. rewrite Ety. cbn [bind]. rewrite Ec. cbn [bind]. split; [reflexivity|].
  split; [|split; [exact B1|exact B2]].
  rewrite Ea in Cx, Cy. rewrite Ey in Cy. change (F NumB) with R in *.
  assert (L : near (bpow radix2 (-37)) (vec (px c) (py c)) (vec (az h + (px o0 - px p) + 360 * IZR (k0 + k)) (alt h + (py o0 - py p)))).
  { apply vec_lip.
    - rewrite plus_IZR. apply Rabs_le_inv in Cx, Ex. apply Rabs_le. simpl bpow in *. lra.
    - apply Rabs_le_inv in Cy. apply Rabs_le. simpl bpow in *. lra.
    - simpl bpow. lra. }
  rewrite (vec_turn _ _ _ (turned_back (az h + (px o0 - px p)) (k0 + k))) in L.
  eapply near_le; [|exact (near_trans _ _ _ _ _ N L)]. simpl bpow. lra.
Qed.

(** ... and when the tube points where it pointed for the star: at the same latitude the star, moved by what sidereal time has
    advanced since, within 2^-32 (48 microarcseconds). *)
Theorem C149_star_drifts_with_the_sky : permuting NumB qsort -> good_libm T -> forall evs d o, history boot evs = Ok (d, o) ->
  exists cs, commands boot evs cs /\ (at_most 63 cs -> forall p r dc g, first_named_in cs p r dc g -> synchronised cs [] = [p] ->
    t_orient (d_tel d) = p -> moderate p -> Rabs r <= 1000 -> Rabs dc <= 4000 -> Rabs (g_latitude g) <= 4000 -> Rabs (sidereal_in g) <= 1000 ->
    forall lst : R, Rabs lst <= 4000 ->
    exists q, calibratedEquatorial NumB T (d_tel d) (g_latitude g) lst = Ok (q, POINT) /\
      near (bpow radix2 (-32)) (vec (ra q) (dec q)) (vec (r + (lst - sidereal_in g)) dc) /\
      - (1 / 10 ^ 8) <= ra q <= 360 + 1 / 10 ^ 8 /\ Rabs (dec q) <= 90 + bpow radix2 (-40)).
Proof.
  intros Hq GL evs d o H. destruct (C149_one_star_then_relative Hq GL evs d o H) as (cs & Hc & K).
  exists cs. split; [exact Hc|]. intros Hm p r dc g Hf Hs Ho Hp Br Bd Bl Bs lst Blst.
  destruct (K Hm p r dc g Hf Hs Hp ltac:(rewrite Ho; exact Hp) Br Bd Bl Bs) as (A & E & V & _ & _ & Q).
  destruct (Q (g_latitude g) lst Bl Blst) as (q & Eq & N & B1 & B2). exists q. split; [exact Eq|]. split; [|split; [exact B1|exact B2]].
  rewrite Ho in N. change (F NumB) with R in *. rewrite !same_place in N.
  pose proof (near_trans _ _ _ _ _ N V) as M. rewrite <- !rot_vec in M. apply (rot_near (g_latitude g)) in M. rewrite !rot_rot in M.
  apply (turned lst) in M. rewrite back in M. replace (lst - (sidereal_in g - r)) with (r + (lst - sidereal_in g)) in M by ring.
  eapply near_le; [|exact M]. simpl bpow. lra.
Qed.

Lemma calibrated_is_b64 tl lat lst q ty : calibratedEquatorial NumB T tl lat lst = Ok (q, ty) -> is_b64 (ra q) /\ is_b64 (dec q).
Proof.
  unfold calibratedEquatorial. destruct (getTransformationType _ _ _); [|discriminate]. cbn [bind]. destruct (getCalibratedOrientation _ _ _); [|discriminate]. cbn [bind].
  intros E. apply Ok2 in E. destruct E as [<- _]. split; apply is_b64_round.
Qed.
(** ... in degrees, up to declination 85. *)
Theorem C149_star_in_degrees : permuting NumB qsort -> good_libm T -> forall evs d o, history boot evs = Ok (d, o) ->
  exists cs, commands boot evs cs /\ (at_most 63 cs -> forall p r dc g, first_named_in cs p r dc g -> synchronised cs [] = [p] ->
    t_orient (d_tel d) = p -> moderate p -> Rabs r <= 1000 -> Rabs dc <= 85 -> Rabs (g_latitude g) <= 4000 -> Rabs (sidereal_in g) <= 1000 ->
    forall lst : R, Rabs lst <= 4000 ->
    exists q, calibratedEquatorial NumB T (d_tel d) (g_latitude g) lst = Ok (q, POINT) /\
      Rabs (dec q - dc) <= 6 / 10 ^ 8 /\ exists k : Z, Rabs (ra q - (r + (lst - sidereal_in g) + 360 * IZR k)) <= 15 / 10 ^ 7 /\
      - (1 / 10 ^ 8) <= ra q <= 360 + 1 / 10 ^ 8).
Proof.
  intros Hq GL evs d o H. destruct (C149_star_drifts_with_the_sky Hq GL evs d o H) as (cs & Hc & K).
  exists cs. split; [exact Hc|]. intros Hm p r dc g Hf Hs Ho Hp Br Bd Bl Bs lst Blst.
  destruct (K Hm p r dc g Hf Hs Ho Hp Br ltac:(change (F NumB) with R in *; lra) Bl Bs lst Blst) as (q & Eq & N & Br' & Bq). exists q. split; [exact Eq|].
  change (F NumB) with R in *.
  destruct (near_angles (bpow radix2 (-32)) (ra q) (dec q) (r + (lst - sidereal_in g)) dc) as (D & k & A); [simpl bpow; lra|exact N|simpl bpow in Bq; lra|exact Bd|].
  split; [simpl bpow in *; lra|]. exists k. split; [simpl bpow in *; lra|exact Br'].
Qed.

(** ** C150 *)
(** What a Stellarium client is sent after one star, the tube still on it: the 24-byte message with the star, moved by what
    sidereal time has advanced, right within 7 milliarcseconds in right ascension and 1 milliarcsecond in declination. *)
Theorem C150_message_carries_the_star : permuting NumB qsort -> good_libm T -> forall evs d o, history boot evs = Ok (d, o) ->
  exists cs, commands boot evs cs /\ (at_most 63 cs -> forall p r dc g, first_named_in cs p r dc g -> synchronised cs [] = [p] ->
    t_orient (d_tel d) = p -> moderate p -> Rabs r <= 1000 -> 1 / 10 ^ 5 <= dc <= 85 -> Rabs (g_latitude g) <= 4000 -> Rabs (sidereal_in g) <= 1000 ->
    forall e d' o' b, M_Main.step NumB T pf oor lc qsort (Ok x) (Some j) ftext left_first cfg d (Pass e) = Ok (d', o') -> In (TcpOut b) o' -> length b = 24%nat ->
    g_latitude (d_gnss d') = g_latitude g -> Rabs (sidereal_in (d_gnss d')) <= 4000 ->
    forall s, 1 / 10 ^ 5 <= s <= 360 - 1 / 10 ^ 5 -> same_turn s (r + (sidereal_in (d_gnss d') - sidereal_in g)) ->
    exists w1 w2, b = current_position 0 w1 w2 /\ (0 <= w1 < 2 ^ 32)%Z /\ (0 <= w2 < 2 ^ 32)%Z /\
      Rabs (IZR w1 * unit_deg - s) <= 2 / 10 ^ 6 /\ Rabs (IZR w2 * unit_deg - dc) <= 2 / 10 ^ 7).
Proof.
  intros Hq GL evs d o H. destruct (C149_star_in_degrees Hq GL evs d o H) as (cs & Hc & K).
  exists cs. split; [exact Hc|]. intros Hm p r dc g Hf Hs Ho Hp Br Bd Bl Bs e d' o' b E Hb Lb Hlat Bs' s Hs1 Hs2.
  assert (Sz : sized NumB d) by (eapply history_summary; [exact H|split; reflexivity]).
  cbn [M_Main.step] in E. destruct (C96_position_messages NumB T pf oor lc qsort (Ok x) (Some j) ftext left_first cfg _ _ _ _ _ E Sz Hb Lb) as (_ & _ & _ & _ & _ & q & ty & Eq & buf & Ep & ->).
  destruct (K Hm p r dc g Hf Hs Ho Hp Br ltac:(apply Rabs_le; change (F NumB) with R in *; lra) Bl Bs (sidereal_in (d_gnss d')) Bs') as (q' & Eq' & Hd & k & Ha & Br').
  rewrite <- Hlat in Eq'. unfold sidereal_in in Eq'. rewrite Eq in Eq'. apply Ok2 in Eq'. destruct Eq' as [Eq1 _]. subst q'.
  destruct (calibrated_is_b64 _ _ _ _ _ Eq) as [F1 F2]. destruct Sz as [Lt _]. change (F NumB) with R in *. apply Rabs_le_inv in Hd, Ha.
  destruct Hs2 as [k' Ek']. set (z := (r + (sidereal_in (d_gnss d') - sidereal_in g))) in *. clearbody z.
  assert (Ez : z = s + 360 * IZR (- k')) by (rewrite opp_IZR; lra). rewrite Ez in Ha.
  assert (K0 : (- k' + k = 0)%Z).
  { assert (-1 < IZR (- k' + k) < 1) as [L U] by (rewrite plus_IZR; lra). apply lt_IZR in L, U. lia. }
  assert (K1 : IZR (- k') + IZR k = 0) by (rewrite <- plus_IZR, K0; reflexivity).
  destruct (C04_layout_and_frame NumB oor (ra q) (dec q) 0 (d_tx d) 256 24 buf) as (_ & w1 & w2 & E1 & E2 & ->); [rewrite Lt; lia|lia|exact Ep|].
  destruct (value_roundtrip_B oor (ra q) F1) as (n1 & G1 & R1 & A1); [unfold unit_deg; lra|].
  destruct (value_roundtrip_B oor (dec q) F2) as (n2 & G2 & R2 & A2); [unfold unit_deg; lra|].
  rewrite G1 in E1. rewrite G2 in E2. injection E1 as <-. injection E2 as <-.
  exists n1, n2. split.
  { rewrite firstn_app. replace (24 - length (current_position 0 n1 n2))%nat with O by reflexivity. rewrite app_nil_r. apply firstn_all2. cbn. lia. }
  split; [exact R1|]. split; [exact R2|]. rewrite C06_decode_is_exact_ieee in A1, A2 by assumption. change (F NumB) with R in *. unfold unit_deg in *. apply Rabs_le_inv in A1, A2. simpl bpow in *.
  split; apply Rabs_le; lra.
Qed.

(** Non-vacuity: a device just switched on (date 0000-00-00), and one sync over Bluetooth on the star (0, 0). *)
Example C149_nonvacuous : permuting NumB qsort ->
  exists d o, history boot [Bluetooth a_sync] = Ok (d, o) /\
  forall cs, commands boot [Bluetooth a_sync] cs -> at_most 63 cs /\ exists p r dc g, first_named_in cs p r dc g /\ synchronised cs [] = [p] /\
    t_orient (d_tel d) = p /\ moderate p /\ Rabs r <= 1000 /\ Rabs dc <= 4000 /\ Rabs (g_latitude g) <= 4000 /\ Rabs (sidereal_in g) <= 1000.
Proof.
  intros Hq. destruct zeros_spell as [Hw Hz].
  pose proof (C12_sync_fields NumB T pf oor qsort (Ok x) (Some j) (d_tel boot) (d_gnss boot) 0 0 eight_zeros eight_zeros 44 [] [] (d_tx boot) 256 Hw Hw Hz Hz ltac:(lia) ltac:(cbn; lia)) as H.
  cbv zeta in H. fold a_sync in H. rewrite app_nil_r in H.
  match type of H with _ = (do _ <- addReferencePoint _ _ qsort _ _ ?t ?a ?b ?c ?l; _) =>
    destruct (add_point NumB T qsort x j t a b c l Hq (WF_init NumB) ltac:(cbn; lia)) as (t' & Et & _ & Eo & _ & Nt) end.
  rewrite Et in H. cbn [bind] in H. eexists _, _. split.
  { cbn [M_Main.history M_Main.step]. unfold onBluetoothData. rewrite H. cbn [bind]. change (0 <? 1)%Z with true. cbv iota zeta. reflexivity. }
  intros cs Hc. inversion Hc as [|? ? d' o' ? c cs' Es Hco Hcs]; subst. inversion Hcs; subst. destruct Hco as [(_ & r & dc & Hsay & ->)|(Hn & _)]; [|contradiction Hn; apply a_sync_is].
  destruct (Hsay 0%Z 0%Z eight_zeros eight_zeros 44%Z [] Hw Hw Hz Hz eq_refl) as [Hr Hd]. cbn [app].
  assert (A0 : fdiv NumB (fmul NumB (fZ NumB 0) (fZ NumB 360)) (fZ NumB 4294967296) = 0).
  { cbn [fdiv fmul fZ NumB]. rewrite (b64_of_int 0) by lia. rewrite Rmult_0_l, (b64_of_int 0) by lia. unfold Rdiv. rewrite Rmult_0_l. apply (b64_of_int 0). lia. }
  cbv zeta in Hr, Hd. rewrite A0 in Hr, Hd.
  assert (Ed : dc = 0).
  { rewrite Hd. cbn [fZ flt NumB]. rewrite (b64_of_int 270) by lia. rewrite Rlt_bool_false by lra. reflexivity. }
  rewrite Hr, Ed. split.
  { intros [|[|k]]; cbn; lia. }
  exists (t_orient (d_tel boot)), 0, 0, (d_gnss boot). split; [exists [], []; split; [reflexivity|]; split; [intros []|reflexivity]|].
  split; [reflexivity|]. split; [exact Eo|]. split.
  { cbn [M_Main.boot d_tel tele_init t_orient]. split; cbn [px py fZ NumB]; rewrite (b64_of_int 0) by lia; rewrite Rabs_R0; lra. }
  split; [rewrite Rabs_R0; lra|]. split; [rewrite Rabs_R0; lra|]. split.
  { cbn [M_Main.boot d_gnss gnss_init g_latitude fZ NumB]. rewrite (b64_of_int 48) by lia. apply Rabs_le. lra. }
  assert (L : Rabs (sidereal_in (d_gnss boot)) <= 361); [|lra].
  unfold sidereal_in. apply lst_range; try (cbn; lia).
  cbn [M_Main.boot d_gnss gnss_init g_longitude fZ NumB]. rewrite (b64_of_int 11) by lia. apply Rabs_le. lra.
Qed.
End Device.
(** The bound on the sidereal time is no restriction: it holds whatever moderate numbers the date fields contain. *)
Lemma sidereal_moderate (g : gnss NumB) : (let t := g_time g in Z.abs (tm_year t) <= 2 ^ 16 /\ Z.abs (tm_mon t) <= 2 ^ 10 /\ Z.abs (tm_mday t) <= 2 ^ 10 /\
  Z.abs (tm_hour t) <= 2 ^ 10 /\ Z.abs (tm_min t) <= 2 ^ 10 /\ Z.abs (tm_sec t) <= 2 ^ 10)%Z -> Rabs (g_longitude g) <= 1000 -> Rabs (sidereal_in g) <= 1000.
Proof.
  cbv zeta. intros (H1 & H2 & H3 & H4 & H5 & H6) Hl. assert (L : Rabs (sidereal_in g) <= 361); [|lra]. apply lst_range; assumption.
Qed.
Print Assumptions C148_equatorial_to_horizontal.
Print Assumptions C148_horizontal_to_equatorial.
Print Assumptions C148_round_trip.
Print Assumptions C149_one_star_then_relative.
Print Assumptions C149_star_drifts_with_the_sky.
Print Assumptions C149_star_in_degrees.
Print Assumptions C150_message_carries_the_star.
Print Assumptions C148_round_trip_in_degrees.
(** The remaining hypotheses of C150 (a message is sent in a pass after the sync) are met: a Stellarium client connects, a GNSS
    sentence arrives, the client names a star (right ascension 90, declination 45) and half a second later gets a position.
    Executable arithmetic, trigonometric functions constant; shown: stored stars, NexStar mode, GNSS data, messages to the client. *)
From Verif Require Import P_AlignWitness Properties_Publish Properties_Device2 Properties_Device5.
Definition a_goto : list Z := goto_message 0 0x40000000 0x20000000.
Definition there (t : Z) (tcp : list Z) : event NumSF := Pass (env_at NumSF t (Some tcp) [] [] []).
Definition star_part : list (event NumSF) := first_part ++ [there 1110010 []; there 1110011 []; there 1110012 a_goto].
Example C150_session_nonvacuous :
  match hist0 (boot NumSF) (star_part ++ [there 1510010 []; there 1510011 []; there 1510012 []]) with
  | Ok (d, _) =>
      match hist0 d [there 1510013 []] with
      | Ok (d', o) => Some (numVertices (t_align (d_tel d)), d_nexstar d, d_gnssAvailable d', flat_map (fun x => match x with TcpOut b => [List.length b] | _ => [] end) o)
      | UB _ => None
      end
  | UB _ => None
  end = Some (1%Z, false, true, [24%nat]).
Proof. vm_compute. reflexivity. Qed.
