(** C120-C122: what the device reports after one or two stars, from power-on to the bytes on the wire
    (exact arithmetic, any history). *)
From Verif Require Import Base Num M_Libc P_Libc M_Checkbits M_Linalg M_Helper M_Alignment S_Alignment P_Alignment P_AlignState P_AlignState2 P_AlignR M_Telescope S_Sky P_Sky M_Stellarium S_Stellarium P_Stellarium P_Stellarium2 M_Gnss M_NexStar S_NexStar P_NexStar M_Led M_Imu P_Imu M_Main P_Sched P_Main P_Main2 P_Device S_Device P_Device2 P_Device3 S_Safe Properties_Alignment Properties_Sky Properties_NexStar Properties_NexStar2 Properties_Stellarium Properties_Main3 Properties_Device3.
From Coq Require Import Permutation Reals Lra.
From Flocq Require Import Core.
Open Scope R_scope.
Notation length := List.length.

(** [p] was named, for the first time since the last reset, by the command "the star (r, dc), now and here (g)". *)
Definition first_named (cs : list (command NumR)) (p : point NumR) (r dc : R) (g : gnss NumR) : Prop :=
  exists cs0 rest, cs = cs0 ++ Sync p r dc g :: rest /\ ~ In Reset rest /\
    existsb (fun q => same NumR q p) (synchronised cs0 []) = false.
(** local sidereal time (degrees) of a GNSS record *)
Definition sidereal (g : gnss NumR) : R := getLocalSiderealTimeDegrees NumR (g_time g) (g_longitude g).
Definition latitude (g : gnss NumR) : R := g_latitude g.
(** the star (r, dc) is seen at azimuth A, altitude E *)
Definition seen_at (r dc : R) (g : gnss NumR) (A E : R) : Prop :=
  -90 < E < 90 /\ vec A E = horizon_vec (sidereal g - r) dc (latitude g).

Lemma orders_no_clear cs : ~ In Reset cs -> no_clear NumR (all_orders NumR TrigR cs).
Proof.
  induction cs as [|[p r d g|] cs IH]; intros H Hi; cbn [all_orders flat_map orders app] in Hi; [contradiction| |apply H; left; reflexivity].
  destruct Hi as [Hi|[Hi|Hi]]; try discriminate. apply IH; [intros K; apply H; right; exact K|exact Hi].
Qed.
Lemma all_orders_app c1 c2 : all_orders NumR TrigR (c1 ++ c2) = all_orders NumR TrigR c1 ++ all_orders NumR TrigR c2.
Proof. apply flat_map_app. Qed.
(** a history whose last command is a sync ends in a triangulation *)
Lemma ends_in_triangulation cs0 p r d g rest : ~ In Reset rest ->
  exists ops, all_orders NumR TrigR (cs0 ++ Sync p r d g :: rest) = ops ++ [Triangulate].
Proof.
  intros H. destruct (exists_last_or_nil rest) as [->|(l & c & ->)].
  - exists (all_orders NumR TrigR cs0 ++ [Add p (direction NumR TrigR r d g)]). rewrite all_orders_app. cbn [all_orders flat_map orders app]. rewrite <- app_assoc. reflexivity.
  - destruct c as [p' r' d' g'|]; [|exfalso; apply H; apply in_or_app; right; left; reflexivity].
    exists (all_orders NumR TrigR (cs0 ++ Sync p r d g :: l) ++ [Add p' (direction NumR TrigR r' d' g')]).
    change (cs0 ++ Sync p r d g :: l ++ [Sync p' r' d' g']) with (cs0 ++ (Sync p r d g :: l) ++ [Sync p' r' d' g']). rewrite app_assoc, all_orders_app.
    cbn [all_orders flat_map orders app]. rewrite <- app_assoc. reflexivity.
Qed.
Lemma never_firstn ops1 ops2 : never_more_than NumR 63 (ops1 ++ ops2) -> never_more_than NumR 63 ops1.
Proof.
  intros H k. destruct (Nat.le_gt_cases k (length ops1)) as [K|K].
  - specialize (H k). rewrite firstn_app in H. replace (k - length ops1)%nat with O in H by lia. cbn [firstn] in H. rewrite app_nil_r in H. exact H.
  - specialize (H (length ops1)). rewrite firstn_app, firstn_all, Nat.sub_diag in H. cbn [firstn] in H. rewrite app_nil_r in H. rewrite firstn_all2 by lia. exact H.
Qed.
Section Device.
Context (pf : platform) (oor : conv_policy) (lc : libc NumR) (qsort : list (vpair NumR) -> list (vpair NumR)) (x : F NumR) (j : F NumR * F NumR).
Context (ftext : nat -> F NumR -> list Z) (left_first : bool) (cfg : config).
Notation step := (M_Main.step NumR TrigR pf oor lc qsort (Ok x) (Some j) ftext left_first cfg).
Notation loop := (M_Main.loop NumR TrigR pf oor lc qsort (Ok x) (Some j) ftext left_first cfg).
Notation history := (history NumR TrigR pf oor lc qsort (Ok x) (Some j) ftext left_first cfg).
Notation boot := (boot NumR).
Notation commands := (commands NumR TrigR pf oor lc qsort (Ok x) (Some j) ftext left_first cfg).

(** the stored pair of a named star *)
Lemma named_star cs a p r dc g : permuting NumR qsort -> at_most 63 cs -> run NumR qsort (Ok x) (Some j) (align_init NumR) (all_orders NumR TrigR cs) = Ok a ->
  first_named cs p r dc g -> exists v ops, In v (stored a) /\ actual v = p /\
    all_orders NumR TrigR cs = ops ++ [Triangulate] /\ never_more_than NumR 63 ops /\
    Permutation (map actual (stored a)) (synchronised cs []) /\
    exists A E, (forall A' E', seen_at r dc g A' E' -> E' = E /\ same_turn A' A) /\ vec A E = horizon_vec (sidereal g - r) dc (latitude g) /\
      same_turn (X (reference v)) A /\ Y (reference v) = E.
Proof.
  intros Hq Hm H (cs0 & rest & -> & Hnr & Hd). apply at_most_orders with (T := TrigR) in Hm.
  destruct (ends_in_triangulation cs0 p r dc g rest Hnr) as (ops & Eo).
  assert (Em := Hm). rewrite Eo in Em. apply never_firstn in Em.
  assert (Hp := proj1 (C34_points_kept NumR qsort x j _ a Hq Hm H)). rewrite synchronised_spec in Hp.
  pose proof Hm as Hm'. pose proof H as H'. rewrite all_orders_app in Hm', H'. cbn [all_orders flat_map orders app] in Hm', H'. 
  destruct (named NumR qsort x j Hq _ _ _ _ a Hm') as (r' & Hu & Hin).
  { intros [K|K]; [discriminate|]. exact (orders_no_clear rest Hnr K). }
  { rewrite (synchronised_spec NumR TrigR). exact Hd. }
  { exact H'. }
  exists (VP p r'), ops. split; [exact Hin|]. split; [reflexivity|]. split; [exact Eo|]. split; [exact Em|]. split; [exact Hp|].
  apply unwrapped_turn in Hu. destruct Hu as [Ht Ey]. cbn [reference].
  pose proof (C30_horizontal_is_where_the_star_stands r dc (latitude g) (sidereal g)) as V. cbv zeta in V.
  destruct (C29_normalised r dc (latitude g) (sidereal g)) as (_ & _ & B).
  eexists _, _. split; [|split; [exact V|split; [exact Ht|exact Ey]]].
  intros A' E' [HE VE]. rewrite <- V in VE. destruct (vec_inj _ _ _ _ VE ltac:(lra) B) as [K1 K2]. split; [exact K1|apply K2; lra].
Qed.

(** ** C120 *)
(** After one star, from power-on or from the last reset, with the tube turned since then by any amount: the
    reported position is the point of the sky that is seen in the direction of the star at the time of the sync,
    turned by the same amount, from the latitude and at the sidereal time that are given. *)
Theorem C120_one_star_then_relative : permuting NumR qsort -> forall evs d o, history boot evs = Ok (d, o) ->
  exists cs, commands boot evs cs /\ (at_most 63 cs -> forall p r dc g A E, first_named cs p r dc g -> synchronised cs [] = [p] ->
    seen_at r dc g A E -> forall lat lst : R,
    exists q, calibratedEquatorial NumR TrigR (d_tel d) lat lst = Ok (q, POINT) /\
      horizon_vec (lst - RA q) (DEC q) lat = vec (A + (X (t_orient (d_tel d)) - X p)) (E + (Y (t_orient (d_tel d)) - Y p)) /\
      0 <= RA q < 360 /\ -90 <= DEC q <= 90).
Proof.
  intros Hq evs d o H. destruct (C105_alignment_follows_commands NumR TrigR pf oor lc qsort x j ftext left_first cfg evs d o H) as (cs & Hc & Hr).
  exists cs. split; [exact Hc|]. intros Hm p r dc g A E Hf Hs HA lat lst.
  destruct (named_star cs _ p r dc g Hq Hm Hr Hf) as (v & ops & Hv & Ea & Eo & Em & Hp & A0 & E0 & Hu & V0 & Ht & Ey).
  rewrite Hs in Hp. apply Permutation_length in Hp. rewrite map_length in Hp.
  destruct (stored (t_align (d_tel d))) as [|v' [|w l]] eqn:Es; try discriminate. destruct Hv as [->|[]].
  rewrite Eo in Hr. destruct (C40_one_point_is_translation qsort x j ops _ v Hq Hr Es (t_orient (d_tel d))) as [Ety Hcal].
  destruct (position_of_direction (d_tel d) _ _ lat lst POINT Ety Hcal) as (q & Eq & Vq & B).
  exists q. split; [exact Eq|]. split; [|exact B]. rewrite Vq. destruct (Hu A E HA) as [-> T]. rewrite Ea, Ey.
  replace (Y (t_orient (d_tel d)) + (E0 - Y p)) with (E0 + (Y (t_orient (d_tel d)) - Y p)) by ring. apply vec_turn.
  destruct Ht as [k Ek], T as [k' Ek']. exists (k - k')%Z. rewrite minus_IZR, Ek, Ek'. ring.
Qed.

(** ** C121 *)
(** After one or two stars, the tube pointing where it pointed for one of them: at the same latitude the reported
    declination is the star's, and the reported right ascension is the star's plus what sidereal time has advanced. *)
Theorem C121_star_drifts_with_the_sky : permuting NumR qsort -> forall evs d o, history boot evs = Ok (d, o) ->
  exists cs, commands boot evs cs /\ (at_most 63 cs -> forall p r dc g, first_named cs p r dc g -> (length (synchronised cs []) <= 2)%nat ->
    t_orient (d_tel d) = p -> forall lst : R,
    exists q ty, calibratedEquatorial NumR TrigR (d_tel d) (latitude g) lst = Ok (q, ty) /\
      vec (RA q) (DEC q) = vec (r + (lst - sidereal g)) dc /\
      (-90 <= dc <= 90 -> DEC q = dc) /\ (-90 < dc < 90 -> same_turn (RA q) (r + (lst - sidereal g))) /\
      0 <= RA q < 360).
Proof.
  intros Hq evs d o H. destruct (C105_alignment_follows_commands NumR TrigR pf oor lc qsort x j ftext left_first cfg evs d o H) as (cs & Hc & Hr).
  exists cs. split; [exact Hc|]. intros Hm p r dc g Hf Hs HA lst.
  destruct (C106_correction_always_defined NumR TrigR pf oor lc qsort x j ftext left_first cfg Hq evs d o H (t_orient (d_tel d))) as (ty & _ & _ & Ety & _).
  destruct (named_star cs _ p r dc g Hq Hm Hr Hf) as (v & ops & Hv & Ea & Eo & Em & Hp & A0 & E0 & _ & V0 & Ht & Ey).
  assert (HW : WF NumR (t_align (d_tel d))) by (eapply run_WF; [exact Hq|apply WF_init|exact Hr]).
  apply Permutation_length in Hp. rewrite map_length in Hp. pose proof (stored_length NumR _ HW) as Hl.
  rewrite Eo in Hr. assert (Hn : (1 <= numVertices (t_align (d_tel d)) <= 2)%Z).
  { destruct (stored (t_align (d_tel d))) eqn:Es; [destruct Hv|]. cbn [length] in *. destruct HW as ((? & ?) & _). lia. }
  pose proof (C46_one_or_two_points_exact qsort x j ops _ v Hq Em Hr Hn Hv) as Hcal.
  rewrite Ea in Hcal. rewrite <- HA in Hcal.
  destruct (position_of_direction (d_tel d) _ _ (latitude g) lst ty Ety Hcal) as (q & Eq & Vq & B1 & B2).
  rewrite Ey, (vec_turn _ _ _ Ht), V0 in Vq. apply horizon_inj in Vq.
  assert (V : vec (RA q) (DEC q) = vec (r + (lst - sidereal g)) dc).
  { replace (RA q) with (lst - (lst - RA q)) by ring. replace (r + (lst - sidereal g)) with (lst - (sidereal g - r)) by ring.
    generalize dependent (lst - RA q). intros u Vq. unfold vec in *. injection Vq as V1 V2 V3. rewrite !radians_minus, !cos_minus, !sin_minus.
    apply triple; [|  |exact V3].
    - transitivity (cos (radians lst) * (cos (radians u) * cos (radians (DEC q))) + sin (radians lst) * (sin (radians u) * cos (radians (DEC q)))); [ring|]. rewrite V1, V2, !radians_minus, !cos_minus, !sin_minus. ring.
    - transitivity (sin (radians lst) * (cos (radians u) * cos (radians (DEC q))) - cos (radians lst) * (sin (radians u) * cos (radians (DEC q)))); [ring|]. rewrite V1, V2, !radians_minus, !cos_minus, !sin_minus. ring. }
  exists q, ty. split; [exact Eq|]. split; [exact V|]. split; [|split; [|exact B1]].
  - intros Hdc. apply (vec_inj _ _ _ _ V B2 Hdc).
  - intros Hdc. destruct (vec_inj _ _ _ _ V B2 ltac:(lra)) as [Ee T]. apply T. lra.
Qed.

(** ** C122 *)
(** ... and what a Stellarium client is sent then: the 24-byte message with that position, to the nearest unit
    (180/2^31 degrees), for a star of the northern sky. *)
Theorem C122_message_carries_the_star : permuting NumR qsort -> forall evs d o, history boot evs = Ok (d, o) ->
  exists cs, commands boot evs cs /\ (at_most 63 cs -> forall p r dc g, first_named cs p r dc g -> (length (synchronised cs []) <= 2)%nat ->
    t_orient (d_tel d) = p -> 0 <= dc < 90 ->
    forall e d' o' b, step d (Pass e) = Ok (d', o') -> In (TcpOut b) o' -> length b = 24%nat -> latitude (d_gnss d') = latitude g ->
    forall s, 0 <= s < 360 - unit_deg / 2 -> same_turn s (r + (sidereal (d_gnss d') - sidereal g)) ->
    exists w1 w2, b = current_position 0 w1 w2 /\ (0 <= w1 < 2 ^ 32)%Z /\ (0 <= w2 < 2 ^ 32)%Z /\
      Rabs (IZR w1 * unit_deg - s) <= unit_deg / 2 /\ Rabs (IZR w2 * unit_deg - dc) <= unit_deg / 2).
Proof.
  intros Hq evs d o H. destruct (C121_star_drifts_with_the_sky Hq evs d o H) as (cs & Hc & K).
  exists cs. split; [exact Hc|]. intros Hm p r dc g Hf Hs HA Hdc e d' o' b E Hb Lb Hlat s Hs1 Hs2.
  assert (Sz : sized NumR d) by (eapply history_summary; [exact H|split; reflexivity]).
  cbn [M_Main.step] in E. destruct (C96_position_messages NumR TrigR pf oor lc qsort (Ok x) (Some j) ftext left_first cfg _ _ _ _ _ E Sz Hb Lb) as (_ & _ & _ & _ & _ & q & ty & Eq & buf & Ep & ->).
  destruct (K Hm p r dc g Hf Hs HA (sidereal (d_gnss d'))) as (q' & ty' & Eq' & _ & Hd & Ht & B).
  rewrite <- Hlat in Eq'. unfold latitude, sidereal in Eq'. rewrite Eq in Eq'. injection Eq' as <- <-.
  specialize (Hd ltac:(lra)). specialize (Ht ltac:(lra)).
  assert (Es : RA q = s).
  { apply (same_turn_norm (RA q) s); [|exact B|unfold unit_deg in *; lra]. destruct Ht as [k Ek], Hs2 as [k' Ek']. exists (k - k')%Z. rewrite minus_IZR. lra. }
  destruct Sz as [Lt _].
  destruct (C04_layout_and_frame NumR oor (ra q) (dec q) 0 (d_tx d) 256 24 buf) as (_ & w1 & w2 & E1 & E2 & ->); [rewrite Lt; lia|lia|exact Ep|].
  destruct (C06_value_roundtrip_exact_reals oor (RA q)) as (n1 & F1 & R1 & A1); [rewrite Es; exact Hs1|].
  destruct (C06_value_roundtrip_exact_reals oor (DEC q)) as (n2 & F2 & R2 & A2); [rewrite Hd; unfold unit_deg; lra|].
  change (ra q) with (RA q) in E1. change (dec q) with (DEC q) in E2. rewrite F1 in E1. rewrite F2 in E2. injection E1 as ->. injection E2 as ->.
  exists w1, w2. split.
  { rewrite firstn_app. replace (24 - length (current_position 0 w1 w2))%nat with O by reflexivity. rewrite app_nil_r. apply firstn_all2. cbn. lia. }
  split; [exact R1|]. split; [exact R2|]. rewrite Es in A1. rewrite Hd in A2. unfold decode_expr in A1, A2. cbn [fmul fdiv fZ NumR] in A1, A2. change (F NumR) with R in A1, A2. unfold unit_deg in *.
  split; [replace (IZR w1 * (180 / 2147483648)) with (IZR w1 / 2147483648 * 180) by field; exact A1|replace (IZR w2 * (180 / 2147483648)) with (IZR w2 / 2147483648 * 180) by field; exact A2].
Qed.

(** ** Non-vacuity: a device just switched on, and one sync over Bluetooth on the star (0, 0) *)
Lemma equator_seen g : latitude g = 48 -> exists A E, seen_at 0 0 g A E.
Proof.
  intros Hl. pose proof (C30_horizontal_is_where_the_star_stands 0 0 (latitude g) (sidereal g)) as V. cbv zeta in V.
  destruct (C29_normalised 0 0 (latitude g) (sidereal g)) as (_ & _ & B).
  eexists _, _. split; [|exact V]. revert B V. generalize (equatorialToHorizontal NumR TrigR 0 0 (latitude g) (sidereal g)). intros h B V. rewrite Hl in V.
  unfold vec, horizon_vec in V. injection V as _ _ V. pose proof (COS_bound (radians (sidereal g - 0))) as Cb.
  replace (sin (radians 0)) with 0 in V by (replace (radians 0) with 0 by (unfold radians; field); symmetry; apply sin_0).
  replace (cos (radians 0)) with 1 in V by (replace (radians 0) with 0 by (unfold radians; field); symmetry; apply cos_0).
  assert (C1 : 0 < cos (radians 48) < 1).
  { pose proof PI_RGT_0. unfold radians. split; [apply cos_gt_0; lra|]. rewrite <- cos_0. apply cos_decreasing_1; lra. }
  assert (N1 : forall s, s = 90 \/ s = -90 -> ALT h <> s).
  { intros s Hs K. rewrite K in V. assert (Es : sin (radians s) = 1 \/ sin (radians s) = -1).
    { destruct Hs as [-> | ->]; [left|right]; unfold radians; [replace (90 * PI / 180) with (PI / 2) by field; apply sin_PI2|].
      replace (-90 * PI / 180) with (- (PI / 2)) by field. rewrite sin_neg, sin_PI2. reflexivity. }
    set (c := cos (radians 48)) in *. set (y := cos (radians (sidereal g - 0))) in *. clearbody c y. destruct Es as [Es|Es]; rewrite Es in V; nra. }
  pose proof (N1 90 ltac:(auto)). pose proof (N1 (-90) ltac:(auto)). change (-90 < ALT h < 90). lra.
Qed.
Example C120_C121_C122_nonvacuous : permuting NumR qsort ->
  exists d o, history boot [Bluetooth a_sync] = Ok (d, o) /\
  forall cs, commands boot [Bluetooth a_sync] cs -> at_most 63 cs /\ exists p r dc g A E, first_named cs p r dc g /\ synchronised cs [] = [p] /\
    seen_at r dc g A E /\ t_orient (d_tel d) = p /\ 0 <= dc < 90 /\ latitude (d_gnss d) = latitude g.
Proof.
  intros Hq. destruct zeros_spell as [Hw Hz].
  pose proof (C12_sync_fields NumR TrigR pf oor qsort (Ok x) (Some j) (d_tel boot) (d_gnss boot) 0 0 eight_zeros eight_zeros 44 [] [] (d_tx boot) 256 Hw Hw Hz Hz ltac:(lia) ltac:(cbn; lia)) as H.
  cbv zeta in H. fold a_sync in H. rewrite app_nil_r in H.
  match type of H with _ = (do _ <- addReferencePoint _ _ qsort _ _ ?t ?a ?b ?c ?l; _) =>
    destruct (add_point NumR TrigR qsort x j t a b c l Hq (WF_init NumR) ltac:(cbn; lia)) as (t' & Et & _ & Eo & _ & Nt) end.
  rewrite Et in H. cbn [bind] in H. eexists _, _. split.
  { cbn [M_Main.history M_Main.step]. unfold onBluetoothData. rewrite H. cbn [bind]. change (0 <? 1)%Z with true. cbv iota zeta. reflexivity. }
  intros cs Hc. inversion Hc as [|? ? d' o' ? c cs' Es Hco Hcs]; subst. inversion Hcs; subst. destruct Hco as [(_ & r & dc & Hsay & ->)|(Hn & _)]; [|contradiction Hn; apply a_sync_is].
  destruct (Hsay 0%Z 0%Z eight_zeros eight_zeros 44%Z [] Hw Hw Hz Hz eq_refl) as [Hr Hd]. cbn [app].
  assert (Er : r = 0) by (rewrite Hr; cbn [fdiv fmul fZ NumR]; change (F NumR) with R; lra).
  assert (Ed : dc = 0).
  { rewrite Hd. cbn [fdiv fmul fZ fsub flt NumR]. replace (0 * 360 / 4294967296)%R with 0%R by (change (F NumR) with R; lra). rewrite Rlt_bool_false by (change (F NumR) with R; lra). reflexivity. }
  rewrite Er, Ed. split.
  { intros [|[|k]]; cbn; lia. }
  destruct (equator_seen (d_gnss boot) eq_refl) as (A & E & HA).
  exists (t_orient (d_tel boot)), 0, 0, (d_gnss boot), A, E. split; [exists [], []; split; [reflexivity|]; split; [intros []|reflexivity]|].
  split; [reflexivity|]. split; [exact HA|]. split; [exact Eo|]. split; [lra|reflexivity].
Qed.
End Device.
Print Assumptions C120_one_star_then_relative.
Print Assumptions C121_star_drifts_with_the_sky.
Print Assumptions C122_message_carries_the_star.
