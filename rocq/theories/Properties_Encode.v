(** C07, second half: when the conversion in the NexStar position reply is defined. *)
From Verif Require Import Base Num M_Libc M_Linalg M_Helper M_Alignment M_Telescope M_Gnss M_NexStar S_NexStar M_Stellarium P_Libc P_NexStar Properties_NexStar S_Alignment P_AlignState P_AlignR P_Sky Properties_Alignment P_AlignWitness Properties_NexStar2.
From Coq Require Import Reals Lra.
From Flocq Require Import Core.
Open Scope R_scope.

Lemma word_defined (v : R) :
  (exists n, to_u32 NumR strict_iso (v / 360 * 4294967296) = Ok n) <-> - (360 / 4294967296) < v < 360.
Proof.
  unfold to_u32, NumR; cbn [ftrunc]. set (y := v / 360 * 4294967296).
  assert (Hv : v = y * (360 / 4294967296)) by (unfold y; lra).
  split.
  - intros [n H]. destruct ((0 <=? Ztrunc y)%Z && (Ztrunc y <? 4294967296)%Z) eqn:E; [|discriminate].
    apply andb_true_iff in E. destruct E as [E1 E2]. apply Z.leb_le in E1. apply Z.ltb_lt in E2.
    destruct (Rle_or_lt 0 y) as [H0|H0].
    + rewrite Ztrunc_floor in E2 by exact H0. pose proof (Zfloor_ub y). apply Zlt_le_succ, IZR_le in E2.
      rewrite succ_IZR in E2. lra.
    + rewrite Ztrunc_ceil in E1 by lra. pose proof (Zceil_ub y) as U. pose proof (Zceil_lb y) as U'.
      apply IZR_le in E1. lra.
  - intros [H1 H2]. exists (Ztrunc y).
    replace ((0 <=? Ztrunc y)%Z && (Ztrunc y <? 4294967296)%Z) with true; [reflexivity|].
    symmetry. apply andb_true_iff.
    destruct (Rle_or_lt 0 y) as [H0|H0].
    + rewrite Ztrunc_floor by exact H0. split.
      * apply Z.leb_le. apply Zfloor_lub. lra.
      * apply Z.ltb_lt. apply lt_IZR. pose proof (Zfloor_lb y). lra.
    + rewrite Ztrunc_ceil by lra. assert (E : Zceil y = 0%Z) by (apply Zceil_imp; simpl; lra). rewrite E. split; reflexivity.
Qed.

(** Exact arithmetic, ISO conversions: the position request is answered exactly when the position is
    computed and both angles lie in (-360/2^32, 360) degrees -- in particular no declination below
    -8.4e-8 degrees can be reported without an undefined conversion. *)
Theorem C07_nexstar_reply_defined_exactly : forall (T : Trig NumR) pf qsort m9 junk t g (rest extra resp : list Z) max,
  (18 < max)%Z -> (max <= Z.of_nat (length resp))%Z ->
  (exists r, handleRequest NumR T pf strict_iso qsort m9 junk t g (101 :: rest ++ extra)%Z (Z.of_nat (length (101 :: rest)%Z)) resp max = Ok r)
  <->
  (exists q ty, calibratedEquatorial NumR T t (g_latitude g) (getLocalSiderealTimeDegrees NumR (g_time g) (g_longitude g)) = Ok (q, ty) /\
     - (360 / 4294967296) < ra q < 360 /\ - (360 / 4294967296) < dec q < 360).
Proof.
  intros. rewrite C08_position_reply by assumption.
  destruct (calibratedEquatorial _ _ _ _ _) as [[q ty]|u]; cbn [bind].
  2:{ split; [intros [r E]; discriminate|intros (q & ty & E & _); discriminate]. }
  change (fmul NumR (fdiv NumR (ra q) (fZ NumR 360)) (fZ NumR 4294967296)) with (ra q / 360 * 4294967296).
  change (fmul NumR (fdiv NumR (dec q) (fZ NumR 360)) (fZ NumR 4294967296)) with (dec q / 360 * 4294967296).
  split.
  - intros [r E]. destruct (to_u32 NumR strict_iso (ra q / 360 * 4294967296)) as [w1|] eqn:E1; [|discriminate]. cbn [bind] in E.
    destruct (to_u32 NumR strict_iso (dec q / 360 * 4294967296)) as [w2|] eqn:E2; [|discriminate].
    exists q, ty. split; [reflexivity|]. split; apply word_defined; eauto.
  - intros (q' & ty' & E & H1 & H2). assert (q' = q) by congruence. subst q'.
    apply word_defined in H1. apply word_defined in H2. destruct H1 as [w1 E1]. destruct H2 as [w2 E2].
    rewrite E1. cbn [bind]. rewrite E2. cbn [bind]. eauto.
Qed.
Print Assumptions C07_nexstar_reply_defined_exactly.

(** ** C64 at the interface: whoever syncs the first or second star on a southern target (declination
    below -360/2^32 degrees) makes the next position request an undefined conversion. *)
Theorem C64_southern_sync_then_position_refuted : forall pf qsort x j ops a p cal ra dec g (rest extra resp : list Z) max,
  permuting NumR qsort -> never_more_than NumR 63 ops -> reaches NumR qsort x j ops a -> (numVertices a <= 1)%Z ->
  existsb (fun q => same NumR q p) (map actual (stored a)) = false ->
  -90 <= dec <= - (360 / 4294967296) -> (18 < max)%Z -> (max <= Z.of_nat (length resp))%Z ->
  exists t', addReferencePoint NumR TrigR qsort (Ok x) (Some j) (Tele a p cal) ra dec (g_latitude g)
               (getLocalSiderealTimeDegrees NumR (g_time g) (g_longitude g)) = Ok t' /\
  ~ exists r, handleRequest NumR TrigR pf strict_iso qsort (Ok x) (Some j) t' g (101 :: rest ++ extra)%Z (Z.of_nat (length (101 :: rest)%Z)) resp max = Ok r.
Proof.
  intros pf qsort x j ops a p cal r d g rest extra resp max Hq Hn Hr Ha Hd Hdec H1 H2.
  destruct (C13_synced_is_reported qsort x j ops a p cal r d (g_latitude g) (getLocalSiderealTimeDegrees NumR (g_time g) (g_longitude g)) Hq Hn Hr Ha Hd)
    as (t' & q & ty & E1 & E2 & _ & Ed & _).
  exists t'. split; [exact E1|]. rewrite C07_nexstar_reply_defined_exactly by assumption.
  intros (q' & ty' & E3 & _ & [K _]). rewrite E2 in E3. inversion E3; subst q' ty'.
  assert (DEC q = d) by (apply Ed; lra). unfold DEC in *. lra.
Qed.
Print Assumptions C64_southern_sync_then_position_refuted.
(** met by a telescope just switched on, looking anywhere, and a star at -45 degrees *)
Example C64_southern_nonvacuous : forall qsort x j (p : point NumR),
  reaches NumR qsort x j [] (align_init NumR) /\ (numVertices (align_init NumR) <= 1)%Z /\ never_more_than NumR 63 [] /\
  existsb (fun q => same NumR q p) (map actual (stored (align_init NumR))) = false /\ -90 <= -45 <= - (360 / 4294967296).
Proof. intros. repeat split; try (cbn; lia); try reflexivity; try lra. intros k. rewrite firstn_nil. cbn. lia. Qed.
