(** Sync followed by a position request, exact arithmetic; location bytes. *)
From Verif Require Import Base Num M_Libc M_Linalg M_Helper M_Alignment S_Alignment M_Telescope M_Gnss M_NexStar S_NexStar S_Sky.
From Verif Require Import P_Alignment P_AlignState P_AlignState2 P_AlignR P_Round P_Sky P_NexStar Properties_Alignment Properties_Sky.
From Coq Require Import Permutation Reals Lra Psatz.
From Flocq Require Import Core.
Open Scope R_scope.

Lemma addReferencePoint_run N T qsort x j (t : telescope N) ra dec lat lst :
  addReferencePoint N T qsort (Ok x) (Some j) t ra dec lat lst =
  (let h := equatorialToHorizontal N T ra dec lat lst in
   do a <- run N qsort (Ok x) (Some j) (t_align t) [Add (t_orient t) (Pt (az h) (alt h)); Triangulate];
   Ok (Tele a (t_orient t) (t_cal t))).
Proof.
  unfold addReferencePoint. cbn [run step]. destruct (addVertexPair _ _ _ _ _) as [[b a]|]; [|reflexivity]. cbn [bind].
  destruct (TriangulateActual _ _ _ a); reflexivity.
Qed.

Lemma spec_points_app N ops ops' l : spec_points N (ops ++ ops') l = spec_points N ops' (spec_points N ops l).
Proof. revert l. induction ops as [|[p r| |] ops IH]; intros l; cbn [app spec_points]; auto. Qed.

Section Sync.
Context (qsort : list (vpair NumR) -> list (vpair NumR)) (x : F NumR) (j : F NumR * F NumR).
Hypothesis Hq : permuting NumR qsort.

Lemma sync_reported : forall ops a p cal ra dec lat lst, never_more_than NumR 63 ops -> reaches NumR qsort x j ops a ->
  (numVertices a <= 1)%Z -> existsb (fun q => same NumR q p) (map actual (stored a)) = false ->
  exists t' q ty, addReferencePoint NumR TrigR qsort (Ok x) (Some j) (Tele a p cal) ra dec lat lst = Ok t' /\
    t_orient t' = p /\ t_cal t' = cal /\ numVertices (t_align t') = (numVertices a + 1)%Z /\
    calibratedEquatorial NumR TrigR t' lat lst = Ok (q, ty) /\
    (let h := equatorialToHorizontal NumR TrigR ra dec lat lst in q = horizontalToEquatorial NumR TrigR (AZ h) (ALT h) lat lst).
Proof.
  intros ops a p cal ra dec lat lst Hnm Hr Hn Hd.
  assert (HW : WF NumR a) by (eapply run_WF; eauto; apply WF_init).
  set (h := equatorialToHorizontal NumR TrigR ra dec lat lst). set (r := Pt (az h) (alt h) : point NumR).
  destruct (addVertexPair_new NumR qsort a p r Hq HW Hd) as (a1 & r' & E1 & HW1 & _ & _ & Hu & _ & _ & Hlt & _).
  destruct (Hlt ltac:(lia)) as (En & Es). clear Hlt.
  destruct (triangulated_small x j a1 HW1) as (a2 & E2); [lia|].
  destruct (triangulate_actual NumR x j a1 HW1) as [(a' & E' & HW' & En' & Es' & _ & _ & Hm)|(_ & _ & E')]; rewrite E' in E2; [|discriminate].
  injection E2 as ->.
  assert (Hreach : reaches NumR qsort x j ((ops ++ [Add p r]) ++ [Triangulate]) a2).
  { unfold reaches in *. rewrite !run_app, Hr. cbn [bind run step]. rewrite E1. cbn [bind]. rewrite E'. reflexivity. }
  assert (Hnm' : never_more_than NumR 63 (ops ++ [Add p r])).
  { intros k. destruct (Nat.le_gt_cases k (length ops)) as [Hk|Hk].
    - rewrite firstn_app. replace (k - length ops)%nat with 0%nat by lia. cbn [firstn]. rewrite app_nil_r. apply Hnm.
    - rewrite firstn_all2 by (rewrite app_length; cbn [length]; lia). rewrite spec_points_app. cbn [spec_points].
      pose proof (proj2 (C34_points_kept NumR qsort x j ops a Hq Hnm Hr)) as HL.
      match goal with |- (length (if ?b then _ else _) <= _)%nat => destruct b end; [lia|]. rewrite app_length. cbn [length]. lia. }
  assert (Hin : In (VP p r') (stored a2)).
  { rewrite Es', Es. apply (Permutation_in (VP p r') (Permutation_sym (Hq _))). apply in_or_app. right. left. reflexivity. }
  pose proof (stored_length NumR a HW) as Hl.
  destruct (C46_one_or_two_points_exact qsort x j _ a2 (VP p r') Hq Hnm' Hreach) as (d & Ed & Hdir); [destruct HW as (? & ?); lia|exact Hin|].
  cbn [actual reference] in Ed, Hdir.
  assert (Hty : exists ty, getTransformationType NumR a2 p = Ok ty).
  { destruct (type_and_matrix NumR x a2 p HW' Hm) as (ty & m' & Ety & _). eauto. }
  destruct Hty as (ty & Ety).
  exists (Tele a2 p cal). eexists. exists ty. split.
  { unfold addReferencePoint. cbn [t_align t_orient t_cal]. fold h. fold r. rewrite E1. cbn [bind]. rewrite E'. reflexivity. }
  split; [reflexivity|]. split; [reflexivity|]. split; [cbn [t_align]; congruence|]. split.
  { unfold calibratedEquatorial. cbn [t_align t_orient]. rewrite Ety. cbn [bind]. rewrite Ed. cbn [bind]. reflexivity. }
  cbv zeta.
  destruct Hdir as (B & (k & Ek) & Ey). destruct Hu as (Uy & Ux). destruct (e2h_spec ra dec lat lst) as (_ & Baz & _).
  change (0 <= AZ h < 360) in Baz.
  assert (Er : exists k : Z, X r' = AZ h + 360 * IZR k).
  { cbn [fadd fsub fZ NumR] in Ux. unfold X. destruct Ux as [Ux|[Ux|[Ux|Ux]]]; rewrite Ux; unfold r; cbn [px].
    - exists 0%Z. change (AZ h = AZ h + 360 * 0). ring.
    - exists (1)%Z. change (AZ h + 360 = AZ h + 360 * 1). ring.
    - exists (-1)%Z. change (AZ h - 360 = AZ h + 360 * (-1)). ring.
    - exists 0%Z. change (AZ h + 360 - 360 = AZ h + 360 * 0). ring. }
  destruct Er as (k' & Er). assert (Exd : X d = AZ h).
  { apply (same_turn_norm (X d) (AZ h)); auto. exists (k + k')%Z. rewrite Ek, Er, plus_IZR. ring. }
  assert (Eyd : Y d = ALT h) by (rewrite Ey; exact Uy).
  change (px d) with (X d). change (py d) with (Y d). rewrite Exd, Eyd. reflexivity.
Qed.
End Sync.

(** ** angles and words *)
Lemma angle_R w : (angle_of NumR w : R) = IZR w * 360 / 4294967296. Proof. reflexivity. Qed.
Lemma angle_B w : word w -> (angle_of NumB w : R) = IZR w * 360 / 4294967296.
Proof.
  intros [H1 H2]. unfold angle_of. cbn [fdiv fmul fZ NumB]. rewrite (b64_of_int w) by lia. rewrite (b64_of_int 360) by lia.
  rewrite (b64_of_int 4294967296) by lia. rewrite <- mult_IZR. rewrite (b64_of_int (w * 360)) by lia.
  apply b64_id. replace (IZR (w * 360) / 4294967296) with (IZR (w * 360) * bpow radix2 (-32)).
  - apply is_b64_dyadic; lia.
  - unfold Rdiv. f_equal. 
Qed.
Lemma south_B w : (3221225472 < w < 4294967296)%Z -> (fsub NumB (angle_of NumB w) (fZ NumB 360) : R) = IZR w * 360 / 4294967296 - 360.
Proof.
  intros H. cbn [fsub fZ NumB]. rewrite (b64_of_int 360) by lia. pose proof (angle_B w) as E. unfold word in E. 
  assert (E' : (angle_of NumB w : R) = IZR w * 360 / 4294967296) by (apply E; lia). clear E. 
  change (b64 ((angle_of NumB w : R) - 360) = IZR w * 360 / 4294967296 - 360). rewrite E'.
  apply b64_id. replace (IZR w * 360 / 4294967296 - 360) with (IZR (w * 360 - 360 * 4294967296) * bpow radix2 (-32)).
  - apply is_b64_dyadic; lia.
  - rewrite minus_IZR, !mult_IZR. change (bpow radix2 (-32)) with (/ 4294967296). field.
Qed.
Lemma above_270 w : IZR w * 360 / 4294967296 > 270 <-> (3221225472 < w)%Z.
Proof.
  split; intros H.
  - apply lt_IZR. lra.
  - apply IZR_lt in H. lra.
Qed.

(** ** location bytes *)
Lemma Ztrunc_floor_pos v : 0 <= v -> Ztrunc v = Zfloor v.
Proof. intros. apply Ztrunc_floor. auto. Qed.
Lemma floor_range v (n : Z) : 0 <= v < IZR n -> (0 <= Zfloor v < n)%Z.
Proof.
  intros H. split; [apply Zfloor_lub; simpl; lra|]. apply lt_IZR. eapply Rle_lt_trans; [apply Zfloor_lb|lra].
Qed.

Lemma degrees_spec oor (v : R) : 0 <= v < 256 ->
  degrees_byte NumR oor v = Ok (Zfloor v) /\ degrees_byte NumB oor v = Ok (Zfloor v).
Proof.
  intros H. pose proof (floor_range v 256 H) as Hf.
  assert (E : Ztrunc (Rabs (IZR (Zfloor v))) = Zfloor v).
  { rewrite Rabs_pos_eq by (apply IZR_le; lia). apply Ztrunc_IZR. }
  unfold degrees_byte, to_u8. cbn [ftrunc fabs ffloor NumR NumB]. rewrite E.
  replace ((0 <=? Zfloor v)%Z && (Zfloor v <? 256)%Z) with true by (symmetry; apply andb_true_iff; split; [apply Z.leb_le|apply Z.ltb_lt]; lia).
  auto.
Qed.
(** [m] minutes beyond [d] degrees, to one minute and the given slack *)
Lemma minutes_R oor (v : R) : 0 <= v < 256 -> exists m, minutes_byte NumR oor v = Ok m /\ (0 <= m < 60)%Z /\
  IZR (Zfloor v) + IZR m / 60 <= v < IZR (Zfloor v) + (IZR m + 1) / 60.
Proof.
  intros H. pose proof (floor_range v 256 H) as Hf. pose proof (Zfloor_lb v). pose proof (Zfloor_ub v).
  set (d := Zfloor v) in *. exists (Zfloor ((v - IZR d) * 60)).
  assert (Hm : (0 <= Zfloor ((v - IZR d) * 60) < 60)%Z) by (apply floor_range; simpl; lra).
  split; [|split; [exact Hm|]].
  - unfold minutes_byte, to_u8. cbn [ftrunc f32 fmul fsub fabs ffloor fZ NumR]. fold d.
    rewrite (Rabs_pos_eq v) by lra. rewrite (Rabs_pos_eq (IZR d)) by (apply IZR_le; lia).
    rewrite Ztrunc_floor_pos by lra.
    replace ((0 <=? _)%Z && (_ <? 256)%Z) with true by (symmetry; apply andb_true_iff; split; [apply Z.leb_le|apply Z.ltb_lt]; lia). reflexivity.
  - pose proof (Zfloor_lb ((v - IZR d) * 60)). pose proof (Zfloor_ub ((v - IZR d) * 60)). lra.
Qed.

(** the fraction of a float is a float *)
Lemma frac_b32 (v : R) : is_b32 v -> 0 <= v -> is_b32 (v - IZR (Zfloor v)).
Proof.
  intros Hv Hp. pose proof (Zfloor_lb v) as L. pose proof (Zfloor_ub v) as U.
  destruct (Z.eq_dec (Zfloor v) 0) as [E|E]; [rewrite E; replace (v - 0) with v by ring; exact Hv|].
  assert (H1 : 1 <= v). { eapply Rle_trans; [|exact L]. apply IZR_le. assert (0 <= Zfloor v)%Z by (apply Zfloor_lub; simpl; lra). lia. }
  apply FLT_format_generic in Hv; [|reflexivity]. destruct Hv as [[m e] Hv Hm He]. simpl in *. 
  destruct (Z_le_gt_dec 0 e) as [Hpos|Hneg].
  - (* an integer *)
    assert (Ei : v = IZR (m * 2 ^ e)). { rewrite Hv. unfold F2R. simpl Fnum. simpl Fexp. rewrite mult_IZR. change (2 ^ e)%Z with (radix2 ^ e)%Z. rewrite (IZR_Zpower radix2 e Hpos). reflexivity. }
    rewrite Ei, Zfloor_IZR. replace (IZR (m * 2 ^ e) - IZR (m * 2 ^ e)) with (IZR 0) by (simpl; ring). apply is_b32_int. simpl. lia.
  - assert (Ev : v - IZR (Zfloor v) = IZR (m - Zfloor v * 2 ^ (- e)) * bpow radix2 e).
    { rewrite Hv at 1. unfold F2R. simpl Fnum. simpl Fexp. rewrite minus_IZR, mult_IZR.
      change (2 ^ (- e))%Z with (radix2 ^ (- e))%Z. rewrite (IZR_Zpower radix2 (- e)) by lia.
      rewrite Rmult_minus_distr_r, Rmult_assoc, <- bpow_plus. replace (- e + e)%Z with 0%Z by lia. simpl (bpow radix2 0). ring. }
    rewrite Ev. apply is_b32_dyadic; [|lia].
    assert (B : 0 < bpow radix2 e) by apply bpow_gt_0.
    (* |n| * 2^e < 1 <= v = m * 2^e *)
    apply lt_IZR. rewrite abs_IZR. apply Rmult_lt_reg_r with (bpow radix2 e); [exact B|].
    rewrite <- (Rabs_pos_eq (bpow radix2 e)) at 1 by lra. rewrite <- Rabs_mult, <- Ev. rewrite Rabs_pos_eq by lra.
    apply Rlt_le_trans with 1; [lra|]. apply Rle_trans with v; [exact H1|]. rewrite Hv. unfold F2R. simpl Fnum. simpl Fexp.
    apply Rmult_le_compat_r; [lra|]. apply IZR_le. lia.
Qed.
Lemma minutes_B oor (v : R) : is_b32 v -> 0 <= v < 256 -> exists m, minutes_byte NumB oor v = Ok m /\ (0 <= m < 60)%Z /\
  IZR (Zfloor v) + (IZR m - / 500000) / 60 <= v < IZR (Zfloor v) + (IZR m + 1 + / 500000) / 60.
Proof.
  intros Hb H. pose proof (floor_range v 256 H) as Hf. pose proof (Zfloor_lb v). pose proof (Zfloor_ub v).
  assert (Hfr : is_b32 (v - IZR (Zfloor v))) by (apply frac_b32; [exact Hb|lra]).
  set (d := Zfloor v) in *. set (f := v - IZR d) in *.
  assert (F01 : 0 <= f < 1) by (unfold f; lra).
  assert (Flt : f <= 1 - bpow radix2 (-24)).
  { replace (1 - bpow radix2 (-24)) with (pred radix2 exp32 1).
    - apply pred_ge_gt; auto with typeclass_instances. apply FLT_exp_valid; reflexivity. apply (is_b32_int 1). simpl. lia. apply F01.
    - change 1 with (bpow radix2 0). rewrite pred_bpow. reflexivity. }
  set (y := b32 (b64 (f * b64 60))).
  assert (E60 : b64 60 = 60) by (apply (b64_of_int 60); simpl; lia).
  assert (E64 : b64 (f * 60) = f * 60).
  { apply b64_id. apply FLT_format_generic in Hfr; [|reflexivity]. destruct Hfr as [[m e] Hv Hm He]. simpl in Hm, He.
    rewrite Hv. unfold F2R. simpl Fnum. simpl Fexp. replace (IZR m * bpow radix2 e * 60) with (IZR (m * 60) * bpow radix2 e) by (rewrite mult_IZR; ring).
    apply is_b64_dyadic; lia. }
  assert (Ey : Rabs (y - f * 60) <= bpow radix2 (-19)).
  { unfold y. rewrite E60, E64. apply (b32_error_lt 6); [lia|]. rewrite Rabs_pos_eq by lra. change (bpow radix2 6) with 64. lra. }
  change (bpow radix2 (-19)) with (/ 524288) in Ey. change (bpow radix2 (-24)) with (/ 16777216) in Flt.
  apply Rabs_le_inv in Ey.
  assert (Y0 : 0 <= y).
  { unfold y. apply (b32_floor_ge _ 0); [simpl; lia|]. rewrite E60, E64. simpl. lra. }
  exists (Zfloor y). assert (Hm : (0 <= Zfloor y < 60)%Z) by (apply floor_range; simpl; lra).
  split; [|split; [exact Hm|]].
  - unfold minutes_byte, to_u8. cbn [ftrunc f32 fmul fsub fabs ffloor fZ NumB]. fold d.
    rewrite (Rabs_pos_eq v) by lra. rewrite (Rabs_pos_eq (IZR d)) by (apply IZR_le; lia).
    change (v - IZR d) with f. rewrite (b64_id f) by (apply is_b32_b64; exact Hfr). rewrite (b32_id f) by exact Hfr. fold y.
    rewrite Ztrunc_floor_pos by lra.
    replace ((0 <=? _)%Z && (_ <? 256)%Z) with true by (symmetry; apply andb_true_iff; split; [apply Z.leb_le|apply Z.ltb_lt]; lia). reflexivity.
  - pose proof (Zfloor_lb y). pose proof (Zfloor_ub y). unfold f in *. lra.
Qed.
