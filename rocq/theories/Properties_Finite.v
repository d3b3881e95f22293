(** C157, C158: the same with actual IEEE doubles: signed zeros, infinities and NaN included.  No NaN or infinity arises, and the
    error bounds of C148 and C149 hold for the doubles the program computes. *)
From Verif Require Import Base Num M_Libc P_Libc M_Checkbits M_Linalg M_Helper M_Alignment S_Alignment P_Alignment P_AlignState P_AlignState2 P_AlignR M_Telescope S_Sky P_Sky P_Round P_Helper2 P_TriIEEE M_Stellarium S_Stellarium M_Gnss M_NexStar S_NexStar P_NexStar M_Led M_Imu P_Imu M_Main P_Sched P_Main P_Main2 P_Device S_Device P_Device2 P_Device3 S_Safe Properties_Alignment Properties_NexStar Properties_NexStar2 Properties_Device3 S_SkyIEEE P_SkyIEEE P_SkyIEEE2 P_OneIEEE P_LstIEEE P_Angle Properties_SkyIEEE P_NumCorr S_Libm P_Libm P_Finite.
From Coq Require Import Permutation Reals Lra Lia Floats.SpecFloat.
From Flocq Require Import Core IEEE754.BinarySingleNaN.
Open Scope R_scope.
Notation length := List.length.

(** ** C157: the coordinate conversions *)
(** The direction computed for a star: two finite doubles, within 2^-37 of the direction in which the star stands. *)
Theorem C157_star_to_direction : forall T, c_libm T -> forall (r d p l : spec_float) (R0 D P L : R),
  is_double r R0 -> is_double d D -> is_double p P -> is_double l L -> Rabs R0 <= 1000 -> Rabs D <= 4000 -> Rabs P <= 4000 -> Rabs L <= 1000 ->
  let h := equatorialToHorizontal NumSF T r d p l in
  exists A E, is_double (az h) A /\ is_double (alt h) E /\ near (bpow radix2 (-37)) (vec A E) (horizon_vec (L - R0) D P) /\
    - (1 / 10 ^ 8) <= A <= 360 + 1 / 10 ^ 8 /\ Rabs E <= 90 + bpow radix2 (-40).
Proof.
  intros T HT r d p l R0 D P L Mr Md Mp Ml Br Bd Bp Bl. apply double_means in Mr, Md, Mp, Ml.
  destruct (e2h_agrees T HT r d p l R0 D P L Mr Md Mp Ml Br Bd Bp Bl) as (b & E1 & E2).
  destruct (C148_equatorial_to_horizontal (libB T b) (libB_good T HT b) R0 D P L Br Bd Bp Bl) as (V & B1 & B2).
  eexists _, _. split; [apply double_means; exact E1|]. split; [apply double_means; exact E2|]. split; [exact V|]. split; [exact B1|exact B2].
Qed.
(** The star computed for a direction: two finite doubles; the star is seen in that direction within 2^-36. *)
Theorem C157_direction_to_star : forall T, c_libm T -> forall (a e p l : spec_float) (A E P L : R),
  is_double a A -> is_double e E -> is_double p P -> is_double l L -> Rabs A <= 4000 -> Rabs E <= 4000 -> Rabs P <= 4000 -> Rabs L <= 4000 ->
  let q := horizontalToEquatorial NumSF T a e p l in
  exists R0 D, is_double (ra q) R0 /\ is_double (dec q) D /\ near (bpow radix2 (-36)) (horizon_vec (L - R0) D P) (vec A E) /\
    - (1 / 10 ^ 8) <= R0 <= 360 + 1 / 10 ^ 8 /\ Rabs D <= 90 + bpow radix2 (-40).
Proof.
  intros T HT a e p l A E P L Ma Me Mp Ml Ba Be Bp Bl. apply double_means in Ma, Me, Mp, Ml.
  destruct (h2e_agrees T HT a e p l A E P L Ma Me Mp Ml Ba Be Bp Bl) as (b & E1 & E2).
  destruct (C148_horizontal_to_equatorial (libB T b) (libB_good T HT b) A E P L Ba Be Bp Bl) as (V & B1 & B2).
  eexists _, _. split; [apply double_means; exact E1|]. split; [apply double_means; exact E2|]. split; [exact V|]. split; [exact B1|exact B2].
Qed.
(** Star to direction and back: the star, within 2^-33; in degrees up to declination 85. *)
Theorem C157_round_trip : forall T, c_libm T -> forall (r d p l : spec_float) (R0 D P L : R),
  is_double r R0 -> is_double d D -> is_double p P -> is_double l L -> Rabs R0 <= 1000 -> Rabs D <= 4000 -> Rabs P <= 4000 -> Rabs L <= 1000 ->
  let h := equatorialToHorizontal NumSF T r d p l in let q := horizontalToEquatorial NumSF T (az h) (alt h) p l in
  exists R1 D1, is_double (ra q) R1 /\ is_double (dec q) D1 /\ near (bpow radix2 (-33)) (vec R1 D1) (vec R0 D) /\
    (Rabs D <= 85 -> Rabs (D1 - D) <= 3 / 10 ^ 8 /\ exists k : Z, Rabs (R1 - (R0 + 360 * IZR k)) <= 7 / 10 ^ 7).
Proof.
  intros T HT r d p l R0 D P L Mr Md Mp Ml Br Bd Bp Bl h q.
  destruct (C157_star_to_direction T HT r d p l R0 D P L Mr Md Mp Ml Br Bd Bp Bl) as (A & E & Ea & Ee & V & B1 & B2). fold h in Ea, Ee. simpl bpow in B2.
  destruct (C157_direction_to_star T HT (az h) (alt h) p l A E P L Ea Ee Mp Ml) as (R1 & D1 & Er & Ed & W & B3 & B4); [apply Rabs_le; lra|lra|exact Bp|lra|]. fold q in Er, Ed.
  assert (K : near (bpow radix2 (-33)) (vec R1 D1) (vec R0 D)).
  { pose proof (near_trans _ _ _ _ _ W V) as M. rewrite <- !rot_vec in M. apply (rot_near P) in M. rewrite !rot_rot in M. apply (turned L) in M.
    replace (L - (L - R1)) with R1 in M by ring. replace (L - (L - R0)) with R0 in M by ring. eapply near_le; [|exact M]. simpl bpow. lra. }
  exists R1, D1. split; [exact Er|]. split; [exact Ed|]. split; [exact K|]. intros HD.
  destruct (near_angles (bpow radix2 (-33)) R1 D1 R0 D) as (Q1 & k & Q2); [simpl bpow; lra|exact K|simpl bpow in B4; lra|exact HD|].
  split; [|exists k]; simpl bpow in *; lra.
Qed.
Print Assumptions C157_round_trip.
(** Non-vacuity: a correctly rounding library on doubles exists. *)
Definition value (s : spec_float) : R := SF2R radix2 s.
Definition rounding_c_libm : Trig NumSF := MkTrig NumSF
  (fun s : F NumSF => sfo false (b64 (sin (value s))) : F NumSF) (fun s => sfo false (b64 (cos (value s)))) (fun a b => sfo false (b64 (atan2R (value a) (value b)))) (sfo false (b64 PI)).
Example C157_nonvacuous : c_libm rounding_c_libm.
Proof.
  destruct C148_nonvacuous as (Rs & Rc & Ra & Rp). cbn [rounding_libm tsin tcos tatan2 tpi] in Rs, Rc, Ra, Rp. change (F NumB) with R in *.
  assert (K : forall x, Rabs (b64 x) <= 100 -> is_double (sfo false (b64 x)) (b64 x)).
  { intros x Hx. apply double_means, sfo_means. unfold repr. rewrite (P_NumCorr.b64_id (b64 x)) by (apply generic_format_round; [apply FLT_exp_valid; reflexivity|apply valid_rnd_N]).
    rewrite Req_bool_true by reflexivity. rewrite Rlt_bool_true; [reflexivity|]. eapply Rle_lt_trans; [exact Hx|]. eapply Rlt_trans; [|apply (bpow_lt radix2 7 1024); lia]. simpl bpow. lra. }
  assert (B1 : forall x, -1 <= x <= 1 -> Rabs (b64 x) <= 100).
  { intros x Hx. assert (Rabs (b64 x) <= bpow radix2 0) by (apply round_bound; [lia|]; simpl bpow; apply Rabs_le; lra). simpl bpow in *. lra. }
  assert (V0 : forall s, value (S754_zero s) = 0) by reflexivity.
  unfold c_libm, rounding_c_libm. cbn [tsin tcos tatan2 tpi].
  split. { intros s x (_ & _ & Ex) Hx. unfold value. rewrite Ex. eexists. split; [apply K; apply B1; apply SIN_bound|]. apply Rs. exact Hx. }
  split. { intros s x (_ & _ & Ex) Hx. unfold value. rewrite Ex. eexists. split; [apply K; apply B1; apply COS_bound|]. apply Rc. exact Hx. }
  split. { intros a b y x (_ & _ & Ey) (_ & _ & Ex). unfold value. rewrite Ey, Ex. destruct (Ra y x) as (B4 & k & E4). exists (b64 (atan2R y x)), k. split; [apply K; lra|]. split; assumption. }
  split. { exists (b64 PI). split; [|exact Rp]. apply K. pose proof PI_4. pose proof PI_RGT_0. assert (Rabs (b64 PI) <= bpow radix2 2) by (apply round_bound; [lia|]; simpl bpow; apply Rabs_le; lra). simpl bpow in *. lra. }
  split; [|split; [|split]]; intros; rewrite ?V0 in *; assumption.
Qed.
