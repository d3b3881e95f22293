(** C170: the position the Node server stores for a horizontal direction, on actual IEEE doubles, and the firmware's. *)
From Verif Require Import Base Num M_Helper M_Telescope M_Node S_Sky S_SkyIEEE P_Sky P_Device3 P_SkyIEEE P_SkyIEEE2 P_OneIEEE P_Angle P_Round P_Helper2 P_NumCorr S_Libm P_Libm P_Finite P_NodeIEEE Properties_SkyIEEE Properties_Finite.
From Coq Require Import Reals Lra Lia Floats.SpecFloat.
From Flocq Require Import Core IEEE754.BinarySingleNaN.
Open Scope R_scope.

(** the library of the server and that of the firmware may differ *)
Theorem C170_position_is_seen_in_the_direction : forall T, c_libm T -> forall (t : ntele NumSF) (a e p l : spec_float) (A E P L : R),
  is_double a A -> is_double e E -> is_double p P -> is_double l L -> Rabs A <= 4000 -> Rabs E <= 4000 -> Rabs P <= 4000 -> Rabs L <= 4000 ->
  let q := position NumSF (fromHorizontalPosition NumSF T t a e p l) in
  exists H D, is_double (ra q) H /\ is_double (dec q) D /\ near (bpow radix2 (-34)) (horizon_vec (L - 15 * H) D P) (vec A E) /\
    (0 <= L < 360 -> 0 <= H <= 41) /\ Rabs D <= 90 + bpow radix2 (-39).
Proof.
  intros T HT t a e p l A E P L Ma Me Mp Ml Ba Be Bp Bl. apply double_means in Ma, Me, Mp, Ml.
  destruct (node_agrees T HT t (NTele NumB (Equ (0 : F NumB) 0) (Equ (0 : F NumB) 0)) a e p l A E P L Ma Me Mp Ml Ba Be Bp Bl) as (b & E1 & E2).
  set (t' := NTele NumB _ _) in *.
  destruct (C148_horizontal_to_equatorial (libB T b) (libB_good T HT b) A E P L Ba Be Bp Bl) as (V & _ & B2).
  destruct (node_close (libB T b) (libB_good T HT b) t' A E P L Bl) as (Cd & (k & Ck) & Cr). cbv zeta in *.
  cbv zeta. eexists _, _. split; [apply double_means; exact E1|]. split; [apply double_means; exact E2|].
  set (q := position NumB _) in *. set (f := horizontalToEquatorial NumB _ _ _ _ _) in *. clearbody q f. change (F NumB) with R in *.
  split; [|split; [exact Cr|]].
  - assert (LL : near (bpow radix2 (-37)) (vec (15 * ra q) (dec q)) (vec (ra f + 360 * IZR k) (dec f))).
    { simpl bpow in *. apply vec_lip; [lra|lra|lra]. }
    rewrite (vec_turn (ra f + 360 * IZR k) (ra f)) in LL by (exists k; ring).
    apply (turned L) in LL. apply (rot_near P) in LL. rewrite !rot_vec in LL.
    eapply near_le; [|eapply near_trans; [exact LL|exact V]]. simpl bpow. lra.
  - replace (dec q) with ((dec q - dec f) + dec f) by ring. eapply Rle_trans; [apply Rabs_triang|]. simpl bpow in *. lra.
Qed.
(** Both programs at the same direction, place and sidereal time: the same point of the sky, up to declination 85 also in degrees. *)
Theorem C170_same_as_the_firmware : forall T T', c_libm T -> c_libm T' -> forall (t : ntele NumSF) (a e p l : spec_float) (A E P L : R),
  is_double a A -> is_double e E -> is_double p P -> is_double l L -> Rabs A <= 4000 -> Rabs E <= 4000 -> Rabs P <= 4000 -> Rabs L <= 4000 ->
  let q := position NumSF (fromHorizontalPosition NumSF T t a e p l) in let f := horizontalToEquatorial NumSF T' a e p l in
  exists H D R1 D1, is_double (ra q) H /\ is_double (dec q) D /\ is_double (ra f) R1 /\ is_double (dec f) D1 /\
    near (bpow radix2 (-31)) (vec (15 * H) D) (vec R1 D1) /\
    (Rabs D1 <= 85 -> Rabs (D - D1) <= 12 / 10 ^ 8 /\ exists k : Z, Rabs (15 * H - (R1 + 360 * IZR k)) <= 3 / 10 ^ 6).
Proof.
  intros T T' HT HT' t a e p l A E P L Ma Me Mp Ml Ba Be Bp Bl q f.
  destruct (C170_position_is_seen_in_the_direction T HT t a e p l A E P L Ma Me Mp Ml Ba Be Bp Bl) as (H & D & EH & ED & V & _ & BD). fold q in EH, ED.
  destruct (C157_direction_to_star T' HT' a e p l A E P L Ma Me Mp Ml Ba Be Bp Bl) as (R1 & D1 & Er & Ed & W & _ & _). fold f in Er, Ed.
  exists H, D, R1, D1. split; [exact EH|]. split; [exact ED|]. split; [exact Er|]. split; [exact Ed|].
  assert (K : near (bpow radix2 (-31)) (vec (15 * H) D) (vec R1 D1)).
  { assert (W' : near (bpow radix2 (-36)) (vec A E) (horizon_vec (L - R1) D1 P)). { apply P_SkyIEEE2.near_sym. exact W. }
    pose proof (near_trans _ _ _ _ _ V W') as M. rewrite <- !rot_vec in M. apply (rot_near P) in M. rewrite !rot_rot in M. apply (turned L) in M.
    replace (L - (L - 15 * H)) with (15 * H) in M by ring. replace (L - (L - R1)) with R1 in M by ring. eapply near_le; [|exact M]. simpl bpow. lra. }
  split; [exact K|]. intros HD. simpl bpow in BD.
  destruct (near_angles (bpow radix2 (-31)) (15 * H) D R1 D1) as (Q1 & k & Q2); [simpl bpow; lra|exact K|lra|exact HD|].
  split; [|exists k]; simpl bpow in *; lra.
Qed.
Print Assumptions C170_same_as_the_firmware.
