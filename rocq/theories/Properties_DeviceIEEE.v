(** C156: the whole device after two or three stars, in IEEE double precision: the tube back on one of them, the position reported
    is the star, moved by what sidereal time has advanced.  Every arithmetic operation is rounded (NumB), libm is accurate to 2^-50. *)
From Verif Require Import Base Num M_Libc P_Libc M_Checkbits M_Linalg M_Helper M_Alignment S_Alignment P_Alignment P_AlignState P_AlignState2 P_AlignR M_Telescope S_Sky P_Sky P_Round P_Helper2 P_TriIEEE M_Stellarium S_Stellarium M_Gnss M_NexStar S_NexStar P_NexStar M_Led M_Imu P_Imu M_Main P_Sched P_Main P_Main2 P_Device S_Device P_Device2 P_Device3 S_Safe Properties_Alignment Properties_NexStar Properties_NexStar2 Properties_Device3 S_SkyIEEE P_SkyIEEE P_SkyIEEE2 P_OneIEEE P_LstIEEE P_Angle Properties_Main3 Properties_Stellarium P_Stellarium Properties_SkyIEEE P_AlignIEEE Properties_AlignIEEE.
From Coq Require Import Permutation Reals Lra.
From Flocq Require Import Core.
Open Scope R_scope.
Notation length := List.length.

(** every star was named with the tube at a proper orientation, and with angles of at most a few turns *)
Definition sensible (cs : list (command NumB)) : Prop := forall p r dc g, In (Sync p r dc g) cs ->
  tube p /\ Rabs r <= 1000 /\ Rabs dc <= 4000 /\ Rabs (g_latitude g) <= 4000 /\ Rabs (sidereal_in g) <= 1000.
(** two stars far enough apart, or three that got a triangle of sufficient area, for an error of [e] degrees; [H]: bound of the
    number that the matrix inversion reads behind the matrix *)
Definition resolves (H e : R) (cs : list (command NumB)) (a : align NumB) : Prop :=
  (exists p1 p2, Permutation (synchronised cs []) [p1; p2] /\ 1 <= separation p1 p2 /\ (gain2 (separation p1 p2) * H) ^ 2 / 10000000 <= e) \/
  (exists p1 p2 p3, Permutation (synchronised cs []) [p1; p2; p3] /\ tris a <> [] /\ doubled_area p1 p2 p3 <> 0 /\ 84 * (H / doubled_area p1 p2 p3) ^ 2 <= e).

Lemma separation_sym p q : separation p q = separation q p.
Proof. unfold separation. f_equal. change (F NumB) with R. generalize (px p : R), (px q : R), (py p : R), (py q : R). intros. ring. Qed.
Lemma area_perm p1 p2 p3 q1 q2 q3 : Permutation [q1; q2; q3] [p1; p2; p3] ->
  doubled_area q1 q2 q3 = doubled_area p1 p2 p3 \/ doubled_area q1 q2 q3 = - doubled_area p1 p2 p3.
Proof.
  intros P.
  assert (C : forall a b c, doubled_area a c b = - doubled_area a b c) by (intros a b c; unfold doubled_area; change (F NumB) with R; generalize (px a : R), (px b : R), (px c : R), (py a : R), (py b : R), (py c : R); intros; ring).
  assert (C2 : forall a b c, doubled_area b a c = - doubled_area a b c) by (intros a b c; unfold doubled_area; change (F NumB) with R; generalize (px a : R), (px b : R), (px c : R), (py a : R), (py b : R), (py c : R); intros; ring).
  pose proof (Permutation_in q1 P (or_introl eq_refl)) as I1. destruct I1 as [<-|[<-|[<-|[]]]].
  - apply Permutation_cons_inv in P. destruct (Permutation_length_2_inv (Permutation_sym P)) as [E|E]; injection E as -> ->; [left; reflexivity|right; apply C].
  - assert (P' : Permutation [p2; q2; q3] [p2; p1; p3]) by (eapply perm_trans; [exact P|apply perm_swap]). apply Permutation_cons_inv in P'.
    destruct (Permutation_length_2_inv (Permutation_sym P')) as [E|E]; injection E as -> ->; [right; apply C2|left; rewrite C, C2; ring].
  - assert (P' : Permutation [p3; q2; q3] [p3; p1; p2]) by (eapply perm_trans; [exact P|]; apply Permutation_sym; apply (Permutation_middle [p1; p2] [] p3)). apply Permutation_cons_inv in P'.
    destruct (Permutation_length_2_inv (Permutation_sym P')) as [E|E]; injection E as -> ->; [left; rewrite C2, C; ring|right; rewrite C, C2, C; ring].
Qed.

Section Device.
Context (T : Trig NumB) (pf : platform) (oor : conv_policy) (lc : libc NumB) (qsort : list (vpair NumB) -> list (vpair NumB)) (x : F NumB) (j : F NumB * F NumB).
Context (ftext : nat -> F NumB -> list Z) (left_first : bool) (cfg : config).
Notation history := (history NumB T pf oor lc qsort (Ok x) (Some j) ftext left_first cfg).
Notation boot := (boot NumB).
Notation commands := (commands NumB T pf oor lc qsort (Ok x) (Some j) ftext left_first cfg).

Lemma in_orders cs p r : In (Add p r) (all_orders NumB T cs) -> exists ra dc g, In (Sync p ra dc g) cs /\ r = direction NumB T ra dc g.
Proof.
  induction cs as [|[p' r' d' g'|] cs IH]; intros H; cbn [all_orders flat_map orders app] in H; [contradiction| |].
  - destruct H as [H|[H|H]]; [|discriminate|].
    + injection H as <- <-. exists r', d', g'. split; [left; reflexivity|reflexivity].
    + destruct (IH H) as (a & b & c & K & E). exists a, b, c. split; [right; exact K|exact E].
  - destruct H as [H|H]; [discriminate|]. destruct (IH H) as (a & b & c & K & E). exists a, b, c. split; [right; exact K|exact E].
Qed.
Lemma stored_proper cs a : permuting NumB qsort -> good_libm T -> sensible cs -> run NumB qsort (Ok x) (Some j) (align_init NumB) (all_orders NumB T cs) = Ok a ->
  forall v, In v (stored a) -> proper v.
Proof.
  intros Hq GL Hc H v Hv. destruct (history_pairs NumB qsort x j Hq _ _ _ (WF_init NumB) H v Hv) as [K|(p & r & Hin & Ea & Hu)].
  { change (stored (align_init NumB)) with (@nil (vpair NumB)) in K. contradiction. }
  destruct (in_orders _ _ _ Hin) as (ra & dc & g & Hs & ->). destruct (Hc _ _ _ _ Hs) as (Tp & Br & Bd & Bl & Bs).
  split; [rewrite Ea; exact Tp|].
  destruct (C148_equatorial_to_horizontal T GL ra dc (g_latitude g) (sidereal_in g) Br Bd Bl Bs) as (_ & BA & BE). cbv zeta in BA, BE.
  destruct (unwrapped_B _ _ Hu) as (Ey & Bx & _); [exact BA|]. split; [exact Bx|]. rewrite Ey. unfold direction. fold (sidereal_in g). cbn [py]. simpl bpow in BE. change (F NumB) with R in *. lra.
Qed.

(** what the device reports at one of the stars *)
Lemma star_direction cs a p r dc g H e : permuting NumB qsort -> good_libm T -> at_most 63 cs -> sensible cs ->
  run NumB qsort (Ok x) (Some j) (align_init NumB) (all_orders NumB T cs) = Ok a -> first_named_in cs p r dc g ->
  1 <= H -> Rabs x <= H -> e <= 1 -> resolves H e cs a ->
  exists c r', unwrapped NumB (direction NumB T r dc g) r' /\ getCalibratedOrientation NumB a p = Ok c /\ - (1 / 10 ^ 8) <= px c <= 360 + 1 / 10 ^ 8 /\
    (exists k : Z, Rabs ((px c : R) - (px r' + 360 * IZR k)) <= e + 1 / 10 ^ 12) /\ Rabs ((py c : R) - py r') <= e + 1 / 10 ^ 12 /\ exists ty, getTransformationType NumB a p = Ok ty.
Proof.
  intros Hq GL Hm Hc Hr (cs0 & rest & Ec & Hnr & Hd) H1 Hx He Hres.
  pose proof (stored_proper cs a Hq GL Hc Hr) as Pr. apply at_most_orders with (T := T) in Hm.
  assert (Hp := proj1 (C34_points_kept NumB qsort x j _ a Hq Hm Hr)). rewrite synchronised_spec in Hp.
  destruct (ends_in_triangulation_in NumB T cs0 p r dc g rest Hnr) as (ops & Eo). rewrite <- Ec in Eo.
  assert (Hin : exists r', unwrapped NumB (direction NumB T r dc g) r' /\ In (VP p r') (stored a)).
  { rewrite Ec in Hm, Hr. rewrite all_orders_app_in in Hm, Hr. cbn [all_orders flat_map orders app] in Hm, Hr.
    apply (named NumB qsort x j Hq _ _ _ _ a Hm); [|rewrite (synchronised_spec NumB T); exact Hd|exact Hr].
    intros [K|K]; [discriminate|]. exact (orders_no_clear_in NumB T rest Hnr K). }
  destruct Hin as (r' & Hu & Hin). rewrite Eo in Hr.
  assert (G : forall e', e' <= e -> calibrated_within (e' + 1 / 10 ^ 12) a p (px r') (py r') -> exists c r', unwrapped NumB (direction NumB T r dc g) r' /\ getCalibratedOrientation NumB a p = Ok c /\ - (1 / 10 ^ 8) <= px c <= 360 + 1 / 10 ^ 8 /\
    (exists k : Z, Rabs ((px c : R) - (px r' + 360 * IZR k)) <= e + 1 / 10 ^ 12) /\ Rabs ((py c : R) - py r') <= e + 1 / 10 ^ 12 /\ exists ty, getTransformationType NumB a p = Ok ty).
  { intros e' He' (c & k & E & Q0 & Q1 & Q2). exists c, r'. split; [exact Hu|]. split; [exact E|]. split; [exact Q2|]. split; [exists k; lra|]. split; [lra|]. destruct (C43_type_matches_correction NumB qsort x j ops a p Hq Hr) as (ty & _ & E' & _). exists ty. exact E'. }
  destruct Hres as [(p1 & p2 & PP & Hs & Hg)|(p1 & p2 & p3 & PP & Ht & HD & Hg)].
  - rewrite PP in Hp. pose proof (Permutation_length Hp) as HL. rewrite map_length in HL. destruct (stored a) as [|v [|w [|z l]]] eqn:Es; try discriminate HL.
    assert (Esep : separation (actual v) (actual w) = separation p1 p2).
    { cbn [map] in Hp. apply Permutation_sym, Permutation_length_2_inv in Hp. destruct Hp as [E|E]; injection E as -> ->; [reflexivity|apply separation_sym]. }
    destruct (C154_stars_reproduced qsort x j ops a v w Hq Hr Es (Pr v ltac:(left; reflexivity)) (Pr w ltac:(right; left; reflexivity)) H H1 Hx) as [C0 C1]; try (rewrite Esep; lra).
    rewrite Esep in C0, C1. destruct Hin as [-> | [-> | []]]; [exact (G _ Hg C0)|exact (G _ Hg C1)].
  - rewrite PP in Hp. pose proof (Permutation_length Hp) as HL. rewrite map_length in HL. destruct (stored a) as [|s1 [|s2 [|s3 [|z l]]]] eqn:Es; try discriminate HL. cbn [map] in Hp.
    destruct (area_swap H _ _ _ _ _ _ (area_perm _ _ _ _ _ _ Hp) HD) as [HD' EQ].
    pose proof (C155_three_stars_reproduced qsort x j ops a s1 s2 s3 Hq Hr Es Ht (Pr s1 ltac:(left; reflexivity)) (Pr s2 ltac:(right; left; reflexivity)) (Pr s3 ltac:(right; right; left; reflexivity)) H H1 Hx HD') as K.
    cbv zeta in K. rewrite EQ in K. specialize (K ltac:(lra) _ Hin). exact (G _ Hg K).
Qed.

(** The tube back on a star that was named since the last reset: at the same latitude the star, moved by what sidereal time has
    advanced since, within 4 e + 2^-32 in every component of the unit vector. *)
Theorem C156_star_drifts_with_the_sky : permuting NumB qsort -> good_libm T -> forall evs d o, history boot evs = Ok (d, o) ->
  exists cs, commands boot evs cs /\ (at_most 63 cs -> sensible cs -> forall H e, 1 <= H -> Rabs x <= H -> e <= / 1100 -> resolves H e cs (t_align (d_tel d)) ->
    forall p r dc g, first_named_in cs p r dc g -> t_orient (d_tel d) = p -> forall lst : R, Rabs lst <= 4000 ->
    exists q ty, calibratedEquatorial NumB T (d_tel d) (g_latitude g) lst = Ok (q, ty) /\
      near (4 * e + bpow radix2 (-32)) (vec (ra q) (dec q)) (vec (r + (lst - sidereal_in g)) dc) /\
      - (1 / 10 ^ 8) <= ra q <= 360 + 1 / 10 ^ 8 /\ Rabs (dec q) <= 90 + bpow radix2 (-40)).
Proof.
  intros Hq GL evs d o Hh. destruct (C105_alignment_follows_commands NumB T pf oor lc qsort x j ftext left_first cfg evs d o Hh) as (cs & Hc & Hr).
  exists cs. split; [exact Hc|]. intros Hm Hs H e H1 Hx He Hres p r dc g Hf Ho lst Blst.
  destruct (star_direction cs _ p r dc g H e Hq GL Hm Hs Hr Hf H1 Hx ltac:(lra) Hres) as (c & r' & Hu & Ec & Bc & (k & Cx) & Cy & ty & Ety).
  assert (Hin : In (Sync p r dc g) cs) by (destruct Hf as (cs0 & rest & -> & _); apply in_or_app; right; left; reflexivity).
  destruct (Hs _ _ _ _ Hin) as (_ & Br & Bd & Bl & Bs).
  destruct (C148_equatorial_to_horizontal T GL r dc (g_latitude g) (sidereal_in g) Br Bd Bl Bs) as (V & BA & BE). cbv zeta in V, BA, BE.
  unfold direction in Hu. fold (sidereal_in g) in Hu. revert V BA BE Hu. generalize (equatorialToHorizontal NumB T r dc (g_latitude g) (sidereal_in g)). intros h V BA BE Hu.
  destruct (unwrapped_B _ _ Hu BA) as (Ey & _ & k0 & Ex). cbn [px py] in Ey, Ex.
  assert (By : Rabs (py c : R) <= 4000).
  { rewrite Ey in Cy. simpl bpow in BE. change (F NumB) with R in *. apply Rabs_le_inv in Cy, BE. apply Rabs_le. lra. }
  assert (Bx : Rabs (px c : R) <= 4000) by (change (F NumB) with R in *; apply Rabs_le; lra).
  destruct (C148_horizontal_to_equatorial T GL (px c) (py c) (g_latitude g) lst Bx By Bl Blst) as (N & B1 & B2). cbv zeta in N, B1, B2.
  eexists _, ty. unfold calibratedEquatorial. rewrite Ho, Ety. cbn [bind]. rewrite Ec. cbn [bind]. split; [reflexivity|]. split; [|split; [exact B1|exact B2]].
  rewrite Ey in Cy. change (F NumB) with R in *.
  set (q := horizontalToEquatorial NumB T (px c) (py c) (g_latitude g) lst) in *. clearbody q.
  assert (E0 : 0 <= e). { destruct Hres as [(p1 & p2 & _ & _ & Hg)|(p1 & p2 & p3 & _ & _ & _ & Hg)]; (eapply Rle_trans; [|exact Hg]); [apply Rmult_le_pos; [apply pow2_ge_0|lra]|apply Rmult_le_pos; [lra|apply pow2_ge_0]]. }
  assert (L : near (e + bpow radix2 (-38)) (vec (px c) (py c)) (vec (az h + 360 * IZR (k0 + k)) (alt h))).
  { apply vec_lip.
    - rewrite plus_IZR. apply Rabs_le_inv in Cx, Ex. apply Rabs_le. simpl bpow in *. lra.
    - apply Rabs_le_inv in Cy. apply Rabs_le. simpl bpow in *. lra.
    - simpl bpow. lra. }
  rewrite (vec_turn _ _ _ (turned_back (az h) (k0 + k))) in L.
  pose proof (near_trans _ _ _ _ _ N (near_trans _ _ _ _ _ L V)) as M. rewrite <- !rot_vec in M. apply (rot_near (g_latitude g)) in M. rewrite !rot_rot in M.
  apply (turned lst) in M. rewrite back in M. replace (lst - (sidereal_in g - r)) with (r + (lst - sidereal_in g)) in M by ring.
  eapply near_le; [|exact M]. simpl bpow. lra.
Qed.
End Device.
Print Assumptions C156_star_drifts_with_the_sky.

(** Non-vacuity.  Commands of two stars 67 degrees apart are sensible and resolve the sky to 0.00008 degrees, with nothing behind the matrix. *)
Definition here : gnss NumB := d_gnss (boot NumB).
Definition two_commands : list (command NumB) := [Sync tube0 10 20 here; Sync tube1 50 40 here].
Example C156_nonvacuous : sensible two_commands /\ at_most 63 two_commands /\ (forall a, resolves 1 (8 / 100000) two_commands a) /\
  first_named_in two_commands tube0 10 20 here /\ first_named_in two_commands tube1 50 40 here.
Proof.
  assert (NE : same NumB tube0 tube1 = false) by (unfold same, tube0, tube1; cbn [px py feq NumB]; rewrite Req_bool_false by lra; reflexivity).
  assert (SY : synchronised two_commands [] = [tube0; tube1]) by (unfold two_commands; cbn [synchronised existsb app]; rewrite NE; reflexivity).
  destruct C155_nonvacuous as (T0 & T1 & _).
  assert (LS : Rabs (sidereal_in here) <= 1000).
  { apply sidereal_moderate; [cbn; lia|]. cbn [here M_Main.boot d_gnss gnss_init g_longitude fZ NumB]. rewrite (b64_of_int 11) by lia. apply Rabs_le. lra. }
  assert (LA : Rabs (g_latitude here) <= 4000).
  { cbn [here M_Main.boot d_gnss gnss_init g_latitude fZ NumB]. rewrite (b64_of_int 48) by lia. apply Rabs_le. lra. }
  split.
  { intros p r dc g [E|[E|[]]]; injection E as <- <- <- <-; (split; [assumption|]; split; [apply Rabs_le; lra|]; split; [apply Rabs_le; lra|]; split; assumption). }
  split. { intros k. destruct k as [|[|[|k]]]; cbn [firstn two_commands synchronised existsb app]; rewrite ?NE, ?firstn_nil; cbn; lia. }
  split.
  { intros a. left. exists tube0, tube1. split; [rewrite SY; apply Permutation_refl|].
    assert (S : 60 <= separation tube0 tube1). { unfold separation, tube0, tube1. cbn [px py]. rewrite <- (sqrt_pow2 60) by lra. apply sqrt_le_1_alt. lra. }
    split; [lra|]. apply gain_67. exact S. }
  split.
  - exists [], [Sync tube1 50 40 here]. split; [reflexivity|]. split; [intros [E|[]]; discriminate|reflexivity].
  - exists [Sync tube0 10 20 here], []. split; [reflexivity|]. split; [intros []|]. cbn [synchronised existsb app]. rewrite NE. reflexivity.
Qed.
(** Sessions with two and with three stars (executable arithmetic): Bluetooth syncs, the tube turned in between by the encoder.
    Trigonometric functions constant; shown: stars, triangles. *)
From Verif Require Import P_AlignWitness Properties_Publish Properties_Device5.
Definition turn_to (now spi : Z) : list (event NumSF) :=
  map (fun t => Pass (Env NumSF t (fz 0, fz 0, fz 0) (Z.shiftr spi 8, Z.land spi 255)%Z false false false None [] [] [] false (fz 0))) [now; now + 1; now + 2]%Z.
Definition T1 : Trig NumSF := MkTrig NumSF (fun _ => fz 0) (fun _ => fz 1) (fun _ _ => fz 1) (fz 3).
Definition hist1 := history NumSF T1 esp32 strict_iso lcSF (insertion_sort NumSF) (Ok (fz 0)) (Some (fz 0, fz 0)) ft0 true cfg0.
Example C156_session_nonvacuous :
  match hist1 (boot NumSF) (Bluetooth a_sync :: turn_to 100001 0xC000 ++ [Bluetooth a_sync]) with
  | Ok (d, _) => Some (numVertices (t_align (d_tel d)), numTriangles (t_align (d_tel d)))
  | UB _ => None
  end = Some (2, 0)%Z /\
  match hist1 (boot NumSF) (Bluetooth a_sync :: turn_to 100001 0xC000 ++ Bluetooth a_sync :: turn_to 200005 0xC000 ++ [Bluetooth a_sync]) with
  | Ok (d, _) => Some (numVertices (t_align (d_tel d)), numTriangles (t_align (d_tel d)))
  | UB _ => None
  end = Some (3, 1)%Z.
Proof. vm_compute. auto. Qed.
