(** C164, C165: what the clients are told after two or three stars, on actual IEEE doubles, down to the bytes sent *)
From Verif Require Import Base Num M_Libc P_Libc M_Checkbits M_Linalg M_Helper M_Alignment S_Alignment P_Alignment P_AlignState P_AlignState2 P_AlignR M_Telescope S_Sky P_Sky P_Round P_Helper2 P_TriIEEE M_Stellarium S_Stellarium P_Stellarium P_Stellarium2 Properties_Stellarium M_Gnss M_NexStar S_NexStar P_NexStar M_Led M_Imu P_Imu M_Main P_Sched P_Main P_Main2 P_Device S_Device P_Device2 P_Device3 S_Safe Properties_Alignment Properties_NexStar Properties_NexStar2 Properties_Main3 Properties_Device2 Properties_Device3 Properties_Device5 Properties_Device7 S_SkyIEEE P_SkyIEEE P_SkyIEEE2 P_OneIEEE P_LstIEEE P_Angle Properties_SkyIEEE P_NumCorr S_Libm P_Libm P_Finite P_LstFinite Properties_Finite Properties_FiniteDevice Properties_FiniteMessages P_Angle2 P_AlignFinite Properties_AlignIEEE Properties_AlignFinite Properties_FiniteDevice2.
From Coq Require Import Permutation Reals Lra Lia Floats.SpecFloat.
From Flocq Require Import Core IEEE754.BinarySingleNaN.
Open Scope R_scope.
Notation length := List.length.

Lemma sidereal_in_unfolded : forall (N : Num) (g : gnss N), sidereal_in g = getLocalSiderealTimeDegrees N (g_time g) (g_longitude g).
Proof. intros N g. unfold sidereal_in. reflexivity. Qed.

Section Device.
Context (T : Trig NumSF) (pf : platform) (oor : conv_policy) (lc : libc NumSF) (qsort : list (vpair NumSF) -> list (vpair NumSF)) (x : F NumSF) (j : F NumSF * F NumSF).
Context (ftext : nat -> F NumSF -> list Z) (left_first : bool) (cfg : config).
Notation history := (history NumSF T pf oor lc qsort (Ok x) (Some j) ftext left_first cfg).
Notation boot := (boot NumSF).
Notation commands := (commands NumSF T pf oor lc qsort (Ok x) (Some j) ftext left_first cfg).
Notation step := (M_Main.step NumSF T pf oor lc qsort (Ok x) (Some j) ftext left_first cfg).

(** the position computed from the current GNSS data, the tube on one of the stars: the star, moved by what sidereal time has advanced *)
Lemma at_one_of_the_stars : permuting NumSF qsort -> c_libm T -> forall evs d o, history boot evs = Ok (d, o) ->
  exists cs, commands boot evs cs /\ (at_most 63 cs -> sensible_doubles cs -> forall X H e : R, is_double x X -> 1 <= H -> Rabs X <= H -> e <= / 1100 ->
    resolves_doubles H e cs (t_align (d_tel d)) ->
    forall p r dc g, first_named_in cs p r dc g -> t_orient (d_tel d) = p ->
    forall R0 D : R, is_double r R0 -> is_double dc D -> Rabs D <= 85 ->
    forall g', sane_gnss g' -> g_latitude g' = g_latitude g ->
    exists S S', is_double (sidereal_in g) S /\ is_double (sidereal_in g') S' /\
    forall s, 1 / 20 <= s <= 360 - 1 / 20 -> same_turn s (R0 + (S' - S)) ->
    exists q ty R1 D1, calibratedEquatorial NumSF T (d_tel d) (g_latitude g') (getLocalSiderealTimeDegrees NumSF (g_time g') (g_longitude g')) = Ok (q, ty) /\
      means (ra q) R1 /\ means (dec q) D1 /\ 0 <= e /\ Rabs (R1 - s) * cos (radians D) <= 3 / 2 * e + 1 / 10 ^ 8 /\ Rabs (R1 - s) <= 1 / 25 /\ Rabs (D1 - D) <= 3 / 2 * e + 1 / 10 ^ 8).
Proof.
  intros Hq HT evs d o Hh. destruct (C163_star_drifts_with_the_sky T pf oor lc qsort x j ftext left_first cfg Hq HT evs d o Hh) as (cs & Hc & K).
  exists cs. split; [exact Hc|]. intros Hm Hs X H e Mx H1 HX He Hres p r dc g Hf Ho R0 D Mr Md Bd g' Hg' Elat.
  destruct (K Hm Hs X H e Mx H1 HX He Hres p r dc g Hf Ho R0 D Mr Md) as (S & MS & BS & Q). clear K.
  destruct (Properties_FiniteMessages.sidereal_double g' Hg') as (S' & MS' & BS'). exists S, S'. split; [exact MS|]. split; [exact MS'|]. intros s Bs Hs2.
  destruct (Q _ S' MS' ltac:(lra)) as (q & ty & R1 & D1 & Eq & M1 & M2 & _ & B1 & _ & Hd). destruct (Hd Bd) as (Hd1 & k & Hk). clear Hd.
  assert (E0 : 0 <= e) by (apply (resolves_nonneg H _ _ _ ltac:(lra) Hres)).
  exists q, ty, R1, D1. rewrite Elat. split; [rewrite <- sidereal_in_unfolded; exact Eq|]. split; [apply double_means, M1|]. split; [apply double_means, M2|]. split; [exact E0|].
  assert (C : / 25 <= cos (radians D)) by (apply cos_85; lra).
  assert (W : Rabs (R1 - (R0 + (S' - S) + 360 * IZR k)) <= 1 / 25).
  { set (v := Rabs (R1 - (R0 + (S' - S) + 360 * IZR k))) in *. assert (0 <= v) by apply Rabs_pos. assert (v * / 25 <= v * cos (radians D)) by (apply Rmult_le_compat_l; lra). lra. }
  destruct Hs2 as [k' Ek']. assert (Ez : R0 + (S' - S) = s + 360 * IZR (- k')) by (rewrite opp_IZR; lra). rewrite Ez in Hk, W. apply Rabs_le_inv in W.
  assert (K0 : (- k' + k = 0)%Z).
  { assert (-1 < IZR (- k' + k) < 1) as [L U] by (rewrite plus_IZR; lra). apply lt_IZR in L, U. lia. }
  assert (K1 : IZR (- k') + IZR k = 0) by (rewrite <- plus_IZR, K0; reflexivity).
  replace (s + 360 * IZR (- k') + 360 * IZR k) with s in Hk by lra. split; [exact Hk|]. split; [apply Rabs_le; lra|exact Hd1].
Qed.

(** ** C164: the message to a Stellarium client *)
Theorem C164_message_carries_the_star : permuting NumSF qsort -> c_libm T -> forall evs d o, history boot evs = Ok (d, o) ->
  exists cs, commands boot evs cs /\ (at_most 63 cs -> sensible_doubles cs -> forall X H e : R, is_double x X -> 1 <= H -> Rabs X <= H -> e <= / 1100 ->
    resolves_doubles H e cs (t_align (d_tel d)) ->
    forall p r dc g, first_named_in cs p r dc g -> t_orient (d_tel d) = p ->
    forall R0 D : R, is_double r R0 -> is_double dc D -> 1 / 100 <= D <= 85 ->
    forall ev d' o' b, step d (Pass ev) = Ok (d', o') -> In (TcpOut b) o' -> length b = 24%nat -> sane_gnss (d_gnss d') -> g_latitude (d_gnss d') = g_latitude g ->
    exists S S', is_double (sidereal_in g) S /\ is_double (sidereal_in (d_gnss d')) S' /\
    forall s, 1 / 20 <= s <= 360 - 1 / 20 -> same_turn s (R0 + (S' - S)) ->
    exists w1 w2, b = current_position 0 w1 w2 /\ (0 <= w1 < 2 ^ 32)%Z /\ (0 <= w2 < 2 ^ 32)%Z /\
      Rabs (IZR w1 * unit_deg - s) * cos (radians D) <= 3 / 2 * e + 2 / 10 ^ 7 /\ Rabs (IZR w2 * unit_deg - D) <= 3 / 2 * e + 2 / 10 ^ 7).
Proof.
  intros Hq HT evs d o Hh. destruct (at_one_of_the_stars Hq HT evs d o Hh) as (cs & Hc & K).
  exists cs. split; [exact Hc|]. intros Hm Hs X H e Mx H1 HX He Hres p r dc g Hf Ho R0 D Mr Md Bd ev d' o' b E Hb Lb Hg' Elat.
  destruct (K Hm Hs X H e Mx H1 HX He Hres p r dc g Hf Ho R0 D Mr Md ltac:(apply Rabs_le; lra) _ Hg' Elat) as (S & S' & MS & MS' & Q). exists S, S'. split; [exact MS|]. split; [exact MS'|].
  intros s Bs Hs2. destruct (Q s Bs Hs2) as (q' & ty' & R1 & D1 & Eq' & M1 & M2 & E0 & A0 & A1 & A2). clear Q K.
  assert (Sz : sized NumSF d) by (eapply history_summary; [exact Hh|split; reflexivity]).
  cbn [M_Main.step] in E. destruct (C96_position_messages NumSF T pf oor lc qsort (Ok x) (Some j) ftext left_first cfg _ _ _ _ _ E Sz Hb Lb) as (_ & _ & _ & _ & _ & q & ty & Eq & buf & Ep & ->).
  rewrite Eq in Eq'. apply Ok2 in Eq'. destruct Eq' as [Eq1 _]. subst q'. destruct Sz as [Lt _]. apply Rabs_le_inv in A1, A2.
  destruct (C04_layout_and_frame NumSF oor (ra q) (dec q) 0 (d_tx d) 256 24 buf) as (_ & w1 & w2 & E1 & E2 & ->); [rewrite Lt; lia|lia|exact Ep|].
  assert (N1 : mb 9 (ra q) R1) by (split; [exact M1|simpl bpow; apply Rabs_le; lra]). assert (N2 : mb 9 (dec q) D1) by (split; [exact M2|simpl bpow; apply Rabs_le; lra]).
  rewrite (u32_agrees oor _ _ (encode_agrees _ _ N1)) in E1. rewrite (u32_agrees oor _ _ (encode_agrees _ _ N2)) in E2.
  destruct (value_roundtrip_B oor R1 (means_b64 _ _ M1)) as (n1 & G1 & V1 & W1); [unfold unit_deg; lra|].
  destruct (value_roundtrip_B oor D1 (means_b64 _ _ M2)) as (n2 & G2 & V2 & W2); [unfold unit_deg; lra|].
  rewrite G1 in E1. rewrite G2 in E2. injection E1 as <-. injection E2 as <-.
  exists n1, n2. split.
  { rewrite firstn_app. replace (24 - length (current_position 0 n1 n2))%nat with O by reflexivity. rewrite app_nil_r. apply firstn_all2. cbn. lia. }
  split; [exact V1|]. split; [exact V2|]. rewrite C06_decode_is_exact_ieee in W1, W2 by assumption. change (F NumB) with R in *. unfold unit_deg in *. simpl bpow in *.
  split.
  - pose proof (cos_1 (radians D)) as C1. apply Rabs_le_inv in C1. assert (C0 : / 25 <= cos (radians D)) by (apply cos_85; apply Rabs_le; lra).
    set (c := cos (radians D)) in *. clearbody c. set (u := IZR n1 * (180 / 2147483648)) in *. clearbody u.
    pose proof (Rabs_triang (u - R1) (R1 - s)) as Tr. replace (u - R1 + (R1 - s)) with (u - s) in Tr by ring.
    assert (Rabs (u - s) * c <= (Rabs (u - R1) + Rabs (R1 - s)) * c) by (apply Rmult_le_compat_r; lra).
    assert (Rabs (u - R1) * c <= Rabs (u - R1) * 1) by (apply Rmult_le_compat_l; [apply Rabs_pos|lra]). lra.
  - apply Rabs_le_inv in W2. apply Rabs_le; lra.
Qed.

(** ** C165: the reply to a NexStar position request over Bluetooth *)
Theorem C165_reply_carries_the_star : permuting NumSF qsort -> c_libm T -> forall evs d o, history boot evs = Ok (d, o) ->
  exists cs, commands boot evs cs /\ (at_most 63 cs -> sensible_doubles cs -> forall X H e : R, is_double x X -> 1 <= H -> Rabs X <= H -> e <= / 1100 ->
    resolves_doubles H e cs (t_align (d_tel d)) ->
    forall p r dc g, first_named_in cs p r dc g -> t_orient (d_tel d) = p ->
    forall R0 D : R, is_double r R0 -> is_double dc D -> -85 <= D <= 85 -> 1 / 100 <= D \/ oor = wrap_u32 ->
    sane_gnss (d_gnss d) -> g_latitude (d_gnss d) = g_latitude g ->
    exists S S', is_double (sidereal_in g) S /\ is_double (sidereal_in (d_gnss d)) S' /\
    forall s, 1 / 20 <= s <= 360 - 1 / 20 -> same_turn s (R0 + (S' - S)) ->
    forall rest, exists w1 w2 d', step d (Bluetooth (101%Z :: rest)) = Ok (d', [BtOut (position_reply w1 w2)]) /\ word w1 /\ word w2 /\
      Rabs (IZR w1 * nexstar_unit - s) * cos (radians D) <= 3 / 2 * e + 2 / 10 ^ 7 /\ Rabs (signed_angle w2 - D) <= 3 / 2 * e + 2 / 10 ^ 7).
Proof.
  intros Hq HT evs d o Hh. destruct (at_one_of_the_stars Hq HT evs d o Hh) as (cs & Hc & K).
  exists cs. split; [exact Hc|]. intros Hm Hs X H e Mx H1 HX He Hres p r dc g Hf Ho R0 D Mr Md Bd Hpl Hg' Elat.
  destruct (K Hm Hs X H e Mx H1 HX He Hres p r dc g Hf Ho R0 D Mr Md ltac:(apply Rabs_le; lra) _ Hg' Elat) as (S & S' & MS & MS' & Q). exists S, S'. split; [exact MS|]. split; [exact MS'|].
  intros s Bs Hs2 rest. destruct (Q s Bs Hs2) as (q & ty & R1 & D1 & Eq & M1 & M2 & E0 & A0 & A1 & A2). clear Q K.
  assert (Sz : sized NumSF d) by (eapply history_summary; [exact Hh|split; reflexivity]). destruct Sz as [Lt _]. apply Rabs_le_inv in A1, A2.
  assert (N1 : mb 9 (ra q) R1) by (split; [exact M1|simpl bpow; apply Rabs_le; lra]). assert (N2 : mb 9 (dec q) D1) by (split; [exact M2|simpl bpow; apply Rabs_le; lra]).
  destruct (word_up_B oor R1 ltac:(lra) ltac:(lra)) as (w1 & E1 & W1 & B1).
  destruct (word_dec_B oor D1 ltac:(lra)) as (w2 & E2 & W2 & B2). { destruct Hpl as [Hpl|Hpl]; [left; lra|right; exact Hpl]. }
  rewrite <- (word_agrees oor _ _ N1) in E1. rewrite <- (word_agrees oor _ _ N2) in E2.
  pose proof (C08_position_reply NumSF T pf oor qsort (Ok x) (Some j) (d_tel d) (d_gnss d) rest [] (d_tx d) 256 ltac:(lia) ltac:(rewrite Lt; lia)) as R.
  rewrite Eq in R. cbn [bind] in R. unfold word_of in E1, E2. rewrite E1, E2 in R. cbn [bind] in R. rewrite app_nil_r in R.
  exists w1, w2. eexists. split.
  { cbn [M_Main.step]. unfold onBluetoothData. change (Z.of_nat (length (101%Z :: rest))) with (len (101%Z :: rest)). rewrite R. cbn [bind]. change (0 <? 18)%Z with true. cbv iota zeta.
    replace (firstn (Z.to_nat 18) (written (position_reply w1 w2) (d_tx d))) with (position_reply w1 w2); [reflexivity|]. symmetry.
    unfold written. change (Z.to_nat 18) with (length (position_reply w1 w2)). rewrite firstn_app, firstn_all, Nat.sub_diag. cbn [firstn]. apply app_nil_r. }
  split; [exact W1|]. split; [exact W2|]. split.
  - pose proof (cos_1 (radians D)) as C1. apply Rabs_le_inv in C1. assert (C0 : / 25 <= cos (radians D)) by (apply cos_85; apply Rabs_le; lra).
    set (c := cos (radians D)) in *. clearbody c. set (u := IZR w1 * nexstar_unit) in *. clearbody u.
    pose proof (Rabs_triang (u - R1) (R1 - s)) as Tr. replace (u - R1 + (R1 - s)) with (u - s) in Tr by ring.
    assert (Rabs (u - s) * c <= (Rabs (u - R1) + Rabs (R1 - s)) * c) by (apply Rmult_le_compat_r; lra).
    assert (Rabs (u - R1) * c <= Rabs (u - R1) * 1) by (apply Rmult_le_compat_l; [apply Rabs_pos|lra]). lra.
  - apply Rabs_le_inv in B2. apply Rabs_le; lra.
Qed.
End Device.
Print Assumptions C164_message_carries_the_star.
Print Assumptions C165_reply_carries_the_star.
