(** C159, C160: what the clients are told after one star, on actual IEEE doubles, down to the bytes sent *)
From Verif Require Import Base Num M_Libc P_Libc M_Checkbits M_Linalg M_Helper M_Alignment S_Alignment P_Alignment P_AlignState P_AlignState2 P_AlignR M_Telescope S_Sky P_Sky P_Round P_Helper2 P_TriIEEE M_Stellarium S_Stellarium P_Stellarium P_Stellarium2 Properties_Stellarium M_Gnss M_NexStar S_NexStar P_NexStar M_Led M_Imu P_Imu M_Main P_Sched P_Main P_Main2 P_Device S_Device P_Device2 P_Device3 S_Safe Properties_Alignment Properties_NexStar Properties_NexStar2 Properties_Main3 Properties_Device2 Properties_Device3 Properties_Device5 Properties_Device7 S_SkyIEEE P_SkyIEEE P_SkyIEEE2 P_OneIEEE P_LstIEEE P_Angle Properties_SkyIEEE P_NumCorr S_Libm P_Libm P_Finite P_LstFinite Properties_Finite Properties_FiniteDevice.
From Coq Require Import Permutation Reals Lra Lia Floats.SpecFloat.
From Flocq Require Import Core IEEE754.BinarySingleNaN.
Open Scope R_scope.
Notation length := List.length.

(** conversion to uint32_t *)
Lemma u32_agrees oor s x : means s x -> to_u32 NumSF oor s = to_u32 NumB oor x.
Proof. intros M. unfold to_u32. cbn [ftrunc NumSF NumB]. rewrite (means_trunc _ _ M). reflexivity. Qed.
Lemma means_b64 s x : means s x -> is_b64 x.
Proof. intros (f & _ & _ & <-). apply generic_format_B2R. Qed.
Lemma encode_agrees s x : mb 9 s x -> means (encode_expr NumSF s) (encode_expr NumB x).
Proof.
  intros M. refine (proj1 (_ : mb 41 _ _)). unfold encode_expr. apply mb_ffloor; [lia|]. apply (mb_fadd 40); [lia| |].
  - up 1%Z. apply mb_fq; try lia. rewrite Rabs_pos_eq; simpl bpow; lra.
  - apply mb_divZ; [lia| |lia]. apply (mb_fmul 9 31); [lia|exact M|apply mb_int; lia].
Qed.
Lemma word_agrees oor s x : mb 9 s x -> word_of NumSF oor s = word_of NumB oor x.
Proof.
  intros M. unfold word_of. apply u32_agrees. refine (proj1 (_ : mb 41 _ _)). apply (mb_fmul 9 32); [lia| |apply mb_int; lia]. apply mb_divZ; [lia|exact M|lia].
Qed.
(** the word sent for an angle, rounding included *)
Lemma word_value x : Rabs x <= 360 -> exists y, fmul NumB (fdiv NumB x (fZ NumB 360)) (fZ NumB 4294967296) = y /\ Rabs (y - x / 360 * 4294967296) <= 1 / 2 ^ 15.
Proof.
  intros B. apply Rabs_le_inv in B. cbn [fmul fdiv fZ NumB]. rewrite (b64_of_int 360), (b64_of_int 4294967296) by lia.
  step 1%Z (x / 360) H1. step 34%Z (y * 4294967296) H2.
  eexists. split; [reflexivity|]. apply Rabs_le. lra.
Qed.
Lemma word_up_B oor x : 0 <= x <= 360 - 1 / 10 ^ 6 -> 1 / 10 ^ 6 <= x -> exists w, word_of NumB oor x = Ok w /\ word w /\ Rabs (IZR w * nexstar_unit - x) <= 84 / 10 ^ 9.
Proof.
  intros Hx Hx'. destruct (word_value x) as (y & E & B); [apply Rabs_le; lra|]. apply Rabs_le_inv in B. unfold word_of. rewrite E. unfold to_u32. cbn [ftrunc NumB].
  assert (By : 0 <= y < 4294967296) by lra. exists (Zfloor y). rewrite Ztrunc_floor by lra.
  pose proof (Zfloor_lb y) as L. pose proof (Zfloor_ub y) as U.
  assert (W : word (Zfloor y)) by (split; [apply Zfloor_lub; simpl; lra|apply lt_IZR; lra]).
  split; [|split; [exact W|unfold nexstar_unit in *; apply Rabs_le; lra]].
  unfold word in W. replace ((0 <=? Zfloor y)%Z && (Zfloor y <? 4294967296)%Z) with true by (symmetry; apply andb_true_iff; split; [apply Z.leb_le|apply Z.ltb_lt]; lia).
  reflexivity.
Qed.
Lemma word_dec_B oor x : -89 <= x <= 89 -> 1 / 10 ^ 6 <= x \/ oor = wrap_u32 -> exists w, word_of NumB oor x = Ok w /\ word w /\ Rabs (signed_angle w - x) <= 84 / 10 ^ 9.
Proof.
  intros Hx Hp. destruct (Rle_lt_dec (1 / 10 ^ 6) x) as [H0|H0].
  - destruct (word_up_B oor x ltac:(lra) H0) as (w & E & W & B). exists w. split; [exact E|]. split; [exact W|]. apply Rabs_le_inv in B.
    assert ((0 <= w <= 3221225472)%Z). { split; [apply W|]. apply le_IZR. unfold nexstar_unit in B. lra. }
    rewrite signed_small by assumption. apply Rabs_le. exact B.
  - assert (Ho : oor = wrap_u32) by (destruct Hp as [Hp|Hp]; [lra|exact Hp]). rewrite Ho. clear Hp.
    destruct (word_value x) as (y & E & B); [apply Rabs_le; lra|]. apply Rabs_le_inv in B. unfold word_of. rewrite E. unfold to_u32. cbn [ftrunc NumB].
    assert (Bt : (Rabs (IZR (Ztrunc y) - y) < 1)).
    { destruct (Rle_lt_dec 0 y) as [Y|Y].
      - rewrite Ztrunc_floor by lra. pose proof (Zfloor_lb y). pose proof (Zfloor_ub y). apply Rabs_def1; lra.
      - rewrite Ztrunc_ceil by lra. pose proof (Zceil_lb y). pose proof (Zceil_ub y). apply Rabs_def1; lra. }
    apply Rabs_def2 in Bt. set (t := Ztrunc y) in *. clearbody t.
    assert (T : (-1073741824 < t < 1073741824)%Z) by (split; apply lt_IZR; lra).
    destruct (Z_lt_le_dec t 0) as [T0|T0].
    + exists (t + 4294967296)%Z. split; [|split].
      * replace (0 <=? t)%Z with false by (symmetry; apply Z.leb_gt; lia). cbn [andb]. unfold wrap_u32, u32. f_equal.
        replace t with (t + 4294967296 + (-1) * 4294967296)%Z at 1 by ring. rewrite Z_mod_plus_full. apply Z.mod_small. lia.
      * unfold word. lia.
      * unfold signed_angle. cbv zeta. rewrite plus_IZR. assert (IZ : -1073741824 < IZR t) by (apply IZR_lt; lia).
        rewrite Rlt_bool_true by lra. apply Rabs_le; lra.
    + exists t. split; [|split].
      * replace ((0 <=? t)%Z && (t <? 4294967296)%Z) with true by (symmetry; apply andb_true_iff; split; [apply Z.leb_le|apply Z.ltb_lt]; lia). reflexivity.
      * unfold word. lia.
      * rewrite signed_small by lia. unfold nexstar_unit. apply Rabs_le. lra.
Qed.

Section Device.
Context (T : Trig NumSF) (pf : platform) (oor : conv_policy) (lc : libc NumSF) (qsort : list (vpair NumSF) -> list (vpair NumSF)) (x : F NumSF) (j : F NumSF * F NumSF).
Context (ftext : nat -> F NumSF -> list Z) (left_first : bool) (cfg : config).
Notation history := (history NumSF T pf oor lc qsort (Ok x) (Some j) ftext left_first cfg).
Notation boot := (boot NumSF).
Notation commands := (commands NumSF T pf oor lc qsort (Ok x) (Some j) ftext left_first cfg).
Notation step := (M_Main.step NumSF T pf oor lc qsort (Ok x) (Some j) ftext left_first cfg).

(** GNSS data whose place and date are numbers of ordinary size *)
Definition sane_gnss (g : gnss NumSF) : Prop := civil (g_time g) /\ exists LA LO, is_double (g_latitude g) LA /\ is_double (g_longitude g) LO /\ Rabs LA <= 4000 /\ Rabs LO <= 1000.

Lemma sidereal_double g : sane_gnss g -> exists S, is_double (sidereal_in g) S /\ Rabs S <= 361.
Proof.
  intros (Hci & LA & LO & _ & Mlo & _ & Blo). pose proof (lst_agrees (g_time g) (g_longitude g) LO Hci (proj1 (double_means _ _) Mlo) Blo) as Ms.
  destruct Hci as (? & ? & ? & ? & ? & ?). eexists. split; [apply double_means; exact Ms|]. apply lst_range; assumption.
Qed.
Lemma double_unique s a b : is_double s a -> is_double s b -> a = b.
Proof. intros (_ & _ & <-) (_ & _ & <-). reflexivity. Qed.

(** the position computed from the current GNSS data, the tube on the only star: the star, moved by what sidereal time has advanced *)
Lemma at_the_star : permuting NumSF qsort -> c_libm T -> forall evs d o, history boot evs = Ok (d, o) ->
  exists cs, commands boot evs cs /\ (at_most 63 cs -> forall p r dc g, first_named_in cs p r dc g -> synchronised cs [] = [p] -> t_orient (d_tel d) = p ->
    forall PX PY R0 D : R, is_point p PX PY -> is_double r R0 -> is_double dc D -> sane_gnss g ->
    Rabs PX <= 1000 -> Rabs PY <= 1000 -> Rabs R0 <= 1000 -> Rabs D <= 85 ->
    forall g', sane_gnss g' -> g_latitude g' = g_latitude g ->
    exists S S', is_double (sidereal_in g) S /\ is_double (sidereal_in g') S' /\
    forall s, 1 / 10 ^ 5 <= s <= 360 - 1 / 10 ^ 5 -> same_turn s (R0 + (S' - S)) ->
    exists q R1 D1, calibratedEquatorial NumSF T (d_tel d) (g_latitude g') (getLocalSiderealTimeDegrees NumSF (g_time g') (g_longitude g')) = Ok (q, POINT) /\
      means (ra q) R1 /\ means (dec q) D1 /\ Rabs (R1 - s) <= 15 / 10 ^ 7 /\ Rabs (D1 - D) <= 6 / 10 ^ 8).
Proof.
  intros Hq HT evs d o H. destruct (C158_star_drifts_with_the_sky T pf oor lc qsort x j ftext left_first cfg Hq HT evs d o H) as (cs & Hc & K).
  exists cs. split; [exact Hc|]. intros Hm p r dc g Hf Hs Ho PX PY R0 D Mp Mr Md (Hci & LA & LO & Mla & Mlo & Bla & Blo) Bp1 Bp2 Br Bd g' Hg' Elat.
  destruct (K Hm p r dc g Hf Hs Ho PX PY R0 D LA LO Mp Mr Md Mla Mlo Hci Bp1 Bp2 Br ltac:(lra) Bla Blo) as (S & MS & BS & Q). clear K.
  destruct (sidereal_double g' Hg') as (S' & MS' & BS'). exists S, S'. split; [exact MS|]. split; [exact MS'|]. intros s Bs Hs2.
  destruct (Q _ S' MS' ltac:(lra)) as (q & R1 & D1 & Eq & M1 & M2 & _ & B1 & _ & Hd). destruct (Hd Bd) as (Hd1 & k & Hk). clear Hd.
  exists q, R1, D1. rewrite Elat. split; [exact Eq|]. split; [apply double_means, M1|]. split; [apply double_means, M2|]. split; [|exact Hd1].
  destruct Hs2 as [k' Ek']. assert (Ez : R0 + (S' - S) = s + 360 * IZR (- k')) by (rewrite opp_IZR; lra). rewrite Ez in Hk. apply Rabs_le_inv in Hk.
  assert (K0 : (- k' + k = 0)%Z).
  { assert (-1 < IZR (- k' + k) < 1) as [L U] by (rewrite plus_IZR; lra). apply lt_IZR in L, U. lia. }
  assert (K1 : IZR (- k') + IZR k = 0) by (rewrite <- plus_IZR, K0; reflexivity). apply Rabs_le. lra.
Qed.

(** ** C159: the message to a Stellarium client *)
Theorem C159_message_carries_the_star : permuting NumSF qsort -> c_libm T -> forall evs d o, history boot evs = Ok (d, o) ->
  exists cs, commands boot evs cs /\ (at_most 63 cs -> forall p r dc g, first_named_in cs p r dc g -> synchronised cs [] = [p] -> t_orient (d_tel d) = p ->
    forall PX PY R0 D : R, is_point p PX PY -> is_double r R0 -> is_double dc D -> sane_gnss g ->
    Rabs PX <= 1000 -> Rabs PY <= 1000 -> Rabs R0 <= 1000 -> 1 / 10 ^ 5 <= D <= 85 ->
    forall e d' o' b, step d (Pass e) = Ok (d', o') -> In (TcpOut b) o' -> length b = 24%nat -> sane_gnss (d_gnss d') -> g_latitude (d_gnss d') = g_latitude g ->
    exists S S', is_double (sidereal_in g) S /\ is_double (sidereal_in (d_gnss d')) S' /\
    forall s, 1 / 10 ^ 5 <= s <= 360 - 1 / 10 ^ 5 -> same_turn s (R0 + (S' - S)) ->
    exists w1 w2, b = current_position 0 w1 w2 /\ (0 <= w1 < 2 ^ 32)%Z /\ (0 <= w2 < 2 ^ 32)%Z /\
      Rabs (IZR w1 * unit_deg - s) <= 2 / 10 ^ 6 /\ Rabs (IZR w2 * unit_deg - D) <= 2 / 10 ^ 7).
Proof.
  intros Hq HT evs d o H. destruct (at_the_star Hq HT evs d o H) as (cs & Hc & K).
  exists cs. split; [exact Hc|]. intros Hm p r dc g Hf Hs Ho PX PY R0 D Mp Mr Md Hg Bp1 Bp2 Br Bd e d' o' b E Hb Lb Hg' Elat.
  destruct (K Hm p r dc g Hf Hs Ho PX PY R0 D Mp Mr Md Hg Bp1 Bp2 Br ltac:(apply Rabs_le; lra) _ Hg' Elat) as (S & S' & MS & MS' & Q). exists S, S'. split; [exact MS|]. split; [exact MS'|].
  intros s Bs Hs2. destruct (Q s Bs Hs2) as (q' & R1 & D1 & Eq' & M1 & M2 & A1 & A2). clear Q K.
  assert (Sz : sized NumSF d) by (eapply history_summary; [exact H|split; reflexivity]).
  cbn [M_Main.step] in E. destruct (C96_position_messages NumSF T pf oor lc qsort (Ok x) (Some j) ftext left_first cfg _ _ _ _ _ E Sz Hb Lb) as (_ & _ & _ & _ & _ & q & ty & Eq & buf & Ep & ->).
  rewrite Eq in Eq'. apply Ok2 in Eq'. destruct Eq' as [Eq1 _]. subst q'. destruct Sz as [Lt _]. apply Rabs_le_inv in A1, A2.
  destruct (C04_layout_and_frame NumSF oor (ra q) (dec q) 0 (d_tx d) 256 24 buf) as (_ & w1 & w2 & E1 & E2 & ->); [rewrite Lt; lia|lia|exact Ep|].
  assert (N1 : mb 9 (ra q) R1) by (split; [exact M1|simpl bpow; apply Rabs_le; lra]). assert (N2 : mb 9 (dec q) D1) by (split; [exact M2|simpl bpow; apply Rabs_le; lra]).
  rewrite (u32_agrees oor _ _ (encode_agrees _ _ N1)) in E1. rewrite (u32_agrees oor _ _ (encode_agrees _ _ N2)) in E2.
  destruct (value_roundtrip_B oor R1 (means_b64 _ _ M1)) as (n1 & G1 & V1 & W1); [unfold unit_deg; lra|].
  destruct (value_roundtrip_B oor D1 (means_b64 _ _ M2)) as (n2 & G2 & V2 & W2); [unfold unit_deg; lra|].
  rewrite G1 in E1. rewrite G2 in E2. injection E1 as <-. injection E2 as <-.
  exists n1, n2. split.
  { rewrite firstn_app. replace (24 - length (current_position 0 n1 n2))%nat with O by reflexivity. rewrite app_nil_r. apply firstn_all2. cbn. lia. }
  split; [exact V1|]. split; [exact V2|]. rewrite C06_decode_is_exact_ieee in W1, W2 by assumption. change (F NumB) with R in *. unfold unit_deg in *. apply Rabs_le_inv in W1, W2. simpl bpow in *.
  split; apply Rabs_le; lra.
Qed.

(** ** C160: the reply to a NexStar position request over Bluetooth *)
Theorem C160_reply_carries_the_star : permuting NumSF qsort -> c_libm T -> forall evs d o, history boot evs = Ok (d, o) ->
  exists cs, commands boot evs cs /\ (at_most 63 cs -> forall p r dc g, first_named_in cs p r dc g -> synchronised cs [] = [p] -> t_orient (d_tel d) = p ->
    forall PX PY R0 D : R, is_point p PX PY -> is_double r R0 -> is_double dc D -> sane_gnss g ->
    Rabs PX <= 1000 -> Rabs PY <= 1000 -> Rabs R0 <= 1000 -> -85 <= D <= 85 -> 1 / 10 ^ 5 <= D \/ oor = wrap_u32 ->
    sane_gnss (d_gnss d) -> g_latitude (d_gnss d) = g_latitude g ->
    exists S S', is_double (sidereal_in g) S /\ is_double (sidereal_in (d_gnss d)) S' /\
    forall s, 1 / 10 ^ 5 <= s <= 360 - 1 / 10 ^ 5 -> same_turn s (R0 + (S' - S)) ->
    forall rest, exists w1 w2 d', step d (Bluetooth (101%Z :: rest)) = Ok (d', [BtOut (position_reply w1 w2)]) /\ word w1 /\ word w2 /\
      Rabs (IZR w1 * nexstar_unit - s) <= 2 / 10 ^ 6 /\ Rabs (signed_angle w2 - D) <= 2 / 10 ^ 7).
Proof.
  intros Hq HT evs d o H. destruct (at_the_star Hq HT evs d o H) as (cs & Hc & K).
  exists cs. split; [exact Hc|]. intros Hm p r dc g Hf Hs Ho PX PY R0 D Mp Mr Md Hg Bp1 Bp2 Br Bd Hpl Hg' Elat.
  destruct (K Hm p r dc g Hf Hs Ho PX PY R0 D Mp Mr Md Hg Bp1 Bp2 Br ltac:(apply Rabs_le; lra) _ Hg' Elat) as (S & S' & MS & MS' & Q). exists S, S'. split; [exact MS|]. split; [exact MS'|].
  intros s Bs Hs2 rest. destruct (Q s Bs Hs2) as (q & R1 & D1 & Eq & M1 & M2 & A1 & A2). clear Q K.
  assert (Sz : sized NumSF d) by (eapply history_summary; [exact H|split; reflexivity]). destruct Sz as [Lt _]. apply Rabs_le_inv in A1, A2.
  assert (N1 : mb 9 (ra q) R1) by (split; [exact M1|simpl bpow; apply Rabs_le; lra]). assert (N2 : mb 9 (dec q) D1) by (split; [exact M2|simpl bpow; apply Rabs_le; lra]).
  destruct (word_up_B oor R1 ltac:(lra) ltac:(lra)) as (w1 & E1 & W1 & B1).
  destruct (word_dec_B oor D1 ltac:(lra)) as (w2 & E2 & W2 & B2). { destruct Hpl as [Hpl|Hpl]; [left; lra|right; exact Hpl]. }
  rewrite <- (word_agrees oor _ _ N1) in E1. rewrite <- (word_agrees oor _ _ N2) in E2.
  pose proof (C08_position_reply NumSF T pf oor qsort (Ok x) (Some j) (d_tel d) (d_gnss d) rest [] (d_tx d) 256 ltac:(lia) ltac:(rewrite Lt; lia)) as R.
  rewrite Eq in R. cbn [bind] in R. unfold word_of in E1, E2. rewrite E1, E2 in R. cbn [bind] in R. rewrite app_nil_r in R.
  exists w1, w2. eexists. split.
  { cbn [M_Main.step]. unfold onBluetoothData. change (Z.of_nat (length (101%Z :: rest))) with (len (101%Z :: rest)). rewrite R. cbn [bind]. change (0 <? 18)%Z with true. cbv iota zeta.
    replace (firstn (Z.to_nat 18) (written (position_reply w1 w2) (d_tx d))) with (position_reply w1 w2); [reflexivity|]. symmetry.
    unfold written. change (Z.to_nat 18) with (length (position_reply w1 w2)). rewrite firstn_app, firstn_all, Nat.sub_diag. cbn [firstn]. apply app_nil_r. }
  split; [exact W1|]. split; [exact W2|]. apply Rabs_le_inv in B1, B2. split; apply Rabs_le; lra.
Qed.

(** Non-vacuity, all hypotheses discharged: a device just switched on is told over Bluetooth that it points at the star (90, 45),
    and then answers a position request with that star. *)
Definition hex_90 : list Z := 52%Z :: repeat 48%Z 7.
Definition hex_45 : list Z := 50%Z :: repeat 48%Z 7.
Definition star_sync : list Z := sync_request hex_90 44 hex_45 [].
Lemma star_sync_is : is_sync star_sync. Proof. exists (hex_90 ++ 44%Z :: hex_45 ++ []). split; [reflexivity|cbn; lia]. Qed.
Lemma star_spelled : (word 0x40000000 /\ spells 0x40000000 hex_90) /\ (word 0x20000000 /\ spells 0x20000000 hex_45).
Proof. split; (split; [red; lia|]); unfold spells, hex_90, hex_45; cbn [repeat]; repeat constructor; left; split; (reflexivity || (cbn; lia)). Qed.
Lemma boot_sane : sane_gnss (d_gnss boot).
Proof.
  split; [repeat split; cbn; lia|]. exists 48, 11. split; [apply (int_double 48); lia|]. split; [apply (int_double 11); lia|]. rewrite !Rabs_pos_eq; lra.
Qed.
Example C160_nonvacuous : permuting NumSF qsort -> c_libm T ->
  exists d o, history boot [Bluetooth star_sync] = Ok (d, o) /\
  forall rest, exists w1 w2 d', step d (Bluetooth (101%Z :: rest)) = Ok (d', [BtOut (position_reply w1 w2)]) /\
    Rabs (IZR w1 * nexstar_unit - 90) <= 2 / 10 ^ 6 /\ Rabs (signed_angle w2 - 45) <= 2 / 10 ^ 7.
Proof.
  intros Hq HT. destruct star_spelled as [[Hw1 Hz1] [Hw2 Hz2]].
  pose proof (C12_sync_fields NumSF T pf oor qsort (Ok x) (Some j) (d_tel boot) (d_gnss boot) 0x40000000 0x20000000 hex_90 hex_45 44 [] [] (d_tx boot) 256 Hw1 Hw2 Hz1 Hz2 ltac:(lia) ltac:(cbn; lia)) as H.
  cbv zeta in H. fold star_sync in H. rewrite app_nil_r in H.
  match type of H with _ = (do _ <- addReferencePoint _ _ qsort _ _ ?t ?a ?b ?c ?l; _) =>
    destruct (P_Device.add_point NumSF T qsort x j t a b c l Hq (WF_init NumSF) ltac:(cbn; lia)) as (t' & Et & _ & Eo & _ & Nt) end.
  rewrite Et in H. cbn [bind] in H.
  assert (E0 : exists d o, history boot [Bluetooth star_sync] = Ok (d, o) /\ t_orient (d_tel d) = t_orient (d_tel boot) /\ d_gnss d = d_gnss boot).
  { eexists _, _. split; [|split].
    - cbn [M_Main.history M_Main.step]. unfold onBluetoothData. rewrite H. cbn [bind]. change (0 <? 1)%Z with true. cbv iota zeta. reflexivity.
    - exact Eo.
    - reflexivity. }
  clear Et H Eo Nt t'. destruct E0 as (d & o & E & Eo & Eg). exists d, o. split; [exact E|].
  destruct (C160_reply_carries_the_star Hq HT _ _ _ E) as (cs & Hc & K).
  inversion Hc as [|? ? d' o' ? c cs' Es Hco Hcs]; subst. inversion Hcs; subst. destruct Hco as [(_ & r & dc & Hsay & ->)|(Hn & _)]; [|contradiction Hn; apply star_sync_is].
  destruct (Hsay _ _ hex_90 hex_45 44%Z [] Hw1 Hw2 Hz1 Hz2 eq_refl) as [Hr Hd]. cbn [app] in *.
  assert (A0 : fdiv NumSF (fmul NumSF (fZ NumSF 0x40000000) (fZ NumSF 360)) (fZ NumSF 4294967296) = fZ NumSF 90) by (vm_compute; reflexivity).
  assert (A1 : fdiv NumSF (fmul NumSF (fZ NumSF 0x20000000) (fZ NumSF 360)) (fZ NumSF 4294967296) = fZ NumSF 45) by (vm_compute; reflexivity).
  cbv zeta in Hr, Hd. rewrite A0 in Hr. rewrite A1 in Hd.
  assert (Ed : dc = fZ NumSF 45) by (rewrite Hd; vm_compute; reflexivity). clear Hc Hcs Es Hsay Hd A0 A1. subst r dc.
  assert (Z0 : Rabs 0 <= 1000) by (rewrite Rabs_R0; lra).
  destruct (K ltac:(intros [|[|k]]; cbn; lia) (t_orient (d_tel boot)) (fZ NumSF 90) (fZ NumSF 45) (d_gnss boot)) with (PX := 0) (PY := 0) (R0 := 90) (D := 45) as (S & S' & MS & MS' & Q).
  - exists [], []. split; [reflexivity|]. split; [intros []|reflexivity].
  - reflexivity.
  - exact Eo.
  - split; apply (int_double 0); lia.
  - apply (int_double 90); lia.
  - apply (int_double 45); lia.
  - exact boot_sane.
  - exact Z0.
  - exact Z0.
  - rewrite Rabs_pos_eq; lra.
  - lra.
  - left; lra.
  - rewrite Eg. exact boot_sane.
  - rewrite Eg. reflexivity.
  - rewrite Eg in MS'. rewrite (double_unique _ _ _ MS' MS) in Q. clear MS MS' K.
    intros rest. destruct (Q 90 ltac:(lra) ltac:(exists 0%Z; lra) rest) as (w1 & w2 & d9 & E1 & _ & _ & B1 & B2). exists w1, w2, d9. auto.
Qed.
End Device.
Print Assumptions C159_message_carries_the_star.
Print Assumptions C160_reply_carries_the_star.
Print Assumptions C160_nonvacuous.
(** The hypotheses of C159 about the pass: in the session of C150 (a client names a star and half a second later gets a position)
    place and date are finite and of ordinary size in the pass that sends the message. *)
Definition finite_double (s : spec_float) : bool := valid_binary 53 1024 s && is_finite_SF s.
Example C159_session_nonvacuous :
  match Properties_Device5.hist0 (boot NumSF) (star_part ++ [there 1510010 []; there 1510011 []; there 1510012 []]) with
  | Ok (d, _) =>
      match Properties_Device5.hist0 d [there 1510013 []] with
      | Ok (d', o) => Some (numVertices (t_align (d_tel d)), flat_map (fun x => match x with TcpOut b => [List.length b] | _ => [] end) o,
          (finite_double (g_latitude (d_gnss d')), finite_double (g_longitude (d_gnss d')), g_time (d_gnss d')))
      | UB _ => None
      end
  | UB _ => None
  end = Some (1%Z, [24%nat], (true, true, g_time (gnss_init NumSF (sf_ofZ 48) (sf_ofZ 11)))).
Proof. vm_compute. reflexivity. Qed.
