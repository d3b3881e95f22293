(** C166, C167: what the clients are told on platforms whose out-of-range conversions wrap: every right ascension and both hemispheres, on actual IEEE doubles *)
From Verif Require Import Base Num M_Libc P_Libc M_Checkbits M_Linalg M_Helper M_Alignment S_Alignment P_Alignment P_AlignState P_AlignState2 P_AlignR M_Telescope S_Sky P_Sky P_Round P_Helper2 P_TriIEEE M_Stellarium S_Stellarium P_Stellarium P_Stellarium2 Properties_Stellarium M_Gnss M_NexStar S_NexStar P_NexStar M_Led M_Imu P_Imu M_Main P_Sched P_Main P_Main2 P_Device S_Device P_Device2 P_Device3 S_Safe Properties_Alignment Properties_NexStar Properties_NexStar2 Properties_Main3 Properties_Device2 Properties_Device3 Properties_Device5 Properties_Device7 S_SkyIEEE P_SkyIEEE P_SkyIEEE2 P_OneIEEE P_LstIEEE P_Angle Properties_SkyIEEE P_NumCorr S_Libm P_Libm P_Finite P_LstFinite Properties_Finite Properties_FiniteDevice Properties_FiniteMessages P_Angle2 P_AlignFinite Properties_AlignIEEE Properties_AlignFinite Properties_FiniteDevice2 Properties_FiniteMessages2 Properties_Device8.
From Coq Require Import Permutation Reals Lra Lia Floats.SpecFloat.
From Flocq Require Import Core IEEE754.BinarySingleNaN.
Open Scope R_scope.
Notation length := List.length.

(** two 32-bit words carry the angles [a] (up to whole turns) and [b] (signed), in units of 180/2^31 degrees *)
Definition words_carry (w1 w2 : Z) (a b : R) : Prop := word w1 /\ word w2 /\
  (exists k : Z, Rabs (IZR w1 * unit_deg - (a + 360 * IZR k)) <= 9 / 10 ^ 8) /\ Rabs (IZR (signed_word w2) * unit_deg - b) <= 9 / 10 ^ 8.
(** the direction they say *)
Definition said (w1 w2 : Z) : R * R * R := vec (IZR w1 * unit_deg) (IZR (signed_word w2) * unit_deg).

(** an integer that stands for an angle, wrapped to 32 bits *)
Lemma wrapped_word t x : Rabs (IZR t * unit_deg - x) <= 9 / 10 ^ 8 ->
  wrap_u32 t = Ok (u32 t) /\ word (u32 t) /\ (exists k : Z, Rabs (IZR (u32 t) * unit_deg - (x + 360 * IZR k)) <= 9 / 10 ^ 8) /\
  (Rabs x <= 91 -> Rabs (IZR (signed_word (u32 t)) * unit_deg - x) <= 9 / 10 ^ 8).
Proof.
  intros H. split; [reflexivity|]. unfold u32, word. change (2 ^ 32)%Z with 4294967296%Z.
  pose proof (Z.mod_pos_bound t 4294967296 ltac:(lia)) as B. split; [exact B|].
  pose proof (Z.div_mod t 4294967296 ltac:(lia)) as E. set (k := (t / 4294967296)%Z) in *. set (w := (t mod 4294967296)%Z) in *. clearbody k w.
  assert (ER : IZR t = 4294967296 * IZR k + IZR w) by (rewrite E, plus_IZR, mult_IZR; reflexivity).
  apply Rabs_le_inv in H. unfold unit_deg in *. split.
  - exists (- k)%Z. rewrite opp_IZR. apply Rabs_le. lra.
  - intros Hx. apply Rabs_le_inv in Hx. assert (Bt : -1200000000 < IZR t < 1200000000) by lra. destruct Bt as [L U]. apply lt_IZR in L, U.
    assert (K : (k = 0 \/ k = -1)%Z) by lia. unfold signed_word. destruct K as [-> | ->].
    + replace (w <? 2147483648)%Z with true by (symmetry; apply Z.ltb_lt; lia). apply Rabs_le. lra.
    + replace (w <? 2147483648)%Z with false by (symmetry; apply Z.ltb_ge; lia). rewrite minus_IZR. apply Rabs_le. lra.
Qed.
Lemma wrapped_conversion (y x : R) : Rabs (IZR (Ztrunc y) * unit_deg - x) <= 9 / 10 ^ 8 ->
  exists w, to_u32 NumB wrap_u32 y = Ok w /\ word w /\ (exists k : Z, Rabs (IZR w * unit_deg - (x + 360 * IZR k)) <= 9 / 10 ^ 8) /\
    (Rabs x <= 91 -> Rabs (IZR (signed_word w) * unit_deg - x) <= 9 / 10 ^ 8).
Proof.
  intros H. destruct (wrapped_word _ _ H) as (_ & W & K). unfold to_u32. cbn [ftrunc NumB]. set (t := Ztrunc y) in *. clearbody t.
  exists (u32 t). split; [|split; [exact W|exact K]].
  destruct ((0 <=? t)%Z && (t <? 4294967296)%Z) eqn:E; [|reflexivity]. apply andb_true_iff in E. destruct E as [E1 E2]. apply Z.leb_le in E1. apply Z.ltb_lt in E2.
  unfold u32. rewrite Z.mod_small by (change (2 ^ 32)%Z with 4294967296%Z; lia). reflexivity.
Qed.
(** Stellarium: floor(0.5 + v * 2^31 / 180) *)
Lemma stellarium_word x : Rabs x <= 400 -> exists w, to_u32 NumB wrap_u32 (encode_expr NumB x) = Ok w /\ word w /\
  (exists k : Z, Rabs (IZR w * unit_deg - (x + 360 * IZR k)) <= 9 / 10 ^ 8) /\ (Rabs x <= 91 -> Rabs (IZR (signed_word w) * unit_deg - x) <= 9 / 10 ^ 8).
Proof.
  intros B. apply Rabs_le_inv in B. apply wrapped_conversion. unfold encode_expr. cbn [ffloor fadd fmul fdiv fZ fq NumB]. rewrite (b64_of_int 2147483648), (b64_of_int 180) by lia.
  assert (Hh : b64 (1 / 2) = 1 / 2). { replace (1 / 2) with (IZR 1 * bpow radix2 (-1)) by (simpl; lra). apply b64_exact_scaled; lia. }
  rewrite Hh. rewrite Ztrunc_IZR. step 40%Z (x * 2147483648) H1. step 33%Z (y / 180) H2. step 33%Z (1 / 2 + y0) H3.
  pose proof (Zfloor_lb y1) as L. pose proof (Zfloor_ub y1) as U. unfold unit_deg. apply Rabs_le. lra.
Qed.
(** NexStar: v / 360 * 2^32, truncated *)
Lemma nexstar_word x : Rabs x <= 400 -> exists w, word_of NumB wrap_u32 x = Ok w /\ word w /\
  (exists k : Z, Rabs (IZR w * unit_deg - (x + 360 * IZR k)) <= 9 / 10 ^ 8) /\ (Rabs x <= 91 -> Rabs (IZR (signed_word w) * unit_deg - x) <= 9 / 10 ^ 8).
Proof.
  intros B. apply Rabs_le_inv in B. apply wrapped_conversion. cbn [fmul fdiv fZ NumB]. rewrite (b64_of_int 360), (b64_of_int 4294967296) by lia.
  step 1%Z (x / 360) H1. step 34%Z (y * 4294967296) H2.
  assert (Bt : (Rabs (IZR (Ztrunc y0) - y0) < 1)).
  { destruct (Rle_lt_dec 0 y0) as [Y|Y].
    - rewrite Ztrunc_floor by lra. pose proof (Zfloor_lb y0). pose proof (Zfloor_ub y0). apply Rabs_def1; lra.
    - rewrite Ztrunc_ceil by lra. pose proof (Zceil_lb y0). pose proof (Zceil_ub y0). apply Rabs_def1; lra. }
  apply Rabs_def2 in Bt. unfold unit_deg. apply Rabs_le. lra.
Qed.

Lemma near_lip a e a' e' f : 0 <= f -> Rabs (a - a') <= f -> Rabs (e - e') <= f -> near (f / 40) (vec a e) (vec a' e').
Proof.
  intros F0 Ha He. pose proof (dist2_lip _ _ _ _ _ Ha He) as D. destruct (vec a e) as [[x y] z], (vec a' e') as [[x' y'] z']. unfold dist2 in D. unfold near.
  assert (Q : forall u v, (u - v) * (u - v) <= f / 40 * (f / 40) -> Rabs (u - v) <= f / 40).
  { intros u v K. apply Rnot_lt_le. intros L. assert (f / 40 * (f / 40) < Rabs (u - v) * Rabs (u - v)) by (apply Rmult_le_0_lt_compat; lra).
    rewrite <- Rabs_mult, Rabs_pos_eq in H by apply Rle_0_sqr. lra. }
  pose proof (Rle_0_sqr (x - x')) as Q1. pose proof (Rle_0_sqr (y - y')) as Q2. pose proof (Rle_0_sqr (z - z')) as Q3. unfold Rsqr in *.
  split; [|split]; apply Q; lra.
Qed.
Lemma carried_near w1 w2 a b : words_carry w1 w2 a b -> near (bpow radix2 (-28)) (said w1 w2) (vec a b).
Proof.
  intros (_ & _ & [k Hk] & H2). rewrite <- (vec_turn (a + 360 * IZR k) a b) by (exists k; reflexivity). eapply near_le; [|apply (near_lip _ _ _ _ (9 / 10 ^ 8)); [lra|exact Hk|exact H2]]. simpl bpow. lra.
Qed.

Section Device.
Context (T : Trig NumSF) (pf : platform) (lc : libc NumSF) (qsort : list (vpair NumSF) -> list (vpair NumSF)) (x : F NumSF) (j : F NumSF * F NumSF).
Context (ftext : nat -> F NumSF -> list Z) (left_first : bool) (cfg : config).
(** the platform: a conversion to uint32_t out of range keeps the low 32 bits *)
Notation history := (history NumSF T pf wrap_u32 lc qsort (Ok x) (Some j) ftext left_first cfg).
Notation boot := (boot NumSF).
Notation commands := (commands NumSF T pf wrap_u32 lc qsort (Ok x) (Some j) ftext left_first cfg).
Notation step := (M_Main.step NumSF T pf wrap_u32 lc qsort (Ok x) (Some j) ftext left_first cfg).

Lemma message_words d ev d' o' b q ty (R1 D1 : R) : sized NumSF d -> step d (Pass ev) = Ok (d', o') -> In (TcpOut b) o' -> length b = 24%nat ->
  calibratedEquatorial NumSF T (d_tel d) (g_latitude (d_gnss d')) (sidereal_in (d_gnss d')) = Ok (q, ty) -> is_double (ra q) R1 -> is_double (dec q) D1 ->
  Rabs R1 <= 400 -> Rabs D1 <= 91 -> exists w1 w2, b = current_position 0 w1 w2 /\ words_carry w1 w2 R1 D1.
Proof.
  intros Sz E Hb Lb Eq' M1 M2 B1 B2. apply double_means in M1, M2. rewrite sidereal_in_unfolded in Eq'.
  cbn [M_Main.step] in E. destruct (C96_position_messages NumSF T pf wrap_u32 lc qsort (Ok x) (Some j) ftext left_first cfg _ _ _ _ _ E Sz Hb Lb) as (_ & _ & _ & _ & _ & q' & ty' & Eq & buf & Ep & ->).
  rewrite Eq in Eq'. apply Ok2 in Eq'. destruct Eq' as [Eq1 _]. subst q'. destruct Sz as [Lt _].
  destruct (C04_layout_and_frame NumSF wrap_u32 (ra q) (dec q) 0 (d_tx d) 256 24 buf) as (_ & w1 & w2 & E1 & E2 & ->); [rewrite Lt; lia|lia|exact Ep|].
  assert (N1 : mb 9 (ra q) R1) by (split; [exact M1|simpl bpow; lra]). assert (N2 : mb 9 (dec q) D1) by (split; [exact M2|simpl bpow; lra]).
  rewrite (u32_agrees wrap_u32 _ _ (encode_agrees _ _ N1)) in E1. rewrite (u32_agrees wrap_u32 _ _ (encode_agrees _ _ N2)) in E2.
  destruct (stellarium_word R1 B1) as (n1 & G1 & V1 & K1 & _). destruct (stellarium_word D1 ltac:(lra)) as (n2 & G2 & V2 & _ & K2).
  rewrite G1 in E1. rewrite G2 in E2. injection E1 as <-. injection E2 as <-. exists n1, n2. split.
  { rewrite firstn_app. replace (24 - length (current_position 0 n1 n2))%nat with O by reflexivity. rewrite app_nil_r. apply firstn_all2. cbn. lia. }
  split; [exact V1|]. split; [exact V2|]. split; [exact K1|exact (K2 B2)].
Qed.
Lemma handled_words tel g q ty (R1 D1 : R) rest tx : length tx = 256%nat ->
  calibratedEquatorial NumSF T tel (g_latitude g) (sidereal_in g) = Ok (q, ty) -> is_double (ra q) R1 -> is_double (dec q) D1 ->
  Rabs R1 <= 400 -> Rabs D1 <= 91 -> exists w1 w2, words_carry w1 w2 R1 D1 /\
    handleRequest NumSF T pf wrap_u32 qsort (Ok x) (Some j) tel g (101%Z :: rest) (len (101%Z :: rest)) tx 256 = Ok (18%Z, written (position_reply w1 w2) tx, tel).
Proof.
  intros Lt Eq M1 M2 B1 B2. apply double_means in M1, M2. rewrite sidereal_in_unfolded in Eq.
  assert (N1 : mb 9 (ra q) R1) by (split; [exact M1|simpl bpow; lra]). assert (N2 : mb 9 (dec q) D1) by (split; [exact M2|simpl bpow; lra]).
  destruct (nexstar_word R1 B1) as (w1 & E1 & V1 & K1 & _). destruct (nexstar_word D1 ltac:(lra)) as (w2 & E2 & V2 & _ & K2).
  rewrite <- (word_agrees wrap_u32 _ _ N1) in E1. rewrite <- (word_agrees wrap_u32 _ _ N2) in E2.
  pose proof (C08_position_reply NumSF T pf wrap_u32 qsort (Ok x) (Some j) tel g rest [] tx 256 ltac:(lia) ltac:(rewrite Lt; lia)) as R.
  rewrite Eq in R. cbn [bind] in R. unfold word_of in E1, E2. rewrite E1, E2 in R. cbn [bind] in R. rewrite app_nil_r in R.
  exists w1, w2. split; [split; [exact V1|]; split; [exact V2|]; split; [exact K1|exact (K2 B2)]|exact R].
Qed.
Lemma reply_written w1 w2 tx : firstn (Z.to_nat 18) (written (position_reply w1 w2) tx) = position_reply w1 w2.
Proof.
  unfold written. change (Z.to_nat 18) with (length (position_reply w1 w2)). rewrite firstn_app, firstn_all, Nat.sub_diag. cbn [firstn]. apply app_nil_r.
Qed.
Lemma reply_words d q ty (R1 D1 : R) rest : sized NumSF d ->
  calibratedEquatorial NumSF T (d_tel d) (g_latitude (d_gnss d)) (sidereal_in (d_gnss d)) = Ok (q, ty) -> is_double (ra q) R1 -> is_double (dec q) D1 ->
  Rabs R1 <= 400 -> Rabs D1 <= 91 -> exists w1 w2 d', step d (Bluetooth (101%Z :: rest)) = Ok (d', [BtOut (position_reply w1 w2)]) /\ words_carry w1 w2 R1 D1.
Proof.
  intros [Lt _] Eq M1 M2 B1 B2. destruct (handled_words _ _ _ _ _ _ rest _ Lt Eq M1 M2 B1 B2) as (w1 & w2 & W & R).
  exists w1, w2. eexists. split; [|exact W].
  cbn [M_Main.step]. unfold onBluetoothData. change (Z.of_nat (length (101%Z :: rest))) with (len (101%Z :: rest)). rewrite R. cbn [bind]. change (0 <? 18)%Z with true. cbv iota zeta.
  rewrite reply_written. reflexivity.
Qed.
(** a position request read from the TCP client in this pass: answered after the new orientation has been taken *)
Definition asked_over_tcp (d : dev NumSF) (e : env NumSF) (rest : list Z) : Prop :=
  the_task NumSF d e = Task100ms /\ d_client d <> None /\ e_up_read e = true /\ e_tcp e = Some (101%Z :: rest).
Lemma tcp_words d e rest d' o' q ty (R1 D1 : R) : sized NumSF d -> step d (Pass e) = Ok (d', o') -> asked_over_tcp d e rest ->
  calibratedEquatorial NumSF T (Tele (t_align (d_tel d)) (t_orient (d_tel d')) (t_cal (d_tel d))) (g_latitude (d_gnss d)) (sidereal_in (d_gnss d)) = Ok (q, ty) ->
  is_double (ra q) R1 -> is_double (dec q) D1 -> Rabs R1 <= 400 -> Rabs D1 <= 91 ->
  exists w1 w2, tcp_bytes o' = [position_reply w1 w2] /\ words_carry w1 w2 R1 D1.
Proof.
  intros Sz E (Et & Hcl & Hup & Hp) Eq M1 M2 B1 B2. cbn [M_Main.step] in E. rewrite loop_run, Et in E. cbn [M_Main.run_task] in E.
  set (d0 := set_timers NumSF d (snd (select (d_timers d) (e_now e)))) in *.
  assert (Sz0 : sized NumSF d0) by exact Sz.
  pose proof (task_100_frame _ _ _ _ _ _ _ _ _ _ _ _ _ E Sz0) as (p0 & tx & rx & tel & nx & oa & ob & _ & _ & Em & Fr). cbv zeta in Fr.
  destruct Fr as (Ed' & _ & _ & _ & Eo & _). subst d'. cbn [d_tel] in Eq. rewrite Eo in Eq. clear Eo.
  apply task_100_parts in E. destruct E as (p1 & d1 & o1 & d2 & o2 & Em' & E1 & E2 & _ & ->).
  rewrite Em in Em'. injection Em' as <-.
  change (Tele (t_align (d_tel d)) (Pt (f32 NumSF (fadd NumSF (filter_heading NumSF (d_heading d0) (heading_raw NumSF left_first e)) (fZ NumSF 0))) p0) (t_cal (d_tel d)))
    with (d_tel (d_after_read NumSF left_first d0 e p0)) in Eq.
  unfold tcp_part in E1. change (has_client (d_after_read NumSF left_first d0 e p0)) with (has_client d) in E1.
  assert (Hc1 : has_client d = true) by (unfold has_client; destruct (d_client d); [reflexivity|congruence]).
  rewrite Hc1, Hup in E1. cbn [andb] in E1. unfold serve_tcp in E1. rewrite Hp in E1.
  change (d_rx (d_after_read NumSF left_first d0 e p0)) with (d_rx d) in E1.
  assert (L1 : forall l, firstn 256 (101%Z :: l) = 101%Z :: firstn 255 l) by reflexivity. rewrite L1 in E1.
  set (b255 := firstn 255 rest) in *. assert (Lb : (length b255 <= 255)%nat) by (apply firstn_le_length). clearbody b255.
  replace (0 <? Z.of_nat (length (101%Z :: b255)))%Z with true in E1 by (symmetry; apply Z.ltb_lt; cbn [length]; lia).
  cbv zeta iota in E1.
  set (rxt := b255 ++ skipn (length (101%Z :: b255)) (d_rx d)) in *.
  assert (Lr : Z.of_nat (length (101%Z :: rxt)) = 256%Z).
  { unfold rxt. cbn [length]. rewrite app_length, skipn_length. cbn [length]. rewrite (proj2 Sz). lia. }
  change ((101%Z :: b255) ++ skipn (length (101%Z :: b255)) (d_rx d)) with (101%Z :: rxt) in E1.
  destruct (handled_words _ (d_gnss d) _ _ _ _ rxt _ (proj1 Sz) Eq M1 M2 B1 B2) as (w1 & w2 & W & R).
  change (len (101%Z :: rxt)) with (Z.of_nat (length (101%Z :: rxt))) in R. rewrite Lr in R.
  match type of E1 with (do _ <- ?h; _) = _ => replace h with (Ok (18%Z, written (position_reply w1 w2) (d_tx d), d_tel (d_after_read NumSF left_first d0 e p0))) in E1 by (symmetry; exact R) end.
  cbn [bind] in E1. change (0 <? 18)%Z with true in E1. cbv iota zeta in E1. rewrite reply_written in E1.
  apply Ok2 in E1. destruct E1 as [<- <-].
  exists w1, w2. split; [|exact W]. rewrite !tcp_app. cbn [tcp_bytes flat_map app]. f_equal.
  assert (Z2 : tcp_bytes o2 = []).
  { unfold mqtt_part in E2. destruct (c_mqtt cfg); [|apply Ok2 in E2; destruct E2 as [_ <-]; reflexivity].
    apply mqtt_loop_frame in E2.
    - destruct E2 as (? & _ & Po & _). apply pub_no_bytes in Po. apply Po.
    - cbn [set_nexstar set_tel set_tx d_tx]. unfold written. rewrite app_length. cbn [length]. rewrite skipn_length.
      change (length (position_reply w1 w2)) with 18%nat. rewrite (proj1 Sz). reflexivity. }
  rewrite Z2. cbn [app]. unfold conn_part. destruct (c_wifi cfg); [|reflexivity]. rewrite check_accepts. cbn [snd]. apply accepts_no_bytes.
Qed.

(** the words [w1], [w2] say the star (A, D): as a direction within [f], and up to declination 85 within [ud] degrees of declination
    and [ur] degrees of right ascension times [v] of the declination *)
Definition tell (f ud ur : R) (v : R -> R) (w1 w2 : Z) (A D : R) : Prop := word w1 /\ word w2 /\ near f (said w1 w2) (vec A D) /\
  (Rabs D <= 85 -> Rabs (IZR (signed_word w2) * unit_deg - D) <= ud /\ exists k : Z, Rabs (IZR w1 * unit_deg - (A + 360 * IZR k)) * v D <= ur).
Lemma carried_told w1 w2 (R1 D1 A D f ud ur F' Ud Ur : R) v : words_carry w1 w2 R1 D1 -> near f (vec R1 D1) (vec A D) -> 0 <= v D <= 1 ->
  (Rabs D <= 85 -> Rabs (D1 - D) <= ud /\ exists k : Z, Rabs (R1 - (A + 360 * IZR k)) * v D <= ur) ->
  f + bpow radix2 (-28) <= F' -> ud + 9 / 10 ^ 8 <= Ud -> ur + 9 / 10 ^ 8 <= Ur -> tell F' Ud Ur v w1 w2 A D.
Proof.
  intros C N V H LF Ld Lr. pose proof (near_trans _ _ _ _ _ (carried_near _ _ _ _ C) N) as M. destruct C as (W1 & W2 & [k1 K1] & K2).
  split; [exact W1|]. split; [exact W2|]. split; [eapply near_le; [|exact M]; lra|]. intros Hd. destruct (H Hd) as (Hd1 & k & Hk). clear H.
  apply Rabs_le_inv in K2, Hd1. split; [apply Rabs_le; lra|]. exists (k + k1)%Z. rewrite plus_IZR.
  set (c := v D) in *. clearbody c. pose proof (Rabs_triang (IZR w1 * unit_deg - (R1 + 360 * IZR k1)) (R1 - (A + 360 * IZR k))) as Tr.
  replace (IZR w1 * unit_deg - (R1 + 360 * IZR k1) + (R1 - (A + 360 * IZR k))) with (IZR w1 * unit_deg - (A + 360 * (IZR k + IZR k1))) in Tr by ring.
  assert (Rabs (IZR w1 * unit_deg - (A + 360 * (IZR k + IZR k1))) * c <= (Rabs (IZR w1 * unit_deg - (R1 + 360 * IZR k1)) + Rabs (R1 - (A + 360 * IZR k))) * c) by (apply Rmult_le_compat_r; lra).
  assert (Rabs (IZR w1 * unit_deg - (R1 + 360 * IZR k1)) * c <= 9 / 10 ^ 8 * 1) by (apply Rmult_le_compat; try lra; apply Rabs_pos). lra.
Qed.

(** after one star: what the words carry, for every telescope with the alignment of the device and the tube back at the star *)
Lemma one_star_told : permuting NumSF qsort -> c_libm T -> forall evs d o, history boot evs = Ok (d, o) ->
  exists cs, commands boot evs cs /\ forall tel, t_align tel = t_align (d_tel d) -> (at_most 63 cs -> forall p r dc g, first_named_in cs p r dc g -> synchronised cs [] = [p] -> t_orient tel = p ->
    forall PX PY R0 D : R, is_point p PX PY -> is_double r R0 -> is_double dc D -> sane_gnss g ->
    Rabs PX <= 1000 -> Rabs PY <= 1000 -> Rabs R0 <= 1000 -> Rabs D <= 4000 ->
    exists S, is_double (sidereal_in g) S /\ 
    forall g', sane_gnss g' -> g_latitude g' = g_latitude g -> exists (S' : R) q ty (R1 D1 : R), is_double (sidereal_in g') S' /\
    calibratedEquatorial NumSF T tel (g_latitude g') (sidereal_in g') = Ok (q, ty) /\ is_double (ra q) R1 /\ is_double (dec q) D1 /\ Rabs R1 <= 400 /\ Rabs D1 <= 91 /\
    forall w1 w2, words_carry w1 w2 R1 D1 -> tell (bpow radix2 (-27)) (2 / 10 ^ 7) (16 / 10 ^ 7) (fun _ => 1) w1 w2 (R0 + (S' - S)) D).
Proof.
  intros Hq HT evs d o Hh. destruct (one_star_drifts_at T pf wrap_u32 lc qsort x j ftext left_first cfg Hq HT evs d o Hh) as (cs & Hc & K).
  exists cs. split; [exact Hc|]. intros tel Hat Hm p r dc g Hf Hs Ho PX PY R0 D Mp Mr Md (Hci & LA & LO & Mla & Mlo & Bla & Blo) Bp1 Bp2 Br Bd.
  destruct (K tel Hat Hm p r dc g Hf Hs Ho PX PY R0 D LA LO Mp Mr Md Mla Mlo Hci Bp1 Bp2 Br Bd Bla Blo) as (S & MS & BS & Q). clear K.
  exists S. split; [exact MS|]. intros g' Hg' Elat.
  destruct (Properties_FiniteMessages.sidereal_double g' Hg') as (S' & MS' & BS').
  destruct (Q _ S' MS' ltac:(lra)) as (q & R1 & D1 & Eq & M1 & M2 & Hn & B1 & B2 & Hd). exists S', q, POINT, R1, D1.
  split; [exact MS'|]. split; [rewrite Elat; exact Eq|]. split; [exact M1|]. split; [exact M2|]. simpl bpow in B2.
  split; [apply Rabs_le; lra|]. split; [lra|]. intros w1 w2 C.
  apply (carried_told _ _ _ _ _ _ (bpow radix2 (-32)) (6 / 10 ^ 8) (15 / 10 ^ 7) _ _ _ _ C Hn); [lra| |simpl bpow; lra|lra|lra].
  intros H85. destruct (Hd H85) as (E1 & k & E2). split; [exact E1|]. exists k. rewrite Rmult_1_r. exact E2.
Qed.
(** ** C166: after one star *)
Theorem C166_every_star_is_told : permuting NumSF qsort -> c_libm T -> forall evs d o, history boot evs = Ok (d, o) ->
  exists cs, commands boot evs cs /\ (at_most 63 cs -> forall p r dc g, first_named_in cs p r dc g -> synchronised cs [] = [p] -> t_orient (d_tel d) = p ->
    forall PX PY R0 D : R, is_point p PX PY -> is_double r R0 -> is_double dc D -> sane_gnss g ->
    Rabs PX <= 1000 -> Rabs PY <= 1000 -> Rabs R0 <= 1000 -> Rabs D <= 4000 ->
    exists S, is_double (sidereal_in g) S /\
    (* a position message sent in the next pass *)
    (forall ev d' o' b, step d (Pass ev) = Ok (d', o') -> In (TcpOut b) o' -> length b = 24%nat -> sane_gnss (d_gnss d') -> g_latitude (d_gnss d') = g_latitude g ->
      exists S' w1 w2, is_double (sidereal_in (d_gnss d')) S' /\ b = current_position 0 w1 w2 /\ tell (bpow radix2 (-27)) (2 / 10 ^ 7) (16 / 10 ^ 7) (fun _ => 1) w1 w2 (R0 + (S' - S)) D) /\
    (* the answer to a position request *)
    (sane_gnss (d_gnss d) -> g_latitude (d_gnss d) = g_latitude g ->
      forall rest, exists S' w1 w2 d', is_double (sidereal_in (d_gnss d)) S' /\ step d (Bluetooth (101%Z :: rest)) = Ok (d', [BtOut (position_reply w1 w2)]) /\
        tell (bpow radix2 (-27)) (2 / 10 ^ 7) (16 / 10 ^ 7) (fun _ => 1) w1 w2 (R0 + (S' - S)) D)).
Proof.
  intros Hq HT evs d o Hh. destruct (one_star_told Hq HT evs d o Hh) as (cs & Hc & K).
  exists cs. split; [exact Hc|]. intros Hm p r dc g Hf Hs Ho PX PY R0 D Mp Mr Md Hg Bp1 Bp2 Br Bd.
  destruct (K _ eq_refl Hm p r dc g Hf Hs Ho PX PY R0 D Mp Mr Md Hg Bp1 Bp2 Br Bd) as (S & MS & G). clear K.
  assert (Sz : sized NumSF d) by (eapply history_summary; [exact Hh|split; reflexivity]).
  exists S. split; [exact MS|]. split.
  - intros ev d' o' b E Hb Lb Hg' Elat. destruct (G _ Hg' Elat) as (S' & q & ty & R1 & D1 & MS' & Eq & M1 & M2 & B1 & B2 & C).
    destruct (message_words _ _ _ _ _ _ _ _ _ Sz E Hb Lb Eq M1 M2 B1 B2) as (w1 & w2 & Eb & W). exists S', w1, w2. split; [exact MS'|]. split; [exact Eb|]. exact (C _ _ W).
  - intros Hg' Elat rest. destruct (G _ Hg' Elat) as (S' & q & ty & R1 & D1 & MS' & Eq & M1 & M2 & B1 & B2 & C).
    destruct (reply_words d q ty R1 D1 rest Sz Eq M1 M2 B1 B2) as (w1 & w2 & d' & Eb & W). exists S', w1, w2, d'. split; [exact MS'|]. split; [exact Eb|]. exact (C _ _ W).
Qed.

(** after more stars, likewise *)
Lemma more_stars_told : permuting NumSF qsort -> c_libm T -> forall evs d o, history boot evs = Ok (d, o) ->
  exists cs, commands boot evs cs /\ forall tel, t_align tel = t_align (d_tel d) -> (at_most 63 cs -> sensible_doubles cs -> forall X H e : R, is_double x X -> 1 <= H -> Rabs X <= H -> e <= / 1100 ->
    resolves_doubles H e cs (t_align tel) ->
    forall p r dc g, first_named_in cs p r dc g -> t_orient tel = p ->
    forall R0 D : R, is_double r R0 -> is_double dc D ->
    exists S, is_double (sidereal_in g) S /\
    forall g', sane_gnss g' -> g_latitude g' = g_latitude g -> exists (S' : R) q ty (R1 D1 : R), is_double (sidereal_in g') S' /\
    calibratedEquatorial NumSF T tel (g_latitude g') (sidereal_in g') = Ok (q, ty) /\ is_double (ra q) R1 /\ is_double (dec q) D1 /\ Rabs R1 <= 400 /\ Rabs D1 <= 91 /\
    forall w1 w2, words_carry w1 w2 R1 D1 -> tell (4 * e + bpow radix2 (-27)) (3 / 2 * e + 1 / 10 ^ 7) (3 / 2 * e + 1 / 10 ^ 7) (fun D => cos (radians D)) w1 w2 (R0 + (S' - S)) D).
Proof.
  intros Hq HT evs d o Hh. destruct (stars_drift_at T pf wrap_u32 lc qsort x j ftext left_first cfg Hq HT evs d o Hh) as (cs & Hc & K).
  exists cs. split; [exact Hc|]. intros tel Hat Hm Hs X H e Mx H1 HX He Hres p r dc g Hf Ho R0 D Mr Md.
  destruct (K tel Hat Hm Hs X H e Mx H1 HX He Hres p r dc g Hf Ho R0 D Mr Md) as (S & MS & BS & Q). clear K.
  exists S. split; [exact MS|]. intros g' Hg' Elat.
  destruct (Properties_FiniteMessages.sidereal_double g' Hg') as (S' & MS' & BS').
  destruct (Q _ S' MS' ltac:(lra)) as (q & ty & R1 & D1 & Eq & M1 & M2 & Hn & B1 & B2 & Hd). exists S', q, ty, R1, D1.
  split; [exact MS'|]. split; [rewrite Elat; exact Eq|]. split; [exact M1|]. split; [exact M2|]. simpl bpow in B2.
  split; [apply Rabs_le; lra|]. split; [lra|]. intros w1 w2 C.
  destruct (Rle_dec (Rabs D) 85) as [H85|H85].
  - assert (C0 : / 25 <= cos (radians D)) by (apply cos_85; lra). pose proof (cos_1 (radians D)) as C1. apply Rabs_le_inv in C1.
    apply (carried_told _ _ _ _ _ _ (4 * e + bpow radix2 (-32)) (3 / 2 * e + 1 / 10 ^ 8) (3 / 2 * e + 1 / 10 ^ 8) _ _ _ _ C Hn); [lra|exact Hd|simpl bpow; lra|lra|lra].
  - destruct C as (W1 & W2 & C2). split; [exact W1|]. split; [exact W2|]. split; [|intros H86; contradiction].
    eapply near_le; [|exact (near_trans _ _ _ _ _ (carried_near _ _ _ _ (conj W1 (conj W2 C2))) Hn)]. simpl bpow. lra.
Qed.
(** ** C167: after two stars, or three with a triangle *)
Theorem C167_every_star_is_told : permuting NumSF qsort -> c_libm T -> forall evs d o, history boot evs = Ok (d, o) ->
  exists cs, commands boot evs cs /\ (at_most 63 cs -> sensible_doubles cs -> forall X H e : R, is_double x X -> 1 <= H -> Rabs X <= H -> e <= / 1100 ->
    resolves_doubles H e cs (t_align (d_tel d)) ->
    forall p r dc g, first_named_in cs p r dc g -> t_orient (d_tel d) = p ->
    forall R0 D : R, is_double r R0 -> is_double dc D ->
    exists S, is_double (sidereal_in g) S /\
    (forall ev d' o' b, step d (Pass ev) = Ok (d', o') -> In (TcpOut b) o' -> length b = 24%nat -> sane_gnss (d_gnss d') -> g_latitude (d_gnss d') = g_latitude g ->
      exists S' w1 w2, is_double (sidereal_in (d_gnss d')) S' /\ b = current_position 0 w1 w2 /\
        tell (4 * e + bpow radix2 (-27)) (3 / 2 * e + 1 / 10 ^ 7) (3 / 2 * e + 1 / 10 ^ 7) (fun D => cos (radians D)) w1 w2 (R0 + (S' - S)) D) /\
    (sane_gnss (d_gnss d) -> g_latitude (d_gnss d) = g_latitude g ->
      forall rest, exists S' w1 w2 d', is_double (sidereal_in (d_gnss d)) S' /\ step d (Bluetooth (101%Z :: rest)) = Ok (d', [BtOut (position_reply w1 w2)]) /\
        tell (4 * e + bpow radix2 (-27)) (3 / 2 * e + 1 / 10 ^ 7) (3 / 2 * e + 1 / 10 ^ 7) (fun D => cos (radians D)) w1 w2 (R0 + (S' - S)) D)).
Proof.
  intros Hq HT evs d o Hh. destruct (more_stars_told Hq HT evs d o Hh) as (cs & Hc & K).
  exists cs. split; [exact Hc|]. intros Hm Hs X H e Mx H1 HX He Hres p r dc g Hf Ho R0 D Mr Md.
  destruct (K _ eq_refl Hm Hs X H e Mx H1 HX He Hres p r dc g Hf Ho R0 D Mr Md) as (S & MS & G). clear K.
  assert (Sz : sized NumSF d) by (eapply history_summary; [exact Hh|split; reflexivity]).
  exists S. split; [exact MS|]. split.
  - intros ev d' o' b E Hb Lb Hg' Elat. destruct (G _ Hg' Elat) as (S' & q & ty & R1 & D1 & MS' & Eq & M1 & M2 & B1 & B2 & C).
    destruct (message_words _ _ _ _ _ _ _ _ _ Sz E Hb Lb Eq M1 M2 B1 B2) as (w1 & w2 & Eb & W). exists S', w1, w2. split; [exact MS'|]. split; [exact Eb|]. exact (C _ _ W).
  - intros Hg' Elat rest. destruct (G _ Hg' Elat) as (S' & q & ty & R1 & D1 & MS' & Eq & M1 & M2 & B1 & B2 & C).
    destruct (reply_words d q ty R1 D1 rest Sz Eq M1 M2 B1 B2) as (w1 & w2 & d' & Eb & W). exists S', w1, w2, d'. split; [exact MS'|]. split; [exact Eb|]. exact (C _ _ W).
Qed.

(** ** C169: the NexStar client connected over TCP is told the star too *)
Theorem C169_one_star_over_tcp : permuting NumSF qsort -> c_libm T -> forall evs d o, history boot evs = Ok (d, o) ->
  exists cs, commands boot evs cs /\ (at_most 63 cs -> forall p r dc g, first_named_in cs p r dc g -> synchronised cs [] = [p] ->
    forall PX PY R0 D : R, is_point p PX PY -> is_double r R0 -> is_double dc D -> sane_gnss g ->
    Rabs PX <= 1000 -> Rabs PY <= 1000 -> Rabs R0 <= 1000 -> Rabs D <= 4000 -> sane_gnss (d_gnss d) -> g_latitude (d_gnss d) = g_latitude g ->
    exists S S' : R, is_double (sidereal_in g) S /\ is_double (sidereal_in (d_gnss d)) S' /\
    forall e rest d' o', step d (Pass e) = Ok (d', o') -> asked_over_tcp d e rest -> t_orient (d_tel d') = p ->
      exists w1 w2, tcp_bytes o' = [position_reply w1 w2] /\ tell (bpow radix2 (-27)) (2 / 10 ^ 7) (16 / 10 ^ 7) (fun _ => 1) w1 w2 (R0 + (S' - S)) D).
Proof.
  intros Hq HT evs d o Hh. destruct (one_star_told Hq HT evs d o Hh) as (cs & Hc & K).
  exists cs. split; [exact Hc|]. intros Hm p r dc g Hf Hs PX PY R0 D Mp Mr Md Hg Bp1 Bp2 Br Bd Hg' Elat.
  assert (Sz : sized NumSF d) by (eapply history_summary; [exact Hh|split; reflexivity]).
  destruct (K (Tele (t_align (d_tel d)) p (t_cal (d_tel d))) eq_refl Hm p r dc g Hf Hs eq_refl PX PY R0 D Mp Mr Md Hg Bp1 Bp2 Br Bd) as (S & MS & G). clear K.
  destruct (G _ Hg' Elat) as (S' & q & ty & R1 & D1 & MS' & Eq & M1 & M2 & B1 & B2 & C).
  exists S, S'. split; [exact MS|]. split; [exact MS'|]. intros e rest d' o' E Ha Ho. rewrite <- Ho in Eq.
  destruct (tcp_words _ _ _ _ _ _ _ _ _ Sz E Ha Eq M1 M2 B1 B2) as (w1 & w2 & Eb & W). exists w1, w2. split; [exact Eb|]. exact (C _ _ W).
Qed.
Theorem C169_more_stars_over_tcp : permuting NumSF qsort -> c_libm T -> forall evs d o, history boot evs = Ok (d, o) ->
  exists cs, commands boot evs cs /\ (at_most 63 cs -> sensible_doubles cs -> forall X H e : R, is_double x X -> 1 <= H -> Rabs X <= H -> e <= / 1100 ->
    resolves_doubles H e cs (t_align (d_tel d)) ->
    forall p r dc g, first_named_in cs p r dc g -> forall R0 D : R, is_double r R0 -> is_double dc D -> sane_gnss (d_gnss d) -> g_latitude (d_gnss d) = g_latitude g ->
    exists S S' : R, is_double (sidereal_in g) S /\ is_double (sidereal_in (d_gnss d)) S' /\
    forall ev rest d' o', step d (Pass ev) = Ok (d', o') -> asked_over_tcp d ev rest -> t_orient (d_tel d') = p ->
      exists w1 w2, tcp_bytes o' = [position_reply w1 w2] /\
        tell (4 * e + bpow radix2 (-27)) (3 / 2 * e + 1 / 10 ^ 7) (3 / 2 * e + 1 / 10 ^ 7) (fun D => cos (radians D)) w1 w2 (R0 + (S' - S)) D).
Proof.
  intros Hq HT evs d o Hh. destruct (more_stars_told Hq HT evs d o Hh) as (cs & Hc & K).
  exists cs. split; [exact Hc|]. intros Hm Hs X H e Mx H1 HX He Hres p r dc g Hf R0 D Mr Md Hg' Elat.
  assert (Sz : sized NumSF d) by (eapply history_summary; [exact Hh|split; reflexivity]).
  destruct (K (Tele (t_align (d_tel d)) p (t_cal (d_tel d))) eq_refl Hm Hs X H e Mx H1 HX He Hres p r dc g Hf eq_refl R0 D Mr Md) as (S & MS & G). clear K.
  destruct (G _ Hg' Elat) as (S' & q & ty & R1 & D1 & MS' & Eq & M1 & M2 & B1 & B2 & C).
  exists S, S'. split; [exact MS|]. split; [exact MS'|]. intros ev rest d' o' E Ha Ho. rewrite <- Ho in Eq.
  destruct (tcp_words _ _ _ _ _ _ _ _ _ Sz E Ha Eq M1 M2 B1 B2) as (w1 & w2 & Eb & W). exists w1, w2. split; [exact Eb|]. exact (C _ _ W).
Qed.

(** ** C168: a star named by one request is what the next request is told *)
Lemma spoken_angle w : word w -> is_double (fdiv NumSF (fmul NumSF (fZ NumSF w) (fZ NumSF 360)) (fZ NumSF 4294967296)) (IZR w * unit_deg).
Proof.
  intros Hw. unfold word in Hw. apply double_means.
  assert (K : IZR w * unit_deg = fdiv NumB (fmul NumB (fZ NumB w) (fZ NumB 360)) (fZ NumB 4294967296)).
  { cbn [fdiv fmul fZ NumB]. rewrite (b64_of_int w), (b64_of_int 360), (b64_of_int 4294967296) by lia. rewrite <- mult_IZR, b64_int by lia.
    replace (IZR (w * 360) / 4294967296) with (IZR (w * 360) * bpow radix2 (-32)) by (simpl bpow; lra). rewrite b64_exact_scaled by lia. rewrite mult_IZR. simpl bpow. unfold unit_deg. lra. }
  rewrite K. refine (proj1 (_ : mb 41 _ _)). apply mb_divZ; [lia| |lia]. apply (mb_fmul 32 9); [lia| |]; apply mb_int; lia.
Qed.
Lemma spoken_declination w : word w ->
  let a := fdiv NumSF (fmul NumSF (fZ NumSF w) (fZ NumSF 360)) (fZ NumSF 4294967296) in
  is_double (if flt NumSF (fZ NumSF 270) a then fsub NumSF a (fZ NumSF 360) else a) (signed_angle w).
Proof.
  intros Hw a. pose proof (spoken_angle w Hw) as M. fold a in M. clearbody a. apply double_means. apply double_means in M.
  assert (E : flt NumSF (fZ NumSF 270) a = Rlt_bool 270 (IZR w * unit_deg)) by (apply (means_lt (fZ NumSF 270) a 270); [apply (means_int 270); lia|exact M]). rewrite E. clear E.
  unfold signed_angle. cbv zeta. replace (IZR w * 360 / 4294967296) with (IZR w * unit_deg) by (unfold unit_deg; lra).
  assert (B : 0 <= IZR w * unit_deg <= 360). { unfold word in Hw. destruct Hw as [W0 W1]. apply IZR_le in W0. apply IZR_lt in W1. unfold unit_deg. lra. }
  destruct (Rlt_bool 270 (IZR w * unit_deg)) eqn:E; [|exact M].
  assert (K : IZR w * unit_deg - 360 = fsub NumB (IZR w * unit_deg) (fZ NumB 360)).
  { cbn [fsub fZ NumB]. rewrite (b64_of_int 360) by lia. unfold word in Hw.
    replace (IZR w * unit_deg - 360) with (IZR (45 * (w - 4294967296)) * bpow radix2 (-29)) by (rewrite mult_IZR, minus_IZR; simpl bpow; unfold unit_deg; lra).
    symmetry. apply b64_exact_scaled; lia. }
  rewrite K. refine (proj1 (_ : mb 10 _ _)). apply (mb_fsub 9); [lia| |apply mb_int; lia]. split; [exact M|]. simpl bpow. apply Rabs_le. lra.
Qed.

(** However ill-formed requests are read, no star has been synchronised since the last reset. *)
Definition no_star_yet (evs : list (event NumSF)) : Prop := forall cs, commands boot evs cs -> at_most 63 cs /\ synchronised cs [] = [].
Lemma commands_split evs ev cs d : commands d (evs ++ [ev]) cs -> exists d' d'' o o' cs1 c, history d evs = Ok (d', o) /\ commands d evs cs1 /\ step d' ev = Ok (d'', o') /\
  commands_of NumSF cfg d' ev d'' c /\ cs = cs1 ++ c.
Proof.
  revert d cs. induction evs as [|e evs IH]; intros d cs H; cbn [app] in H.
  - inversion H as [|? ? d' o ? c cs' Es Hc Hcs]; subst. inversion Hcs; subst. exists d, d', [], o, [], c. split; [reflexivity|]. split; [constructor|]. split; [exact Es|]. split; [exact Hc|]. apply app_nil_r.
  - inversion H as [|? ? d' o ? c cs' Es Hc Hcs]; subst. destruct (IH _ _ Hcs) as (d1 & d2 & o1 & o2 & cs1 & c2 & E1 & C1 & E2 & C2 & ->).
    exists d1, d2, (o ++ o1), o2, (c ++ cs1), c2. split; [cbn [M_Main.history]; rewrite Es; cbn [bind]; rewrite E1; reflexivity|]. split; [econstructor; eassumption|]. split; [exact E2|]. split; [exact C2|]. apply app_assoc.
Qed.
Lemma Forall2_len {A B} (P : A -> B -> Prop) l l' : Forall2 P l l' -> length l = length l'.
Proof. induction 1; cbn; congruence. Qed.
Theorem C168_named_star_is_answered : permuting NumSF qsort -> c_libm T -> forall evs d o, history boot evs = Ok (d, o) -> no_star_yet evs ->
  forall PX PY : R, is_point (t_orient (d_tel d)) PX PY -> Rabs PX <= 1000 -> Rabs PY <= 1000 -> sane_gnss (d_gnss d) ->
  forall w1 w2 f1 f2 sep rest, word w1 -> word w2 -> spells w1 f1 -> spells w2 f2 ->
  exists d1, step d (Bluetooth (sync_request f1 sep f2 rest)) = Ok (d1, [BtOut [35%Z]]) /\
  forall rest', exists v1 v2 d2, step d1 (Bluetooth (101%Z :: rest')) = Ok (d2, [BtOut (position_reply v1 v2)]) /\
    tell (bpow radix2 (-27)) (2 / 10 ^ 7) (16 / 10 ^ 7) (fun _ => 1) v1 v2 (IZR w1 * unit_deg) (signed_angle w2).
Proof.
  intros Hq HT evs d o Hh Hno PX PY Mp Bp1 Bp2 Hg w1 w2 f1 f2 sep rest Hw1 Hw2 Hz1 Hz2.
  assert (Sz : sized NumSF d) by (eapply history_summary; [exact Hh|split; reflexivity]).
  destruct (C106_points_are_the_synchronised_ones NumSF T pf wrap_u32 lc qsort x j ftext left_first cfg Hq evs d o Hh) as (cs0 & Hc0 & K0). destruct (Hno _ Hc0) as [Hm0 Hs0]. destruct (K0 Hm0) as [_ Hn]. rewrite Hs0 in Hn. cbn in Hn. clear K0 Hm0 Hs0 Hc0 cs0.
  destruct (C105_alignment_follows_commands NumSF T pf wrap_u32 lc qsort x j ftext left_first cfg evs d o Hh) as (cs0 & Hc0 & Hr).
  assert (HW : WF NumSF (t_align (d_tel d))) by (eapply run_WF; [exact Hq|apply WF_init|exact Hr]). clear cs0 Hc0 Hr.
  pose proof (C12_sync_fields NumSF T pf wrap_u32 qsort (Ok x) (Some j) (d_tel d) (d_gnss d) w1 w2 f1 f2 sep rest [] (d_tx d) 256 Hw1 Hw2 Hz1 Hz2 ltac:(lia) ltac:(destruct Sz as [Lt _]; rewrite Lt; lia)) as H.
  cbv zeta in H. rewrite app_nil_r in H.
  match type of H with _ = (do _ <- addReferencePoint _ _ qsort _ _ ?t ?a ?b ?c ?l; _) =>
    destruct (P_Device.add_point NumSF T qsort x j t a b c l Hq HW ltac:(lia)) as (t' & Et & _ & Eo & _ & Nt) end.
  rewrite Et in H. cbn [bind] in H. clear Et HW Hn.
  assert (E0 : exists d1, step d (Bluetooth (sync_request f1 sep f2 rest)) = Ok (d1, [BtOut [35%Z]]) /\ t_orient (d_tel d1) = t_orient (d_tel d) /\ d_gnss d1 = d_gnss d).
  { eexists. split; [|split].
    - cbn [M_Main.step]. unfold onBluetoothData. change (Z.of_nat (length (sync_request f1 sep f2 rest))) with (len (sync_request f1 sep f2 rest)). rewrite H. cbn [bind]. change (0 <? 1)%Z with true. cbv iota zeta. reflexivity.
    - exact Eo.
    - reflexivity. }
  clear H Eo Nt t'. destruct E0 as (d1 & E & Eo & Eg). exists d1. split; [exact E|].
  assert (Hh1 : exists o1, history boot (evs ++ [Bluetooth (sync_request f1 sep f2 rest)]) = Ok (d1, o1)).
  { eexists. rewrite history_app, Hh. cbn [bind M_Main.history]. rewrite E. cbn [bind]. reflexivity. }
  destruct Hh1 as [o1 Hh1].
  destruct (C166_every_star_is_told Hq HT _ _ _ Hh1) as (cs & Hc & K).
  destruct (commands_split _ _ _ _ Hc) as (d' & d'' & oa & ob & cs1 & c & E1 & C1 & E2 & C2 & ->).
  rewrite Hh in E1. apply Ok2 in E1. destruct E1 as [<- _]. rewrite E in E2. apply Ok2 in E2. destruct E2 as [<- _].
  destruct C2 as [(_ & r & dc & Hsay & ->)|(Hn & _)].
  2: { contradiction Hn. exists (f1 ++ sep :: f2 ++ rest). split; [reflexivity|]. apply Forall2_len in Hz1, Hz2. cbn in Hz1, Hz2. rewrite app_length. cbn [length]. rewrite app_length, <- Hz1, <- Hz2. lia. }
  destruct (Hsay _ _ f1 f2 sep rest Hw1 Hw2 Hz1 Hz2 eq_refl) as [Hrr Hd]. clear Hsay. cbv zeta in Hrr, Hd. destruct (Hno _ C1) as [Hm1 Hs1].
  pose proof (spoken_angle w1 Hw1) as Mr. rewrite <- Hrr in Mr. assert (Md : is_double dc (signed_angle w2)) by (rewrite Hd; exact (spoken_declination w2 Hw2)). clear Hrr Hd.
  assert (B1 : 0 <= IZR w1 * unit_deg <= 360). { unfold word in Hw1. destruct Hw1 as [W0 W1]. apply IZR_le in W0. apply IZR_lt in W1. unfold unit_deg. lra. }
  assert (B2 : Rabs (signed_angle w2) <= 4000).
  { unfold word in Hw2. destruct Hw2 as [W0 W1]. apply IZR_le in W0. apply IZR_lt in W1. unfold signed_angle. cbv zeta. destruct (Rlt_bool 270 _); apply Rabs_le; lra. }
  assert (Hs : synchronised (cs1 ++ [Sync (t_orient (d_tel d)) r dc (d_gnss d)]) [] = [t_orient (d_tel d)]).
  { enough (G : forall l, synchronised cs1 l = [] -> synchronised (cs1 ++ [Sync (t_orient (d_tel d)) r dc (d_gnss d)]) l = [t_orient (d_tel d)]) by (apply G, Hs1).
    clear. induction cs1 as [|[p' r' d' g'|] cs1 IH]; intros l H; cbn [app synchronised] in *; [rewrite H; reflexivity|apply IH, H|apply IH, H]. }
  assert (Hm : at_most 63 (cs1 ++ [Sync (t_orient (d_tel d)) r dc (d_gnss d)])).
  { intros k. rewrite firstn_app. destruct (Nat.le_gt_cases k (length cs1)) as [Lk|Lk].
    - replace (k - length cs1)%nat with O by lia. rewrite app_nil_r. apply Hm1.
    - rewrite firstn_all2 by lia. destruct (k - length cs1)%nat as [|n] eqn:En; [lia|]. cbn [firstn]. rewrite firstn_nil, Hs. cbn. lia. }
  destruct (K Hm (t_orient (d_tel d)) r dc (d_gnss d)) with (PX := PX) (PY := PY) (R0 := IZR w1 * unit_deg) (D := signed_angle w2) as (S & MS & _ & Q); try assumption.
  - exists cs1, []. split; [reflexivity|]. split; [intros []|]. rewrite Hs1. reflexivity.
  - apply Rabs_le. lra.
  - intros rest'. rewrite Eg in Q. destruct (Q Hg eq_refl rest') as (S' & v1 & v2 & d2 & MS' & Er & Tl). exists v1, v2, d2. split; [exact Er|].
    rewrite (Properties_FiniteMessages.double_unique _ _ _ MS' MS) in Tl. replace (IZR w1 * unit_deg + (S - S)) with (IZR w1 * unit_deg) in Tl by lra. exact Tl.
Qed.
(** Non-vacuity: a device just switched on is told that it points at the southern star (0, -45) and then answers with it. *)
Definition hex_m45 : list Z := 69%Z :: repeat 48%Z 7.
Example C168_nonvacuous : permuting NumSF qsort -> c_libm T ->
  exists d1, step boot (Bluetooth (sync_request (repeat 48%Z 8) 44 hex_m45 [])) = Ok (d1, [BtOut [35%Z]]) /\
  forall rest', exists v1 v2 d2, step d1 (Bluetooth (101%Z :: rest')) = Ok (d2, [BtOut (position_reply v1 v2)]) /\
    Rabs (IZR (signed_word v2) * unit_deg - -45) <= 2 / 10 ^ 7 /\ exists k : Z, Rabs (IZR v1 * unit_deg - 360 * IZR k) <= 16 / 10 ^ 7.
Proof.
  intros Hq HT. assert (Z0 : Rabs 0 <= 1000) by (rewrite Rabs_R0; lra).
  assert (H0 : is_point (t_orient (d_tel boot)) 0 0) by (split; apply (int_double 0); lia).
  assert (Z1 : spells 0 (repeat 48%Z 8)) by (unfold spells; cbn [repeat]; repeat constructor; left; split; (reflexivity || (cbn; lia))).
  assert (Z2 : spells 0xE0000000 hex_m45).
  { unfold spells, hex_m45. cbn [repeat]. constructor; [right; left; split; [cbn; lia|reflexivity]|]. repeat constructor; left; split; (reflexivity || (cbn; lia)). }
  assert (Hno : no_star_yet []). { intros cs Hc. inversion Hc; subst. split; [intros [|k]; cbn; lia|reflexivity]. }
  destruct (C168_named_star_is_answered Hq HT [] boot [] eq_refl Hno 0 0 H0 Z0 Z0 boot_sane 0 0xE0000000 _ _ 44 [] ltac:(red; lia) ltac:(red; lia) Z1 Z2) as (d1 & E & K).
  exists d1. split; [exact E|]. intros rest'. destruct (K rest') as (v1 & v2 & d2 & E2 & _ & _ & _ & C). exists v1, v2, d2. split; [exact E2|].
  assert (Es : signed_angle 0xE0000000 = -45). { unfold signed_angle. cbv zeta. rewrite Rlt_bool_true by lra. lra. }
  rewrite Es in C. destruct (C ltac:(apply Rabs_le; lra)) as [C1 [k C2]]. split; [exact C1|]. exists k. rewrite Rmult_1_r in C2. replace (IZR v1 * unit_deg - 360 * IZR k) with (IZR v1 * unit_deg - (0 * unit_deg + 360 * IZR k)) by lra. exact C2.
Qed.
End Device.
Print Assumptions C166_every_star_is_told.
Print Assumptions C167_every_star_is_told.
Print Assumptions C168_named_star_is_answered.
Print Assumptions C169_one_star_over_tcp.
Print Assumptions C169_more_stars_over_tcp.

(** Non-vacuity of C169: a client connects, a star is synchronised over Bluetooth, and a tenth of a second later the client asks
    for the position.  Shown: that it asks in the 100 ms task with a client connected, that the tube points where it did for the
    star, and how long the answer is (trigonometric functions constant). *)
From Verif Require Import P_AlignWitness Properties_Publish.
Definition here (t : Z) (tcp pending : list Z) : event NumSF := Pass (env_at NumSF t (Some tcp) [] pending []).
Definition before_asking : list (event NumSF) := [here 1000000 [] []; here 1000001 [] []; here 1000002 [] [7%Z]; here 1000003 [] [];
  Bluetooth (sync_request (repeat 48%Z 8) 44 (repeat 48%Z 8) []); here 1100010 [] []; here 1100011 [] []].
Definition asking : env NumSF := env_at NumSF 1100012 (Some [101%Z]) [] [] [].
Notation cfg0 := (Config true true false false).
Definition asked := 
  match M_Main.history NumSF T0 esp32 wrap_u32 lcSF (insertion_sort NumSF) (Ok (P_AlignWitness.fz 0)) (Some (P_AlignWitness.fz 0, P_AlignWitness.fz 0)) ft0 true cfg0 (M_Main.boot NumSF) before_asking with
  | Ok (d, _) =>
      match M_Main.step NumSF T0 esp32 wrap_u32 lcSF (insertion_sort NumSF) (Ok (P_AlignWitness.fz 0)) (Some (P_AlignWitness.fz 0, P_AlignWitness.fz 0)) ft0 true cfg0 d (Pass asking) with
      | Ok (d', o') => Some (the_task NumSF d asking, d_client d, (px (t_orient (d_tel d)), py (t_orient (d_tel d))), (px (t_orient (d_tel d')), py (t_orient (d_tel d'))), map (@length Z) (tcp_bytes o'))
      | UB _ => None
      end
  | UB _ => None
  end.
Example C169_nonvacuous : asked = Some (Task100ms, Some 7%Z, (S754_finite false 6333186975989760 (-45), S754_zero false), (S754_finite false 6333186975989760 (-45), S754_zero false), [18%nat]).
Proof. vm_compute. reflexivity. Qed.
