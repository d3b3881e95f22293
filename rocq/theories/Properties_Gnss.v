(** C17-C25, C70-C74: NMEA parsing. *)
From Verif Require Import Base Num M_Libc M_Helper M_Gnss S_Gnss P_Libc P_Gnss P_Gnss2 P_Gnss3 P_Gnss4 P_Round.
From Coq Require Import Reals Lra Floats.SpecFloat Strings.String.
From Flocq Require Import Core.
Open Scope Z_scope.
Notation length := List.length.

(** [char_plain pf l]: plain char is unsigned (ESP32), or all bytes are ASCII. *)

(** ** C17 *)
(** junk before '$' is allowed; [hex2 cs more v]: the two characters [cs] are hex digits of value [v]. *)
Theorem C17_accepts_exactly : forall pf pre payload cs more v,
  ~ In 36 pre -> ~ In 42 pre -> ~ In 42 payload -> char_plain pf payload -> hex2 cs more v ->
  Z.of_nat (length (pre ++ sentence payload cs more)) < 2 ^ 32 ->
  verifyChecksum pf (pre ++ sentence payload cs more) = Ok (v =? xor_all payload).
Proof. exact verify_sentence. Qed.
Print Assumptions C17_accepts_exactly.
(** whatever follows '*' *)
Theorem C17_single_byte_error_rejected : forall pf pre a x y b tail,
  ~ In 36 pre -> ~ In 42 pre -> ~ In 42 (a ++ x :: b) -> y <> 42 -> x <> y -> is_byte x -> is_byte y ->
  Z.of_nat (length (pre ++ 36 :: (a ++ x :: b) ++ 42 :: tail)) < 2 ^ 32 ->
  verifyChecksum pf (pre ++ 36 :: (a ++ x :: b) ++ 42 :: tail) = Ok true ->
  verifyChecksum pf (pre ++ 36 :: (a ++ y :: b) ++ 42 :: tail) = Ok false.
Proof. exact verify_change. Qed.
Print Assumptions C17_single_byte_error_rejected.
(** fromNMEA trusts only sentences with a matching checksum, and ignores the others entirely *)
Theorem C17_only_verified_sentences_used : forall N pf oor lc g s,
  (forall g', fromNMEA N pf oor lc g s = Ok (true, g') -> verifyChecksum pf s = Ok true) /\
  (verifyChecksum pf s = Ok false -> fromNMEA N pf oor lc g s = Ok (false, g)).
Proof. intros. split; [intros g'; apply nmea_true|apply nmea_bad]. Qed.
Print Assumptions C17_only_verified_sentences_used.
Example C17_nonvacuous : verifyChecksum esp32 (bytes_of "$GPRMC,081836,A*0E") = Ok true /\ verifyChecksum pc64 (bytes_of "$GPRMC,081836,A*0E") = Ok true.
Proof. split; vm_compute; reflexivity. Qed.

(** ** C18 *)
Theorem C18_missing_marker_rejected_on_device : forall pf s, w64 pf = false -> ~ In 36 s \/ ~ In 42 s ->
  verifyChecksum pf s = Ok false.
Proof. exact verify_missing. Qed.
Print Assumptions C18_missing_marker_rejected_on_device.
Theorem C18_never_reads_outside_on_device : forall pf s, w64 pf = false -> Z.of_nat (length s) < 2 ^ 32 ->
  exists b, verifyChecksum pf s = Ok b.
Proof. exact verify_total. Qed.
Print Assumptions C18_never_reads_outside_on_device.
Example C18_nonvacuous : w64 esp32 = false /\ ~ In 36 (bytes_of "GPRMC,1*00") /\ ~ In 42 (bytes_of "$GPRMC,1").
Proof. repeat split; intros H; simpl in H; intuition discriminate. Qed.

(** ** C70: '*' before '$' is accepted exactly when the number behind '*' is 0 (or missing) *)
Theorem C70_reversed_accepted_exactly : forall pf pre mid tail, ~ In 36 pre -> ~ In 42 pre -> ~ In 36 mid ->
  Z.of_nat (length (pre ++ 42 :: mid ++ 36 :: tail)) < 2 ^ 32 ->
  verifyChecksum pf (pre ++ 42 :: mid ++ 36 :: tail) =
  Ok (u32 (fst (strtol pf 16 (until_nul (mid ++ 36 :: tail)))) =? 0).
Proof. exact verify_reversed. Qed.
Print Assumptions C70_reversed_accepted_exactly.
(** ... so a sentence without any checksum sets the satellite count *)
Theorem C70_reversed_rejected_refuted :
  show_gnss (fromNMEA NumSF esp32 strict_iso lcSF g0 (bytes_of "*$GPGSV,1,1,99,")) =
  Some (true, (0, 0, 0), (0, 0, 0), (false, true, true), (0, 99), (Some 48000, Some 11000, Some 0, Some 0, Some 0)).
Proof. vm_compute. reflexivity. Qed.
Print Assumptions C70_reversed_rejected_refuted.

(** ** C71: with 64-bit size_t the npos test does not work *)
Theorem C71_missing_star_read_out_of_bounds_refuted : forall pf s, w64 pf = true -> ~ In 42 s -> Z.of_nat (length s) < 2 ^ 32 ->
  verifyChecksum pf s = UB OobRead.
Proof. exact verify_missing_star_64. Qed.
Print Assumptions C71_missing_star_read_out_of_bounds_refuted.
Theorem C71_missing_dollar_accepted_refuted : verifyChecksum pc64 (bytes_of "AB*03") = Ok true.
Proof. vm_compute. reflexivity. Qed.
Print Assumptions C71_missing_dollar_accepted_refuted.
Example C71_nonvacuous : w64 pc64 = true /\ ~ In 42 (bytes_of "$GPRMC") /\ Z.of_nat (length (bytes_of "$GPRMC")) < 2 ^ 32.
Proof. repeat split. intros H; simpl in H; intuition discriminate. Qed.

(** ** C19 *)
Theorem C19_rejected_sentence_changes_nothing : forall N pf oor lc g s g',
  fromNMEA N pf oor lc g s = Ok (false, g') -> g' = g.
Proof. exact nmea_false. Qed.
Print Assumptions C19_rejected_sentence_changes_nothing.
(** a buffer from which nothing is accepted changes nothing *)
Theorem C19_buffer_without_sentence_changes_nothing : forall N pf oor lc g s g',
  fromBuffer N pf oor lc g s = Ok (0, g') -> g' = g.
Proof. intros. apply (loop_count N pf oor lc) in H. apply H. reflexivity. Qed.
Print Assumptions C19_buffer_without_sentence_changes_nothing.
Example C19_nonvacuous : fromNMEA NumR esp32 strict_iso (dec_libc fdec_R) (gnss_init NumR 48%R 11%R) (bytes_of "$GPRMC,1*00") = Ok (false, gnss_init NumR 48%R 11%R).
Proof. reflexivity. Qed.

(** ** C20 *)
(** The fields, [h mi s f] = time of day, [dlat mlat] = whole degrees and minutes, [dd mm yy] = date.
    Any strtof that reads decimal numbers exactly. *)
Theorem C20_rmc_values_exact : forall pf oor (lc : libc NumR), strtof_decimal lc -> (forall m k, fdec lc m k = fdec_R m k) ->
  forall g r cs more (h mi s : Z) (f : R) (dlat dlon : Z) (mlat mlon : R) (dd mm yy : Z),
  rmc_ok r -> char_plain pf (rmc_payload r) -> hex2 cs more (xor_all (rmc_payload r)) ->
  (Z.of_nat (length (sentence (rmc_payload r) cs more)) < 2 ^ 32) ->
  (real_value (r_time r) = IZR (h * 10000 + mi * 100 + s) + f)%R ->
  0 <= h < 24 -> 0 <= mi < 60 -> 0 <= s < 60 -> (0 <= f < 1)%R ->
  (real_value (r_lat r) = 100 * IZR dlat + mlat)%R -> (0 <= mlat < 100)%R ->
  (real_value (r_lon r) = 100 * IZR dlon + mlon)%R -> (0 <= mlon < 100)%R ->
  digits_value (r_date r) = dd * 10000 + mm * 100 + yy -> 0 <= dd -> 0 <= mm < 100 -> 0 <= yy < 100 ->
  exists g', fromNMEA NumR pf oor lc g (sentence (rmc_payload r) cs more) = Ok (true, g') /\
    g_time g' = Tm s mi h dd mm (2000 + yy) /\
    g_valid g' = letter_is (r_status r) 65 /\ g_north g' = letter_is (r_ns r) 78 /\ g_east g' = letter_is (r_ew r) 69 /\
    (g_valid g' = true ->
       (g_latitude g' : R) = (sgn (g_north g') * (IZR dlat + mlat / 60))%R /\
       (g_longitude g' : R) = (sgn (g_east g') * (IZR dlon + mlon / 60))%R) /\
    (g_speed g' : R) = (real_value (r_speed r) / (19438444924 / 10000000000))%R /\
    g_course g' = real_value (r_course r) /\
    g_satUsed g' = g_satUsed g /\ g_satView g' = g_satView g /\ g_dilution g' = g_dilution g /\ g_altitude g' = g_altitude g.
Proof. exact rmc_R. Qed.
Print Assumptions C20_rmc_values_exact.
(** With float arithmetic: date and time are exact (up to 99 hundredths of a second), the position is
    within 1/40000 degree (less than 3 m). *)
Theorem C20_rmc_values_ieee : forall pf oor (lc : libc NumB), strtof_decimal lc -> (forall m k, fdec lc m k = fdec_B m k) ->
  forall g r cs more (h mi s : Z) (f : R) (dlat dlon : Z) (mlat mlon : R) (dd mm yy : Z),
  rmc_ok r -> char_plain pf (rmc_payload r) -> hex2 cs more (xor_all (rmc_payload r)) ->
  (Z.of_nat (length (sentence (rmc_payload r) cs more)) < 2 ^ 32) ->
  (real_value (r_time r) = IZR (h * 10000 + mi * 100 + s) + f)%R ->
  0 <= h < 24 -> 0 <= mi < 60 -> 0 <= s < 60 -> (0 <= f <= 99 / 100)%R ->
  (real_value (r_lat r) = 100 * IZR dlat + mlat)%R -> 0 <= dlat <= 180 -> (0 <= mlat < 60)%R ->
  (real_value (r_lon r) = 100 * IZR dlon + mlon)%R -> 0 <= dlon <= 180 -> (0 <= mlon < 60)%R ->
  digits_value (r_date r) = dd * 10000 + mm * 100 + yy -> 0 <= dd -> 0 <= mm < 100 -> 0 <= yy < 100 ->
  exists g', fromNMEA NumB pf oor lc g (sentence (rmc_payload r) cs more) = Ok (true, g') /\
    g_time g' = Tm s mi h dd mm (2000 + yy) /\
    g_valid g' = letter_is (r_status r) 65 /\ g_north g' = letter_is (r_ns r) 78 /\ g_east g' = letter_is (r_ew r) 69 /\
    (g_valid g' = true ->
       (Rabs (g_latitude g' - sgn (g_north g') * (IZR dlat + mlat / 60)) <= 1 / 40000)%R /\
       (Rabs (g_longitude g' - sgn (g_east g') * (IZR dlon + mlon / 60)) <= 1 / 40000)%R).
Proof. exact rmc_B. Qed.
Print Assumptions C20_rmc_values_ieee.
(** the repository's own test sentence meets the hypotheses *)
Definition rA : rmc := Rmc (NFrac (bytes_of "083055") (bytes_of "00")) (Some 65) (NFrac (bytes_of "4815") (bytes_of "69961")) (Some 78)
  (NFrac (bytes_of "01059") (bytes_of "02625")) (Some 69) (NFrac (bytes_of "2") (bytes_of "158")) NEmpty (bytes_of "291221") (bytes_of ",,A").
Lemma hex2_dec c1 c2 d1 d2 v : digit_in 16 c1 = Some d1 -> digit_in 16 c2 = Some d2 -> v = 16 * d1 + d2 -> hex2 [c1; c2] [] v.
Proof. intros. exists c1, c2, d1, d2. repeat split; auto. Qed.
Example C20_nonvacuous : sentence (rmc_payload rA) (bytes_of "79") [] = rmcA /\ rmc_ok rA /\ char_plain pc64 (rmc_payload rA) /\
  hex2 (bytes_of "79") [] (xor_all (rmc_payload rA)) /\
  (real_value (r_time rA) = IZR (8 * 10000 + 30 * 100 + 55) + 0)%R /\
  (real_value (r_lat rA) = 100 * IZR 48 + 1569961 / 100000)%R /\ (real_value (r_lon rA) = 100 * IZR 10 + 5902625 / 100000)%R /\
  digits_value (r_date rA) = 29 * 10000 + 12 * 100 + 21 /\
  strtof_decimal (dec_libc fdec_B) /\ strtof_decimal (dec_libc fdec_R).
Proof.
  split; [vm_compute; reflexivity|]. split.
  { unfold rmc_ok, rA. cbn [r_time r_status r_lat r_ns r_lon r_ew r_speed r_course r_date r_rest well_formed is_letter].
    repeat split; try (vm_compute; congruence); try discriminate; try (vm_compute; reflexivity). intros H; simpl in H; intuition discriminate. }
  split; [right; apply Forall_forall; intros x Hx; apply Z.ltb_lt; revert x Hx; apply forallb_forall; vm_compute; reflexivity|].
  split; [eapply hex2_dec; vm_compute; reflexivity|].
  split; [unfold real_value, rA, r_time; change (digits_value _) with 8305500; simpl; lra|].
  split; [unfold real_value, rA, r_lat; change (digits_value _) with 481569961; simpl; lra|].
  split; [unfold real_value, rA, r_lon; change (digits_value _) with 105902625; simpl; lra|].
  split; [vm_compute; reflexivity|]. split; apply dec_libc_decimal.
Qed.

(** ** C21 *)
Theorem C21_gga_values_exact : forall pf oor (lc : libc NumR), strtof_decimal lc -> (forall m k, fdec lc m k = fdec_R m k) ->
  forall g r cs more (h mi s : Z) (f : R) (dlat dlon : Z) (mlat mlon : R),
  gga_ok r -> char_plain pf (gga_payload r) -> hex2 cs more (xor_all (gga_payload r)) ->
  ~ In 36 (gga_payload r) -> ~ In 36 more ->
  (Z.of_nat (length (sentence (gga_payload r) cs more)) < 2 ^ 32) ->
  (real_value (a_time r) = IZR (h * 10000 + mi * 100 + s) + f)%R ->
  0 <= h < 24 -> 0 <= mi < 60 -> 0 <= s < 60 -> (0 <= f < 1)%R ->
  (real_value (a_lat r) = 100 * IZR dlat + mlat)%R -> (0 <= mlat < 100)%R ->
  (real_value (a_lon r) = 100 * IZR dlon + mlon)%R -> (0 <= mlon < 100)%R ->
  exists g', fromNMEA NumR pf oor lc g (sentence (gga_payload r) cs more) = Ok (true, g') /\
    g_time g' = Tm s mi h (tm_mday (g_time g)) (tm_mon (g_time g)) (tm_year (g_time g)) /\
    (g_valid g' = true <-> (digits_value (a_quality r) > 0)) /\ g_north g' = letter_is (a_ns r) 78 /\ g_east g' = letter_is (a_ew r) 69 /\
    (g_valid g' = true ->
       (g_latitude g' : R) = (sgn (g_north g') * (IZR dlat + mlat / 60))%R /\
       (g_longitude g' : R) = (sgn (g_east g') * (IZR dlon + mlon / 60))%R) /\
    g_satUsed g' = digits_value (a_used r) /\ g_dilution g' = real_value (a_dilution r) /\ g_altitude g' = real_value (a_altitude r) /\
    g_satView g' = g_satView g /\ g_speed g' = g_speed g /\ g_course g' = g_course g.
Proof. exact gga_R. Qed.
Print Assumptions C21_gga_values_exact.
Theorem C21_gga_values_ieee : forall pf oor (lc : libc NumB), strtof_decimal lc -> (forall m k, fdec lc m k = fdec_B m k) ->
  forall g r cs more (h mi s : Z) (f : R) (dlat dlon : Z) (mlat mlon : R),
  gga_ok r -> char_plain pf (gga_payload r) -> hex2 cs more (xor_all (gga_payload r)) ->
  ~ In 36 (gga_payload r) -> ~ In 36 more ->
  (Z.of_nat (length (sentence (gga_payload r) cs more)) < 2 ^ 32) ->
  (real_value (a_time r) = IZR (h * 10000 + mi * 100 + s) + f)%R ->
  0 <= h < 24 -> 0 <= mi < 60 -> 0 <= s < 60 -> (0 <= f <= 99 / 100)%R ->
  (real_value (a_lat r) = 100 * IZR dlat + mlat)%R -> 0 <= dlat <= 180 -> (0 <= mlat < 60)%R ->
  (real_value (a_lon r) = 100 * IZR dlon + mlon)%R -> 0 <= dlon <= 180 -> (0 <= mlon < 60)%R ->
  exists g', fromNMEA NumB pf oor lc g (sentence (gga_payload r) cs more) = Ok (true, g') /\
    g_time g' = Tm s mi h (tm_mday (g_time g)) (tm_mon (g_time g)) (tm_year (g_time g)) /\
    (g_valid g' = true <-> (digits_value (a_quality r) > 0)) /\ g_north g' = letter_is (a_ns r) 78 /\ g_east g' = letter_is (a_ew r) 69 /\
    (g_valid g' = true ->
       (Rabs (g_latitude g' - sgn (g_north g') * (IZR dlat + mlat / 60)) <= 1 / 40000)%R /\
       (Rabs (g_longitude g' - sgn (g_east g') * (IZR dlon + mlon / 60)) <= 1 / 40000)%R) /\
    g_satUsed g' = digits_value (a_used r) /\ g_dilution g' = b32 (real_value (a_dilution r)) /\ g_altitude g' = b32 (real_value (a_altitude r)).
Proof. exact gga_B. Qed.
Print Assumptions C21_gga_values_ieee.
(** GSV: every arithmetic *)
Theorem C21_gsv_values : forall (N : Num) pf oor (lc : libc N) g r cs more,
  gsv_ok r -> char_plain pf (gsv_payload r) -> hex2 cs more (xor_all (gsv_payload r)) ->
  ~ In 36 (gsv_payload r) -> ~ In 36 more ->
  Z.of_nat (length (sentence (gsv_payload r) cs more)) < 2 ^ 32 ->
  fromNMEA N pf oor lc g (sentence (gsv_payload r) cs more) =
   Ok (true, Gnss (g_time g) (g_valid g) (g_satUsed g) (digits_value (v_view r)) (g_dilution g) (g_latitude g) (g_longitude g)
                  (g_north g) (g_east g) (g_speed g) (g_course g) (g_altitude g)).
Proof. exact gsv_decode. Qed.
Print Assumptions C21_gsv_values.
Definition aA : gga := Gga (NFrac (bytes_of "083055") (bytes_of "00")) (NFrac (bytes_of "4815") (bytes_of "69961")) (Some 78)
  (NFrac (bytes_of "01059") (bytes_of "02625")) (Some 69) (bytes_of "1") (bytes_of "04") (NFrac (bytes_of "7") (bytes_of "80"))
  (NFrac (bytes_of "485") (bytes_of "8")) (bytes_of "M,46.8,M,,").
Definition vA : gsv := Gsv (bytes_of "3") (bytes_of "1") (bytes_of "12") (bytes_of "02,11,234,15,07,54,060,14,08,03,065,,09,20,099,23").
Example C21_nonvacuous :
  sentence (gga_payload aA) (bytes_of "50") [] = bytes_of "$GPGGA,083055.00,4815.69961,N,01059.02625,E,1,04,7.80,485.8,M,46.8,M,,*50" /\
  gga_ok aA /\ hex2 (bytes_of "50") [] (xor_all (gga_payload aA)) /\ ~ In 36 (gga_payload aA) /\
  sentence (gsv_payload vA) (bytes_of "7C") [] = bytes_of "$GPGSV,3,1,12,02,11,234,15,07,54,060,14,08,03,065,,09,20,099,23*7C" /\
  gsv_ok vA /\ hex2 (bytes_of "7C") [] (xor_all (gsv_payload vA)) /\ ~ In 36 (gsv_payload vA).
Proof.
  split; [vm_compute; reflexivity|]. split.
  { unfold gga_ok, aA. cbn [a_time a_lat a_ns a_lon a_ew a_quality a_used a_dilution a_altitude a_rest well_formed is_letter].
    repeat split; try (vm_compute; congruence); try discriminate; try (vm_compute; reflexivity). intros H; simpl in H; intuition discriminate. }
  split; [eapply hex2_dec; vm_compute; reflexivity|]. split; [intros H; simpl in H; intuition discriminate|].
  split; [vm_compute; reflexivity|]. split.
  { repeat split; try (vm_compute; congruence); try discriminate; try (vm_compute; reflexivity). intros H; simpl in H; intuition discriminate. }
  split; [eapply hex2_dec; vm_compute; reflexivity|]. intros H; simpl in H; intuition discriminate.
Qed.

(** ** C22: any string, any arithmetic *)
Theorem C22_no_fix_keeps_position : forall N pf oor lc g s b g',
  fromNMEA N pf oor lc g s = Ok (b, g') -> g_valid g' = false ->
  g_latitude g' = g_latitude g /\ g_longitude g' = g_longitude g.
Proof. exact nmea_nofix. Qed.
Print Assumptions C22_no_fix_keeps_position.
(** the same in terms of the sentence: an RMC sentence whose status field is not "A" and a GGA sentence whose
    quality is 0 leave the position as it was, and the fix is reported invalid *)
Theorem C22_rmc_without_A_keeps_position : forall (N : Num) pf oor (lc : libc N), strtof_decimal lc ->
  forall g r cs more g', rmc_ok r -> char_plain pf (rmc_payload r) -> hex2 cs more (xor_all (rmc_payload r)) ->
  Z.of_nat (length (sentence (rmc_payload r) cs more)) < 2 ^ 32 ->
  r_status r <> Some 65 ->
  fromNMEA N pf oor lc g (sentence (rmc_payload r) cs more) = Ok (true, g') ->
  g_valid g' = false /\ g_latitude g' = g_latitude g /\ g_longitude g' = g_longitude g.
Proof.
  intros N pf oor lc Hd g r cs more g' H1 H2 H3 H4 S1 E. rewrite (rmc_decode N pf oor lc Hd) in E by auto.
  destruct (decode_time N oor (fvalue lc (r_time r)) (g_time g)); cbn [bind] in E; [|discriminate].
  assert (Q : is_char (r_status r) 65 = false).
  { unfold is_char. destruct (r_status r) as [x|]; [|reflexivity]. apply Z.eqb_neq. congruence. }
  rewrite Q in E. inversion E; subst. simpl. auto.
Qed.
Print Assumptions C22_rmc_without_A_keeps_position.
Theorem C22_gga_quality_0_keeps_position : forall (N : Num) pf oor (lc : libc N), strtof_decimal lc ->
  forall g r cs more g', gga_ok r -> char_plain pf (gga_payload r) -> hex2 cs more (xor_all (gga_payload r)) ->
  ~ In 36 (gga_payload r) -> ~ In 36 more ->
  Z.of_nat (length (sentence (gga_payload r) cs more)) < 2 ^ 32 ->
  digits_value (a_quality r) = 0 ->
  fromNMEA N pf oor lc g (sentence (gga_payload r) cs more) = Ok (true, g') ->
  g_valid g' = false /\ g_latitude g' = g_latitude g /\ g_longitude g' = g_longitude g.
Proof.
  intros N pf oor lc Hd g r cs more g' H1 H2 H3 H4 H5 H6 S1 E. rewrite (gga_decode N pf oor lc Hd) in E by auto.
  destruct (decode_time N oor (fvalue lc (a_time r)) (g_time g)); cbn [bind] in E; [|discriminate].
  rewrite S1 in E. inversion E; subst. simpl. auto.
Qed.
Print Assumptions C22_gga_quality_0_keeps_position.
Example C22_nonvacuous : show_gnss (fromNMEA NumSF esp32 strict_iso lcSF g0 (bytes_of "$GPRMC,165011.00,V,,,,,,,291221,,,N*74")) =
  Some (true, (16, 50, 11), (2021, 12, 29), (false, false, false), (0, 0), (Some 48000, Some 11000, Some 0, Some 0, Some 0)).
Proof. vm_compute. reflexivity. Qed.

Definition rV0 : rmc := Rmc (NFrac (bytes_of "165011") (bytes_of "00")) (Some 86) NEmpty None NEmpty None NEmpty NEmpty (bytes_of "291221") (bytes_of ",,N").
Definition aV0 : gga := Gga (NFrac (bytes_of "165011") (bytes_of "00")) NEmpty None NEmpty None (bytes_of "0") (bytes_of "00")
  (NFrac (bytes_of "99") (bytes_of "99")) NEmpty (bytes_of ",,,,").
Example C22_sentences_nonvacuous :
  rmc_ok rV0 /\ sentence (rmc_payload rV0) (bytes_of "74") [] = bytes_of "$GPRMC,165011.00,V,,,,,,,291221,,,N*74" /\
  hex2 (bytes_of "74") [] (xor_all (rmc_payload rV0)) /\
  gga_ok aV0 /\ sentence (gga_payload aV0) (bytes_of "64") [] = bytes_of "$GPGGA,165011.00,,,,,0,00,99.99,,,,,,*64" /\
  hex2 (bytes_of "64") [] (xor_all (gga_payload aV0)) /\ ~ In 36 (gga_payload aV0) /\
  show_gnss (fromNMEA NumSF esp32 strict_iso lcSF g0 (bytes_of "$GPGGA,165011.00,,,,,0,00,99.99,,,,,,*64")) =
  Some (true, (16, 50, 11), (0, 0, 0), (false, false, false), (0, 0), (Some 48000, Some 11000, Some 0, Some 0, Some 0)).
Proof.
  split. { unfold rmc_ok, rV0. cbn [r_time r_status r_lat r_ns r_lon r_ew r_speed r_course r_date r_rest well_formed is_letter].
    repeat split; try (vm_compute; congruence); try discriminate; try (vm_compute; reflexivity). intros H; simpl in H; intuition discriminate. }
  split; [vm_compute; reflexivity|]. split; [eapply hex2_dec; vm_compute; reflexivity|]. split.
  { unfold gga_ok, aV0. cbn [a_time a_lat a_ns a_lon a_ew a_quality a_used a_dilution a_altitude a_rest well_formed is_letter].
    repeat split; try (vm_compute; congruence); try discriminate; try (vm_compute; reflexivity). intros H; simpl in H; intuition discriminate. }
  split; [vm_compute; reflexivity|]. split; [eapply hex2_dec; vm_compute; reflexivity|]. split; [intros H; simpl in H; intuition discriminate|].
  vm_compute. reflexivity.
Qed.

(** ** C72: the hemisphere flags are overwritten although the coordinates are kept: 48N 11E (as in
    [g0]) becomes "48, south, west" in every arithmetic *)
Theorem C72_hemisphere_flags_kept_refuted : forall (N : Num) pf oor (lc : libc N), strtof_decimal lc ->
  forall g r cs more g', rmc_ok r -> char_plain pf (rmc_payload r) -> hex2 cs more (xor_all (rmc_payload r)) ->
  Z.of_nat (length (sentence (rmc_payload r) cs more)) < 2 ^ 32 ->
  r_status r = Some 86 -> r_ns r = None -> r_ew r = None ->
  fromNMEA N pf oor lc g (sentence (rmc_payload r) cs more) = Ok (true, g') ->
  g_latitude g' = g_latitude g /\ g_longitude g' = g_longitude g /\ g_north g' = false /\ g_east g' = false.
Proof.
  intros N pf oor lc Hd g r cs more g' H1 H2 H3 H4 S1 S2 S3 E. rewrite (rmc_decode N pf oor lc Hd) in E by auto.
  destruct (decode_time N oor (fvalue lc (r_time r)) (g_time g)); cbn [bind] in E; [|discriminate].
  rewrite S1, S2, S3 in E. inversion E; subst. simpl. auto.
Qed.
Print Assumptions C72_hemisphere_flags_kept_refuted.
Definition rV : rmc := Rmc (NFrac (bytes_of "165011") (bytes_of "00")) (Some 86) NEmpty None NEmpty None NEmpty NEmpty (bytes_of "291221") (bytes_of ",,N").
Example C72_nonvacuous : g_north g0 = true /\ g_east g0 = true /\ rmc_ok rV /\
  sentence (rmc_payload rV) (bytes_of "74") [] = bytes_of "$GPRMC,165011.00,V,,,,,,,291221,,,N*74" /\ hex2 (bytes_of "74") [] (xor_all (rmc_payload rV)).
Proof.
  split; [reflexivity|]. split; [reflexivity|]. split.
  { unfold rmc_ok, rV. cbn [r_time r_status r_lat r_ns r_lon r_ew r_speed r_course r_date r_rest well_formed is_letter].
    repeat split; try (vm_compute; congruence); try discriminate; try (vm_compute; reflexivity). intros H; simpl in H; intuition discriminate. }
  split; [vm_compute; reflexivity|]. eapply hex2_dec; vm_compute; reflexivity.
Qed.

(** ** C23 *)
(** Full property: no string makes fromNMEA read outside.  Missing here: strings with fewer separators
    behind the header, for which it is false (below).
    [no_oob r]: r is not an out-of-bounds access; [policy_ok oor]: neither is the result of a conversion. *)
Theorem C23_enough_separators_safe_partial : forall N pf oor lc, strtof_bounded lc -> policy_ok oor ->
  forall s, w64 pf = false -> Z.of_nat (length s) < 2 ^ 32 -> forall g,
  (forall pos, find_sub RMC_HEADER s = Some pos -> (9 <= commas (skipn (pos + 6) s))%nat) ->
  (forall pos, find_sub GGA_HEADER s = Some pos -> (9 <= commas (skipn (pos + 6) s))%nat) ->
  (forall pos, find_sub GSV_HEADER s = Some pos -> (3 <= commas (skipn (pos + 6) s))%nat) ->
  no_oob (fromNMEA N pf oor lc g s).
Proof. exact nmea_safe. Qed.
Print Assumptions C23_enough_separators_safe_partial.
Example C23_nonvacuous : strtof_bounded lcSF /\ policy_ok strict_iso /\ find_sub RMC_HEADER rmcA = Some O /\
  (9 <= commas (skipn (0 + 6) rmcA))%nat /\ find_sub GGA_HEADER rmcA = None.
Proof.
  split; [apply dec_libc_bounded|]. split; [intros z u H; inversion H; repeat split; discriminate|].
  split; [reflexivity|]. split; [vm_compute; lia|reflexivity].
Qed.
(** sentences with a correct checksum but too few fields *)
Theorem C23_short_sentence_read_outside_refuted :
  map (fun s => show_gnss (fromNMEA NumSF esp32 strict_iso lcSF g0 (bytes_of s)))
    ["$GPRMC*4B"; "$GPGGA*56"; "$GPRMC,165011.00,V*31"]%string = [None; None; None] /\
  map (fun s => verifyChecksum esp32 (bytes_of s)) ["$GPRMC*4B"; "$GPGGA*56"; "$GPRMC,165011.00,V*31"]%string = [Ok true; Ok true; Ok true] /\
  (match fromNMEA NumSF esp32 strict_iso lcSF g0 (bytes_of "$GPRMC*4B") with UB u => Some u | Ok _ => None end) = Some OobRead.
Proof. repeat split; vm_compute; reflexivity. Qed.
Print Assumptions C23_short_sentence_read_outside_refuted.

(** ** C24 *)
Theorem C24_time_of_day_ieee : forall oor (h m s : Z) (f : R) t,
  0 <= h < 24 -> 0 <= m < 60 -> 0 <= s < 60 -> (0 <= f <= 99 / 100)%R ->
  decode_time NumB oor (b32 (IZR (h * 10000 + m * 100 + s) + f)) t = Ok (Tm s m h (tm_mday t) (tm_mon t) (tm_year t)).
Proof. exact decode_time_B. Qed.
Print Assumptions C24_time_of_day_ieee.
Theorem C24_time_of_day_exact : forall oor (h m s : Z) (f : R) t,
  0 <= h < 24 -> 0 <= m < 60 -> 0 <= s < 60 -> (0 <= f < 1)%R ->
  decode_time NumR oor (IZR (h * 10000 + m * 100 + s) + f)%R t = Ok (Tm s m h (tm_mday t) (tm_mon t) (tm_year t)).
Proof. exact decode_time_R. Qed.
Print Assumptions C24_time_of_day_exact.
Example C24_nonvacuous : show_gnss (fromNMEA NumSF esp32 strict_iso lcSF g0 (bytes_of "$GPRMC,235959.99,V,,,,,,,291221,,,N*77")) =
  Some (true, (23, 59, 59), (2021, 12, 29), (false, false, false), (0, 0), (Some 48000, Some 11000, Some 0, Some 0, Some 0)).
Proof. vm_compute. reflexivity. Qed.
(** ** C73: three decimals: 23:59:59.999 is decoded as 23:59:60 *)
Theorem C73_milliseconds_refuted : show_gnss (fromNMEA NumSF esp32 strict_iso lcSF g0 (bytes_of "$GPRMC,235959.999,V,,,,,,,291221,,,N*4E")) =
  Some (true, (23, 59, 60), (2021, 12, 29), (false, false, false), (0, 0), (Some 48000, Some 11000, Some 0, Some 0, Some 0)).
Proof. vm_compute. reflexivity. Qed.
Print Assumptions C73_milliseconds_refuted.

(** ** C25 *)
(** the loop ends on every buffer: more iterations than length+2 never change the result *)
Theorem C25_terminates : forall N pf oor lc g s k,
  buffer_loop N pf oor lc (length s + 2 + k) s 0 0 g = fromBuffer N pf oor lc g s.
Proof. exact buffer_fuel. Qed.
Print Assumptions C25_terminates.
(** Lines "junk$body\n" (every line holds a '$') and an unfinished tail: exactly the sentences "$body\n"
    are given to fromNMEA, in order, and the number of accepted ones is returned. *)
Theorem C25_complete_lines_parsed : forall N pf oor lc lines tail g, Forall line_ok lines -> ~ In 10 tail ->
  fromBuffer N pf oor lc g (List.concat (map line_text lines) ++ tail) = feed N pf oor lc (map line_sentence lines) 0 g.
Proof. exact buffer_lines. Qed.
Print Assumptions C25_complete_lines_parsed.
Definition show_buffer (r : res (Z * gnss NumSF)) := match r with Ok (n, g) => Some (n, g_satView g) | UB _ => None end.
Example C25_nonvacuous :
  let line (s : string) := ([], tl (bytes_of s)) in
  let lines := [line "$GPGSV,1,1,05,*50"%string; line "$GPGSV,1,1,06,*00"%string; line "$GPGSV,1,1,07,*52"%string] in
  forallb (fun l => negb (existsb (fun c => c =? 10) (snd l))) lines = true /\
  show_buffer (fromBuffer NumSF esp32 strict_iso lcSF g0 (List.concat (map line_text lines) ++ bytes_of "$GPGSV,1")) = Some (2, 7).
Proof. split; vm_compute; reflexivity. Qed.
(** ** C74: a line without '$' shifts '$' against the line ends: the next sentence is counted twice,
    and an unfinished last sentence is parsed *)
Theorem C74_line_without_dollar_refuted :
  show_buffer (fromBuffer NumSF esp32 strict_iso lcSF g0 (bytes_of ("x" ++ lf ++ "x$GPGSV,1,1,05,*50" ++ lf))) = Some (2, 5) /\
  show_buffer (fromBuffer NumSF esp32 strict_iso lcSF g0 (bytes_of ("x" ++ lf ++ "x$GPGSV,1,1,05,*50"))) = Some (1, 5).
Proof. split; vm_compute; reflexivity. Qed.
Print Assumptions C74_line_without_dollar_refuted.
