(** Decoded values of whole sentences. *)
From Verif Require Import Base Num M_Libc M_Helper M_Gnss S_Gnss P_Libc P_Gnss P_Gnss2 P_Gnss3 P_Round.
From Coq Require Import Reals Lra Psatz.
From Flocq Require Import Core.
Open Scope Z_scope.

Lemma fvalue_R (lc : libc NumR) n : (forall m k, fdec lc m k = fdec_R m k) -> fvalue lc n = real_value n.
Proof.
  intros H. destruct n; simpl; try reflexivity; rewrite H; unfold fdec_R; simpl; [|reflexivity]. change (IZR (10 ^ 0)) with 1%R; unfold Rdiv; rewrite Rinv_1, Rmult_1_r; reflexivity.
Qed.
Lemma fvalue_B (lc : libc NumB) n : (forall m k, fdec lc m k = fdec_B m k) -> fvalue lc n = b32 (real_value n).
Proof.
  intros H. destruct n; cbn [fvalue real_value]; try (rewrite H; unfold fdec_B).
  - cbn [fZ NumB]. rewrite b64_of_int, b32_of_int by lia. reflexivity.
  - f_equal. simpl. change (IZR (10 ^ 0)) with 1%R; unfold Rdiv; rewrite Rinv_1, Rmult_1_r; reflexivity.
  - reflexivity.
Qed.

Lemma nmea_bad N pf oor lc g s : verifyChecksum pf s = Ok false -> fromNMEA N pf oor lc g s = Ok (false, g).
Proof.
  intros V. unfold fromNMEA, fromRMC, fromGGA, fromGSV. rewrite V. cbn [bind negb].
  destruct (find_sub RMC_HEADER s); [reflexivity|]. destruct (find_sub GGA_HEADER s); [reflexivity|].
  destruct (find_sub GSV_HEADER s); reflexivity.
Qed.

Lemma nmea_nofix N pf oor lc g s b g' : fromNMEA N pf oor lc g s = Ok (b, g') -> g_valid g' = false ->
  g_latitude g' = g_latitude g /\ g_longitude g' = g_longitude g.
Proof.
  unfold fromNMEA, fromRMC, fromGGA, fromGSV.
  destruct (verifyChecksum pf s) as [[|]|]; cbn [bind negb].
  2:{ destruct (find_sub RMC_HEADER s); destruct (find_sub GGA_HEADER s); destruct (find_sub GSV_HEADER s); intros H; inversion H; auto. }
  2:{ destruct (find_sub RMC_HEADER s); destruct (find_sub GGA_HEADER s); destruct (find_sub GSV_HEADER s); intros H; inversion H; auto. }
  destruct (find_sub RMC_HEADER s); [|destruct (find_sub GGA_HEADER s); [|destruct (find_sub GSV_HEADER s)]];
    intros H; repeat step_bind H; inversion H; subst; cbn [g_valid g_latitude g_longitude]; auto; intros ->; auto.
Qed.

(** a sentence without enough commas: what the RMC decoder does when the sentence ends right behind the header *)
Open Scope R_scope.
Section Exact.
Context (pf : platform) (oor : conv_policy) (lc : libc NumR).
Context (Hd : strtof_decimal lc) (Hv : forall m k, fdec lc m k = fdec_R m k).

Lemma rmc_R g r cs more (h mi s : Z) (f : R) (dlat dlon : Z) (mlat mlon : R) (dd mm yy : Z) :
  rmc_ok r -> char_plain pf (rmc_payload r) -> hex2 cs more (xor_all (rmc_payload r)) ->
  (Z.of_nat (length (sentence (rmc_payload r) cs more)) < 2 ^ 32)%Z ->
  real_value (r_time r) = IZR (h * 10000 + mi * 100 + s) + f ->
  (0 <= h < 24)%Z -> (0 <= mi < 60)%Z -> (0 <= s < 60)%Z -> 0 <= f < 1 ->
  real_value (r_lat r) = 100 * IZR dlat + mlat -> 0 <= mlat < 100 ->
  real_value (r_lon r) = 100 * IZR dlon + mlon -> 0 <= mlon < 100 ->
  digits_value (r_date r) = (dd * 10000 + mm * 100 + yy)%Z -> (0 <= dd)%Z -> (0 <= mm < 100)%Z -> (0 <= yy < 100)%Z ->
  exists g', fromNMEA NumR pf oor lc g (sentence (rmc_payload r) cs more) = Ok (true, g') /\
    g_time g' = Tm s mi h dd mm (2000 + yy) /\
    g_valid g' = letter_is (r_status r) 65 /\ g_north g' = letter_is (r_ns r) 78 /\ g_east g' = letter_is (r_ew r) 69 /\
    (g_valid g' = true ->
       (g_latitude g' : R) = sgn (g_north g') * (IZR dlat + mlat / 60) /\
       (g_longitude g' : R) = sgn (g_east g') * (IZR dlon + mlon / 60)) /\
    (g_speed g' : R) = real_value (r_speed r) / (19438444924 / 10000000000) /\
    g_course g' = real_value (r_course r) /\
    g_satUsed g' = g_satUsed g /\ g_satView g' = g_satView g /\ g_dilution g' = g_dilution g /\ g_altitude g' = g_altitude g.
Proof.
  intros Hok Hp Hx HL Et Hh Hm Hs Hf Elat Rlat Elon Rlon Ed D1 D2 D3.
  rewrite (rmc_decode NumR pf oor lc Hd) by auto.
  rewrite !(fvalue_R lc) by auto. rewrite Et, decode_time_R by auto. cbn [bind].
  eexists. split; [reflexivity|]. cbn [g_time g_valid g_north g_east g_latitude g_longitude g_speed g_course g_satUsed g_satView g_dilution g_altitude].
  rewrite Ed, decode_date_spec by auto. cbn [tm_sec tm_min tm_hour].
  repeat split; auto; rewrite H.
  - rewrite Elat. apply decode_degrees_R; auto.
  - rewrite Elon. apply decode_degrees_R; auto.
Qed.

Lemma gga_R g r cs more (h mi s : Z) (f : R) (dlat dlon : Z) (mlat mlon : R) :
  gga_ok r -> char_plain pf (gga_payload r) -> hex2 cs more (xor_all (gga_payload r)) ->
  ~ In 36%Z (gga_payload r) -> ~ In 36%Z more ->
  (Z.of_nat (length (sentence (gga_payload r) cs more)) < 2 ^ 32)%Z ->
  real_value (a_time r) = IZR (h * 10000 + mi * 100 + s) + f ->
  (0 <= h < 24)%Z -> (0 <= mi < 60)%Z -> (0 <= s < 60)%Z -> 0 <= f < 1 ->
  real_value (a_lat r) = 100 * IZR dlat + mlat -> 0 <= mlat < 100 ->
  real_value (a_lon r) = 100 * IZR dlon + mlon -> 0 <= mlon < 100 ->
  exists g', fromNMEA NumR pf oor lc g (sentence (gga_payload r) cs more) = Ok (true, g') /\
    g_time g' = Tm s mi h (tm_mday (g_time g)) (tm_mon (g_time g)) (tm_year (g_time g)) /\
    (g_valid g' = true <-> (digits_value (a_quality r) > 0)%Z) /\ g_north g' = letter_is (a_ns r) 78 /\ g_east g' = letter_is (a_ew r) 69 /\
    (g_valid g' = true ->
       (g_latitude g' : R) = sgn (g_north g') * (IZR dlat + mlat / 60) /\
       (g_longitude g' : R) = sgn (g_east g') * (IZR dlon + mlon / 60)) /\
    g_satUsed g' = digits_value (a_used r) /\ g_dilution g' = real_value (a_dilution r) /\ g_altitude g' = real_value (a_altitude r) /\
    g_satView g' = g_satView g /\ g_speed g' = g_speed g /\ g_course g' = g_course g.
Proof.
  intros Hok Hp Hx Hd1 Hd2 HL Et Hh Hm Hs Hf Elat Rlat Elon Rlon.
  rewrite (gga_decode NumR pf oor lc Hd) by auto.
  rewrite !(fvalue_R lc) by auto. rewrite Et, decode_time_R by auto. cbn [bind].
  eexists. split; [reflexivity|]. cbn [g_time g_valid g_north g_east g_latitude g_longitude g_speed g_course g_satUsed g_satView g_dilution g_altitude].
  repeat split; auto; try (rewrite Z.ltb_lt; lia); rewrite H.
  - rewrite Elat. apply decode_degrees_R; auto.
  - rewrite Elon. apply decode_degrees_R; auto.
Qed.
End Exact.

Section Ieee.
Context (pf : platform) (oor : conv_policy) (lc : libc NumB).
Context (Hd : strtof_decimal lc) (Hv : forall m k, fdec lc m k = fdec_B m k).
Lemma rmc_B g r cs more (h mi s : Z) (f : R) (dlat dlon : Z) (mlat mlon : R) (dd mm yy : Z) :
  rmc_ok r -> char_plain pf (rmc_payload r) -> hex2 cs more (xor_all (rmc_payload r)) ->
  (Z.of_nat (length (sentence (rmc_payload r) cs more)) < 2 ^ 32)%Z ->
  real_value (r_time r) = IZR (h * 10000 + mi * 100 + s) + f ->
  (0 <= h < 24)%Z -> (0 <= mi < 60)%Z -> (0 <= s < 60)%Z -> 0 <= f <= 99 / 100 ->
  real_value (r_lat r) = 100 * IZR dlat + mlat -> (0 <= dlat <= 180)%Z -> 0 <= mlat < 60 ->
  real_value (r_lon r) = 100 * IZR dlon + mlon -> (0 <= dlon <= 180)%Z -> 0 <= mlon < 60 ->
  digits_value (r_date r) = (dd * 10000 + mm * 100 + yy)%Z -> (0 <= dd)%Z -> (0 <= mm < 100)%Z -> (0 <= yy < 100)%Z ->
  exists g', fromNMEA NumB pf oor lc g (sentence (rmc_payload r) cs more) = Ok (true, g') /\
    g_time g' = Tm s mi h dd mm (2000 + yy) /\
    g_valid g' = letter_is (r_status r) 65 /\ g_north g' = letter_is (r_ns r) 78 /\ g_east g' = letter_is (r_ew r) 69 /\
    (g_valid g' = true ->
       Rabs (g_latitude g' - sgn (g_north g') * (IZR dlat + mlat / 60)) <= 1 / 40000 /\
       Rabs (g_longitude g' - sgn (g_east g') * (IZR dlon + mlon / 60)) <= 1 / 40000).
Proof.
  intros Hok Hp Hx HL Et Hh Hm Hs Hf Elat Dlat Rlat Elon Dlon Rlon Ed D1 D2 D3.
  rewrite (rmc_decode NumB pf oor lc Hd) by auto.
  rewrite !(fvalue_B lc) by auto. rewrite Et, decode_time_B by auto. cbn [bind].
  eexists. split; [reflexivity|]. cbn [g_time g_valid g_north g_east g_latitude g_longitude g_speed g_course g_satUsed g_satView g_dilution g_altitude].
  rewrite Ed, decode_date_spec by auto. cbn [tm_sec tm_min tm_hour].
  repeat split; auto; rewrite H.
  - rewrite Elat. apply decode_degrees_B; auto.
  - rewrite Elon. apply decode_degrees_B; auto.
Qed.
Lemma gga_B g r cs more (h mi s : Z) (f : R) (dlat dlon : Z) (mlat mlon : R) :
  gga_ok r -> char_plain pf (gga_payload r) -> hex2 cs more (xor_all (gga_payload r)) ->
  ~ In 36%Z (gga_payload r) -> ~ In 36%Z more ->
  (Z.of_nat (length (sentence (gga_payload r) cs more)) < 2 ^ 32)%Z ->
  real_value (a_time r) = IZR (h * 10000 + mi * 100 + s) + f ->
  (0 <= h < 24)%Z -> (0 <= mi < 60)%Z -> (0 <= s < 60)%Z -> 0 <= f <= 99 / 100 ->
  real_value (a_lat r) = 100 * IZR dlat + mlat -> (0 <= dlat <= 180)%Z -> 0 <= mlat < 60 ->
  real_value (a_lon r) = 100 * IZR dlon + mlon -> (0 <= dlon <= 180)%Z -> 0 <= mlon < 60 ->
  exists g', fromNMEA NumB pf oor lc g (sentence (gga_payload r) cs more) = Ok (true, g') /\
    g_time g' = Tm s mi h (tm_mday (g_time g)) (tm_mon (g_time g)) (tm_year (g_time g)) /\
    (g_valid g' = true <-> (digits_value (a_quality r) > 0)%Z) /\ g_north g' = letter_is (a_ns r) 78 /\ g_east g' = letter_is (a_ew r) 69 /\
    (g_valid g' = true ->
       Rabs (g_latitude g' - sgn (g_north g') * (IZR dlat + mlat / 60)) <= 1 / 40000 /\
       Rabs (g_longitude g' - sgn (g_east g') * (IZR dlon + mlon / 60)) <= 1 / 40000) /\
    g_satUsed g' = digits_value (a_used r) /\ g_dilution g' = b32 (real_value (a_dilution r)) /\ g_altitude g' = b32 (real_value (a_altitude r)).
Proof.
  intros Hok Hp Hx Hd1 Hd2 HL Et Hh Hm Hs Hf Elat Dlat Rlat Elon Dlon Rlon.
  rewrite (gga_decode NumB pf oor lc Hd) by auto.
  rewrite !(fvalue_B lc) by auto. rewrite Et, decode_time_B by auto. cbn [bind].
  eexists. split; [reflexivity|]. cbn [g_time g_valid g_north g_east g_latitude g_longitude g_speed g_course g_satUsed g_satView g_dilution g_altitude].
  repeat split; auto; try (rewrite Z.ltb_lt; lia); rewrite H.
  - rewrite Elat. apply decode_degrees_B; auto.
  - rewrite Elon. apply decode_degrees_B; auto.
Qed.
End Ieee.
